(** Model of what a resumed Simulation knows of the options of its components: core/base.py (76, 1016-1020),
    core/simulation.py (125-214, 1277-1321), utils/general_utils.py (12-31), the constructors of
    morphology/__init__.py, basicmoon.py, scaling/montecarlo.py, projectile/__init__.py and of the
    surfaces.  The configuration file holds, for each component, its name and the Parameters whose names
    are in _user_defined, a set that CratermakerBase.__init__ makes anew.  Simplifications: floats are
    reals (rationals in the part on scaling, as in Conf_model); values have the right type; the Simulation
    is resumed without component arguments. *)
From Coq Require Import Reals QArith.
From Verif Require Import Common Conf_model Proj_model.
Import ListNotations.
Open Scope string_scope.

(** An option of a component: its value, and whether its name is in _user_defined. *)
Record opt (A : Type) := mkOpt { o_val : A; o_rec : bool }.
Arguments mkOpt {A}. Arguments o_val {A}. Arguments o_rec {A}.
(** When the constructor stores an option: through the setter of the Parameter after the base class is
    initialised, or earlier (the set of names is then made anew) or past the setter. *)
Inductive storing := AfterBase | BeforeBase | PastSetter.
(** The options and where they are stored: basicmoon.py:166-171; morphology/__init__.py:425-426;
    montecarlo.py:103; projectile/__init__.py:97-98; icosphere.py:61-62; arbitrary_resolution.py:49-50;
    hireslocal.py:76-83. *)
Definition stores : list (string * storing) :=
  [ ("ejecta_truncation", BeforeBase); ("dorays", BeforeBase);
    ("do_subpixel_degradation", AfterBase); ("do_slope_collapse", AfterBase);
    ("monte_carlo_scaling", PastSetter); ("sample", PastSetter);
    ("gridlevel", AfterBase); ("pix", AfterBase); ("local_radius", AfterBase); ("local_location", AfterBase) ].
Definition recorded_by (s : storing) : bool := match s with AfterBase => true | BeforeBase => false | PastSetter => false end.
(** Construction with a keyword argument (or none) and a default value. *)
Definition build {A} (s : storing) (default : A) (arg : option A) : opt A :=
  mkOpt (match arg with Some x => x | None => default end) (recorded_by s).
(** Assignment: general_utils.py:23-30. *)
Definition assign_opt {A} (x : A) (o : opt A) : opt A := mkOpt x true.
(** What the configuration holds: base.py:1016-1020. *)
Definition saved {A} (o : opt A) : option A := if o_rec o then Some (o_val o) else None.
(** The option of the component of the resumed Simulation: simulation.py:145-171. *)
Definition resumed {A} (s : storing) (default : A) (o : opt A) : opt A := build s default (saved o).

(** do_counting: basicmoon.py:171, morphology/__init__.py:400, 408-412, 420-424, 822-846: the setter of
    counting assigns True, the argument comes after.  A Simulation always passes a Counting object and its
    own argument do_counting (True by default) in place of the saved one: simulation.py:205. *)
Definition build_counting (arg : option bool) : opt bool :=
  match arg with Some b => mkOpt b true | None => mkOpt true true end.
Definition resumed_counting (argument : bool) (o : opt bool) : opt bool := build_counting (Some argument).

(** The projectile component: Proj_model.maker; the density is stored past the setter by the constructor and
    assigned by new_projectile when it is given (projectile/__init__.py:350-351); velocity, angle,
    direction and location are not Parameters, sample and mean_velocity are stored past the setter. *)
Section Projectiles.
Variable normalize : (R * R) -> result (R * R).
Record sim_projectile := mkSP { sp_obj : projectile; sp_density_rec : bool }.
Definition new_sim_projectile (w : which) (a : args) (t : body) (d : draws) : result sim_projectile :=
  rbind (maker normalize w a t d) (fun p => Ok (mkSP p (match a_density a with Some _ => true | None => false end))).
Definition saved_density (s : sim_projectile) : option R := if sp_density_rec s then p_density (sp_obj s) else None.
(** The name in the configuration is that of the population: the projectile is made by name. *)
Definition resumed_projectile (t : body) (d : draws) (s : sim_projectile) : result sim_projectile :=
  new_sim_projectile (ByName (p_pop (sp_obj s))) (mkArgs true None None (saved_density s) None None None) t d.
End Projectiles.

(** The scaling component: material, K1, mu and Ybar are assigned by the constructor after the base class
    (montecarlo.py:105-119), so that all four are saved; the density is a parameter of the target. *)
Definition saved_scaling (s : scal) : scal_args :=
  {| sa_material := s_material s; sa_K1 := s_K1 s; sa_mu := s_mu s; sa_Ybar := s_Ybar s; sa_density := None |}.
Definition resumed_scaling (t : target) (s : scal) : result scal := scal_init t (saved_scaling s).
