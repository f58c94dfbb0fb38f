(** Vocabulary for C111. *)
From Coq Require Import Reals QArith.
From Verif Require Import Common Conf_model Proj_model Options_model.
Import ListNotations.
Open Scope string_scope.

(** What a user does with an option of a Simulation: assign it, or save the Simulation and resume it. *)
Inductive act (A : Type) := Set_to (x : A) | Save_resume.
Arguments Set_to {A}. Arguments Save_resume {A}.
Fixpoint after {A} (s : storing) (default : A) (o : opt A) (l : list (act A)) : opt A :=
  match l with
  | [] => o
  | Set_to x :: r => after s default (assign_opt x o) r
  | Save_resume :: r => after s default (resumed s default o) r
  end.
(** The value of the option [name] after a history that begins with a construction. *)
Definition storing_of (name : string) : storing :=
  match find (fun p => String.eqb (fst p) name) stores with Some p => snd p | None => PastSetter end.
Definition value_after {A} (name : string) (default : A) (arg : option A) (l : list (act A)) : A :=
  o_val (after (storing_of name) default (build (storing_of name) default arg) l).
(** What the user expects: the last value assigned, else the one the Simulation was made with. *)
Fixpoint wanted {A} (x : A) (l : list (act A)) : A :=
  match l with [] => x | Set_to y :: r => wanted y r | Save_resume :: r => wanted x r end.
Definition made_with {A} (default : A) (arg : option A) : A := match arg with Some x => x | None => default end.
Definition no_resume {A} (l : list (act A)) : Prop := ~ In Save_resume l.

Definition kept_options : list string :=
  ["do_subpixel_degradation"; "do_slope_collapse"; "gridlevel"; "pix"; "local_radius"; "local_location"].
Definition lost_options : list string := ["ejecta_truncation"; "dorays"; "monte_carlo_scaling"; "sample"].

(** A body that is in neither catalogue of velocities. *)
Definition uncatalogued (t : body) : Prop :=
  ~ In (b_name t) (map fst asteroid_table) /\ ~ In (b_name t) (map fst comet_table).
Definition same_parameters (s s' : scal) : Prop :=
  s_material s' = s_material s /\ s_K1 s' = s_K1 s /\ s_mu s' = s_mu s /\ s_Ybar s' = s_Ybar s.
