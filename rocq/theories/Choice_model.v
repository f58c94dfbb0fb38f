(** Model of how a production function is chosen, saved and restored:
    cratermaker/components/production/__init__.py (maker 97-191), neukum.py (__init__ 41-72, version
    186-246), powerlaw.py (__init__ 23-78), core/base.py (ComponentBase.maker 828-866, _to_config
    1016-1020), core/simulation.py (__init__ 125-169, to_config 1277-1321) and
    components/morphology/__init__.py (production 806-822).  Simplifications: the keyword arguments
    followed are version, generator_type, N1_coef and slope (the quasi-Monte-Carlo craters are in
    Quasi_model, the conversion factors in Nd_model); N1_coef and slope are numbers; text is ASCII;
    a Target made from a name is known by that name, which must be in the catalogue (no radius or mass
    is given beside it). *)
From Coq Require Import Reals Ascii.
From Verif Require Import Common Conf_model Prod_model.
Import ListNotations.
Open Scope string_scope.

(** The names of target/__init__.py:34-63. *)
Definition bodies : list string :=
  ["Mercury"; "Venus"; "Earth"; "Moon"; "Mars"; "Phobos"; "Deimos"; "Ceres"; "Vesta"; "Io"; "Europa";
   "Ganymede"; "Callisto"; "Titan"; "Rhea"; "Dione"; "Tethys"; "Enceladus"; "Mimas"; "Ariel"; "Umbriel";
   "Titania"; "Oberon"; "Miranda"; "Triton"; "Charon"; "Pluto"; "Arrokoth"].
(** A target argument: missing, a name, a Target with that name, anything else. *)
Inductive target_arg := TMissing | TNamed (s : string) | TObject (s : string) | TBad.
(** Target.maker: target/__init__.py:206-235; the name of the body. *)
Definition make_target (t : target_arg) : result string :=
  match t with
  | TMissing => Ok "Moon"
  | TNamed s => if existsb (String.eqb s) bodies then Ok s else Err ValueError
  | TObject s => Ok s
  | TBad => Err TypeError
  end.

(** str.lower() *)
Fixpoint lower (s : string) : string :=
  match s with
  | EmptyString => EmptyString
  | String c r => String (if is_upper c then ascii_of_nat (nat_of_ascii c + 32) else c) (lower r)
  end.

(** The two models, and the state of an object: version and whether "version" is among the parameters
    that are saved; generator type, N1_coef and slope. *)
Inductive model := MNeukum | MPower.
Inductive production :=
| Neukum (v : version) (recorded : bool)
| Power (g : generator) (p : powerlaw).

(** The keyword arguments: [k_version] is None when the keyword is absent. *)
Record keywords := mkKw { k_version : option (option string); k_gen : option string;
                          k_n1 : option R; k_slope : option R }.
Definition no_keywords : keywords := mkKw None None None None.

(** valid_versions and the version setter: neukum.py:186-196, 229-246. *)
Definition read_version (s : string) : option version :=
  if String.eqb (title s) "Moon" then Some Moon
  else if String.eqb (title s) "Mars" then Some Mars
  else if String.eqb (title s) "Projectile" then Some Projectile
  else None.
(** p.version = s by the user: the name is recorded before the value is checked (general_utils.py:23-30). *)
Definition assign_version (s : string) (p : production) : production * option exn :=
  match p with
  | Neukum v _ => match read_version s with
                  | Some v' => (Neukum v' true, None)
                  | None => (Neukum v true, Some ValueError)
                  end
  | Power g q => (Power g q, None)
  end.
(** The generator_type setter: production/__init__.py:1257-1267. *)
Definition read_generator (s : string) : result generator :=
  if String.eqb s "" then Ok GCrater
  else if String.eqb (lower s) "crater" then Ok GCrater
  else if String.eqb (lower s) "projectile" then Ok GProjectile
  else Err ValueError.
(** The constructors.  neukum.py:67-72: [version or "Moon"]; the base class then starts a new, empty set
    of recorded names (core/base.py:76), and ignores other keywords.  powerlaw.py:52-78: a version is
    ignored. *)
Definition construct (m : model) (version : option string) (kw : keywords) : result production :=
  match m with
  | MNeukum =>
      let s := match version with Some s => if String.eqb s "" then "Moon" else s | None => "Moon" end in
      match read_version s with Some v => Ok (Neukum v false) | None => Err ValueError end
  | MPower =>
      rbind (match k_gen kw with Some s => read_generator s | None => Ok GCrater end) (fun g =>
      rbind (new_powerlaw g (k_n1 kw) (k_slope kw)) (fun p => Ok (Power g p)))
  end.

(** The registered names, in the order of the modules: core/base.py:875-906. *)
Definition available : list (string * model) := [("neukum", MNeukum); ("powerlaw", MPower)].
Fixpoint registered (s : string) (l : list (string * model)) : option model :=
  match l with [] => None | (n, m) :: r => if String.eqb s n then Some m else registered s r end.

(** A production argument. *)
Inductive production_arg := PMissing | PNamed (s : string) | PClass (m : model) | PObject (p : production) | PBad.

(** ComponentBase.maker: core/base.py:855-866. *)
Definition component_maker (a : production_arg) (version : option string) (kw : keywords) : result production :=
  match a with
  | PMissing => construct (snd (hd ("neukum", MNeukum) available)) version kw
  | PNamed s => match registered s available with Some m => construct m version kw | None => Err KeyError end
  | PClass m => construct m version kw
  | PObject p => Ok p
  | PBad => Err TypeError
  end.
(** The call of it with version=... and **kwargs: a version left in kwargs is given twice: 179-191. *)
Definition call_maker (a : production_arg) (version : option string) (kw : keywords) : result production :=
  match k_version kw with Some _ => Err TypeError | None => component_maker a version kw end.

(** Production.maker: production/__init__.py:156-191. *)
Definition production_maker (a : production_arg) (t : target_arg) (kw : keywords) : result production :=
  match a with
  | PNamed s =>
      let s := lower s in
      if String.eqb s "neukum" then
        let v := match k_version kw with Some v => v | None => None end in
        let kw := mkKw None (k_gen kw) (k_n1 kw) (k_slope kw) in
        let t := match t, v with
                 | TMissing, Some w => if existsb (String.eqb w) ["Moon"; "Mars"] then TNamed w else TMissing
                 | _, _ => t
                 end in
        rbind (make_target t) (fun name =>
        if existsb (String.eqb name) ["Mercury"; "Venus"; "Earth"; "Moon"; "Mars"] then
          let own := if existsb (String.eqb name) ["Moon"; "Mars"] then name else "projectile" in
          let v' := match v with
                    | Some w => if String.eqb w "projectile" then Some w else Some own
                    | None => Some own
                    end in
          call_maker (PNamed "neukum") v' kw
        else call_maker (PNamed "powerlaw") v kw)
      else call_maker (PNamed s) None kw
  | a => call_maker a None kw
  end.

(** A new Simulation of the body [name]: simulation.py:137-149, 168-169, 1488-1492; a class is refused by
    the setter. *)
Definition new_simulation (a : production_arg) (name : string) (kw : keywords) : result production :=
  match a with
  | PClass _ | PBad => Err TypeError
  | a => production_maker a (TObject name) kw
  end.

(** The configuration saved for the production function: its name and production_config.  The recorded
    parameters are version (if assigned after construction) and generator_type (powerlaw.py:53);
    N1_coef and slope are not Parameters: core/base.py:1016-1020, simulation.py:1301-1314. *)
Definition saved_config (p : production) : string * keywords :=
  match p with
  | Neukum v recorded =>
      ("neukum", mkKw (if recorded then Some (Some (match v with Moon => "Moon" | Mars => "Mars" | Projectile => "Projectile" end))
                       else None) None None None)
  | Power g _ => ("powerlaw", mkKw None (Some (match g with GCrater => "crater" | GProjectile => "projectile" end)) None None)
  end.
(** The production function of the Simulation resumed without further arguments: simulation.py:125-169
    (the saved production_config is always applied, as in Conf_model). *)
Definition resume (name : string) (p : production) : result production :=
  let '(s, kw) := saved_config p in production_maker (PNamed s) (TObject name) kw.

(** morphology.production = value: morphology/__init__.py:812-822; the target is not passed on. *)
Definition morphology_production (a : production_arg) : result production :=
  match a with
  | PObject p => Ok p
  | PMissing | PNamed _ => production_maker a TMissing no_keywords
  | _ => Err TypeError
  end.
