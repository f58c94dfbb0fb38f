(** Vocabulary of the claim about the choice of a production function (C110). *)
From Coq Require Import Reals.
From Verif Require Import Common Prod_model Choice_model.
Import ListNotations.
Open Scope string_scope.
Open Scope R_scope.

(** A production function, as a law: a version of Neukum's, or a power law for craters or projectiles. *)
Inductive law := LNeukum (v : version) | LPower (g : generator) (coefficient slope : R).
Definition law_of (p : production) : law :=
  match p with Neukum v _ => LNeukum v | Power g q => LPower g (N1_coef q) (slope q) end.
Definition has_law (r : result production) (l : law) : Prop := exists p, r = Ok p /\ law_of p = l.

(** The default power laws. *)
Definition default_power (g : generator) : law :=
  match g with
  | GCrater => LPower GCrater (7883 / 1000000) (- (3328 / 1000))
  | GProjectile => LPower GProjectile (7989 / 10000000000) (- (2634 / 1000))
  end.

(** The law documented for a body (Simulation, "production"): Neukum's for the terrestrial planets and the
    Moon, in the version of the body or else that of projectiles; a power law for other bodies. *)
Inductive documented : string -> law -> Prop :=
| D_Moon : documented "Moon" (LNeukum Moon)
| D_Mars : documented "Mars" (LNeukum Mars)
| D_Mercury : documented "Mercury" (LNeukum Projectile)
| D_Venus : documented "Venus" (LNeukum Projectile)
| D_Earth : documented "Earth" (LNeukum Projectile)
| D_other s : ~ In s ["Moon"; "Mars"; "Mercury"; "Venus"; "Earth"]%string -> documented s (default_power GCrater).

(** The bodies for which Neukum's laws are documented. *)
Definition terrestrial (s : string) : Prop := In s ["Moon"; "Mars"; "Mercury"; "Venus"; "Earth"]%string.

(** The only keyword given is a version. *)
Definition with_version (s : string) : keywords := mkKw (Some (Some s)) None None None.

(** What happens to the production function of the simulations of a body: its version is assigned, or the
    simulation is saved, closed and resumed. *)
Inductive event := Assign (s : string) | Resume.
Inductive happens (name : string) : production -> event -> production -> Prop :=
| H_assign p s : happens name p (Assign s) (fst (assign_version s p))
| H_resume p p' : resume name p = Ok p' -> happens name p Resume p'.
Inductive history (name : string) : production -> list event -> production -> Prop :=
| H_nil p : history name p [] p
| H_cons p e p1 l p2 : happens name p e p1 -> history name p1 l p2 -> history name p (e :: l) p2.

(** The bodies that can be named. *)
Definition known_bodies : list string :=
  ["Mercury"; "Venus"; "Earth"; "Moon"; "Mars"; "Phobos"; "Deimos"; "Ceres"; "Vesta"; "Io"; "Europa";
   "Ganymede"; "Callisto"; "Titan"; "Rhea"; "Dione"; "Tethys"; "Enceladus"; "Mimas"; "Ariel"; "Umbriel";
   "Titania"; "Oberon"; "Miranda"; "Triton"; "Charon"; "Pluto"; "Arrokoth"].
