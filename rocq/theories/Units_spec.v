(** Vocabulary for C128. *)
From Coq Require Import List Reals.
From Verif Require Import Common Units_model.
Import ListNotations.
Open Scope R_scope.

(** The units of area and of length, in square metres and metres. *)
Inductive area_unit : unit_name -> R -> Prop :=
| u_m2 : area_unit PerM2 1 | u_km2 : area_unit PerKm2 1000000 | u_mkm2 : area_unit PerMillionKm2 1000000000000.
Inductive length_unit : unit_name -> R -> Prop := u_m : length_unit Metre 1 | u_km : length_unit Kilometre 1000.

Section Words.
Context (csfd age : R -> R).
(** The time of a crater dated by a density, in an area of [a] square metres and with the diameter in
    units of [m] metres: the age of a surface with as many craters of a kilometre. *)
Definition dates (a m : R) (c : dated) (t : R) : Prop :=
  t = age (Rmax 0 (d_number c / a * (csfd 1000 / csfd (d_diameter c * m)))).
Inductive event := SetN (v : option R) | SetD (v : option R) | Give (l : list dated).
Definition happens (p : production) (e : event) : production :=
  match e with
  | SetN v => match set_N p v with Ok q => q | Err _ => p end
  | SetD v => match set_D p v with Ok q => q | Err _ => p end
  | Give l => set_craters csfd age p l
  end.
Definition history (p : production) (es : list event) : production := fold_left happens es p.
Definition assigns (e : event) : Prop := match e with Give _ => False | _ => True end.
(** The production function reports these units. *)
Definition reports (p : production) (a m : R) : Prop := area_unit (N_unit p) a /\ length_unit (D_unit p) m.
End Words.
