(** Vocabulary for the theorems about Place_model. *)
From Coq Require Import Reals NArith.
From Verif Require Import Common Geo_spec Outline_spec Crater_model Place_model.
Import ListNotations.
Open Scope R_scope.

(** A longitude and a latitude in degrees, the latitude being one. *)
Definition proper_location (l : R * R) : Prop := -90 <= snd l <= 90.
(** Two locations are the same point of the sphere. *)
Definition same_spot (a b : R * R) : Prop := place (fst a) (snd a) = place (fst b) (snd b).
(** The crater's location. *)
Definition sits_at (c : crater) (l : R * R) : Prop := exists m, f_loc (fixed c) = Some m /\ same_spot m l.
(** The projectile keeps a location it is given (Proj_model: normalised). *)
Definition keeps_location (project : option R -> option R -> option R -> option R -> option (R * R) -> option R -> result proj) : Prop :=
  forall v m a d l rho j, project v m a d (Some l) rho = Ok j -> j_loc j = normalize l.
(** The reference point of a relative location on a surface. *)
Definition reference_point (s : surf) (r : reference) (l : R * R) : Prop :=
  r = At l \/ (r = Missing \/ r = IsNone) /\ s_local s = Some l.
(** The angle between two locations. *)
Definition apart (a b : R * R) : R := acos (dot (place (fst a) (snd a)) (place (fst b) (snd b))).
(** The ways of giving a location that are used. *)
Definition ways (p : margs) (lon lat : option R) (rel : option relative) : nat :=
  count [given (p_loc p); given (p_ploc p); (given lon || given lat)%bool; given rel].
