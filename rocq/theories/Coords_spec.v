(** Independent specification: the point of the unit sphere denoted by a
    (longitude, latitude) pair in degrees, and the documented output range. *)
From Coq Require Import QArith Reals Qreals.
Open Scope R_scope.

Definition deg (x : Q) : R := Q2R x * PI / 180.

(** Cartesian direction of a (longitude, latitude) pair. *)
Definition direction (loc : Q * Q) : R * R * R :=
  let '(lon, lat) := loc in
  (cos (deg lat) * cos (deg lon), cos (deg lat) * sin (deg lon), sin (deg lat)).

Definition same_point (a b : Q * Q) : Prop := direction a = direction b.

Definition lon_in_range (loc : Q * Q) : Prop := (-180 <= fst loc < 180)%Q.
Definition lat_in_range (loc : Q * Q) : Prop := (-90 <= snd loc <= 90)%Q.
Definition same_pair (a b : Q * Q) : Prop := (fst a == fst b /\ snd a == snd b)%Q.
