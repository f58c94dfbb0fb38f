(** Model of the spherical helpers in
    crates/cratermaker-components/src/surface/mod.rs.
    Simplification: f64 is idealised as R. *)
From Coq Require Import Reals.
Open Scope R_scope.

Definition TAU : R := 2 * PI.

(** Rust's [%] on f64: remainder of truncated division (sign of the dividend). *)
Definition trunc (q : R) : Z :=
  if Rle_dec 0 q then Int_part q else (- Int_part (- q))%Z.
Definition rust_rem (x m : R) : R := x - m * IZR (trunc (x / m)).

(** f64::atan2(y, x) (self = y). *)
Definition atan2 (y x : R) : R :=
  if Rlt_dec 0 x then atan (y / x)
  else if Rlt_dec x 0 then
    if Rle_dec 0 y then atan (y / x) + PI else atan (y / x) - PI
  else if Rlt_dec 0 y then PI / 2
  else if Rlt_dec y 0 then - (PI / 2)
  else 0.

(** mod.rs:654-658 positive_mod. *)
Definition positive_mod (x m : R) : R := rust_rem (rust_rem x m + m) m.

(** mod.rs:599-607 compute_one_distance. *)
Definition compute_one_distance (lon1 lat1 lon2 lat2 radius : R) : R :=
  let dlon := positive_mod (lon2 - lon1 + PI) TAU - PI in
  let dlat := lat2 - lat1 in
  let a := (sin (dlat / 2)) ^ 2 + cos lat1 * cos lat2 * (sin (dlon / 2)) ^ 2 in
  let c := 2 * asin (sqrt a) in
  radius * c.

(** mod.rs:645-651 compute_one_bearing. *)
Definition compute_one_bearing (lon1 lat1 lon2 lat2 : R) : R :=
  let dlon := positive_mod (lon2 - lon1 + PI) TAU - PI in
  let x := sin dlon * cos lat2 in
  let y := cos lat1 * sin lat2 - sin lat1 * cos lat2 * cos dlon in
  atan2 x y.

(** mod.rs:624-642 compute_bearings, one element. *)
Definition compute_bearing_elem (lon1 lat1 lon2 lat2 : R) : R :=
  positive_mod (compute_one_bearing lon1 lat1 lon2 lat2) TAU.

(** mod.rs:548-566 compute_one_location_from_distance_bearing. *)
Definition compute_one_location (lon1 lat1 distance bearing radius : R) : R * R :=
  let lat2 := asin (sin lat1 * cos (distance / radius)
                    + cos lat1 * sin (distance / radius) * cos bearing) in
  let lon2 := lon1 + atan2 (sin bearing * sin (distance / radius) * cos lat1)
                           (cos (distance / radius) - sin lat1 * sin lat2) in
  (lon2, lat2).

(** mod.rs:568-590 compute_location_from_distance_bearing, one element. *)
Definition compute_location_elem (lon1 lat1 distance bearing radius : R) : R * R :=
  let '(lon2, lat2) := compute_one_location lon1 lat1 distance bearing radius in
  (positive_mod (lon2 + PI) TAU - PI, positive_mod (lat2 + PI) TAU - PI).
