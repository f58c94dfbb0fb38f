(** Specification vocabulary for high resolution local surfaces. *)
From Coq Require Import Reals.
From Verif Require Import Common Hires_model.
Open Scope R_scope.

(** The size that superdomain_function reports at a distance is [x]. *)
Definition has_size (h : hires) (r x : R) : Prop := exists h', superdomain_function r h = Ok (x, h').
(** [k] whole faces fit in the local radius. *)
Definition faces_across (pix loc : R) (k : nat) : Prop := INR k * pix <= loc < (INR k + 1) * pix.
(** A point of the square lattice of step [delta] less than [k] steps from the centre. *)
Definition lattice (delta : R) (k : nat) (p : R * R) : Prop :=
  exists i j : Z, fst p = IZR i * delta /\ snd p = IZR j * delta /\ (i * i + j * j < Z.of_nat k * Z.of_nat k)%Z.
(** Angle between two unit vectors. *)
Definition angle (u v : vec) : R := acos (vdot u v).
Definition pole : vec := (0, 0, 1).
(** The unit vector of a longitude and latitude in degrees. *)
Definition position (lon lat : R) : vec :=
  (cos (lat * (PI / 180)) * cos (lon * (PI / 180)), cos (lat * (PI / 180)) * sin (lon * (PI / 180)), sin (lat * (PI / 180))).
(** All points before the rotation. *)
Definition all_points (res : list (R * R) * list (R * Z)) : list vec :=
  (map interior_point (fst res) ++ List.concat (map ring_points (snd res)))%list.
(** Rings that follow each other at the distance [size] gives, the first at [theta]. *)
Fixpoint successive (radius : R) (size : R -> R) (theta : R) (l : list (R * Z)) : Prop :=
  match l with
  | [] => True
  | (t, n) :: r => t = theta /\ successive radius size (theta + size (radius * theta) / radius) r
  end.
(** A point turned by [phi] about the axis through the centre of the region. *)
Definition spun (phi : R) (v : vec) : vec := let '(x, y, z) := v in (x * cos phi - y * sin phi, x * sin phi + y * cos phi, z).
