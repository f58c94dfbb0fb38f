(** Specification vocabulary for positions on the sphere (angles in radians). *)
From Coq Require Import Reals.
Open Scope R_scope.

(** Unit vector of a longitude and latitude. *)
Definition vec : Type := (R * R * R)%type.
Definition direction (lon lat : R) : vec := (cos lat * cos lon, cos lat * sin lon, sin lat).
Definition dot (u v : vec) : R :=
  let '(a, b, c) := u in let '(x, y, z) := v in a * x + b * y + c * z.

Definition latitude (lat : R) : Prop := - (PI / 2) <= lat <= PI / 2.
Definition off_pole (lat : R) : Prop := - (PI / 2) < lat < PI / 2.

(** Equal up to whole turns. *)
Definition same_angle (a b : R) : Prop := exists k : Z, a = b + 2 * IZR k * PI.

(** North and east tangent vectors at a position. *)
Definition north (lon lat : R) : vec := (- sin lat * cos lon, - sin lat * sin lon, cos lat).
Definition east (lon : R) : vec := (- sin lon, cos lon, 0).
