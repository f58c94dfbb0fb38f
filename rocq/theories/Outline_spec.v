(** Vocabulary for the theorems about Outline_model. *)
From Coq Require Import Reals.
From Verif Require Import Common Geo_spec Outline_model.
Import ListNotations.
Open Scope R_scope.

Definition add (u v : vec) : vec := let '(a, b, c) := u in let '(x, y, z) := v in (a + x, b + y, c + z).
Definition scale (k : R) (u : vec) : vec := let '(a, b, c) := u in (k * a, k * b, k * c).
(** The point reached from (lon, lat), in radians, on the great circle that leaves with a bearing
    (clockwise from north), after an angle s. *)
Definition reached (lon lat bearing s : R) : vec :=
  add (scale (cos s) (direction lon lat)) (scale (sin s) (add (scale (cos bearing) (north lon lat)) (scale (sin bearing) (east lon)))).
(** The point of a longitude and a latitude in degrees. *)
Definition place (lon lat : R) : vec := direction (rad lon) (rad lat).

(** A solver of the direct problem on a sphere. *)
Definition solves (radius : R) (fwd : R -> R -> R -> R -> R * R) : Prop :=
  forall lon lat b d, -90 <= lat <= 90 ->
    let '(lon2, lat2) := fwd lon lat b d in
    -180 <= lon2 <= 180 /\ -90 <= lat2 <= 90 /\ place lon2 lat2 = reached (rad lon) (rad lat) (rad b) (d / radius).

(** Cutting a polygon along a meridian: every part lies on one side of it, its points are between
    the extreme longitudes of the polygon; the centroid of a part is strictly on its side. *)
Definition cuts (cut : list point -> R -> list (list point)) (centroid : list point -> R) : Prop :=
  forall poly m part, In part (cut poly m) ->
    ((forall p, In p part -> p_lon p <= m) /\ centroid part < m \/ (forall p, In p part -> m <= p_lon p) /\ m < centroid part) /\
    (forall lo hi, (forall p, In p poly -> lo <= p_lon p <= hi) -> (forall p, In p part -> lo <= p_lon p <= hi) /\ lo <= centroid part <= hi).

(** The angle from the centre to the farthest point, and no pole within it. *)
Definition clear_of_poles (radius : R) (e : ellipse) : Prop := e_a e / radius + Rabs (rad (e_lat e)) < PI / 2.
Definition proper (e : ellipse) : Prop := 0 < e_b e <= e_a e /\ -90 <= e_lat e <= 90 /\ -180 <= e_lon e <= 180.

(** A drawn point and a vertex are the same place on the sphere. *)
Definition drawn (p : point) (v : R * R) : Prop := place (p_lon p) (p_lat p) = place (fst v) (snd v).
Definition moved (p q : point) : Prop := place (p_lon p) (p_lat p) = place (p_lon q) (p_lat q).
Definition highest (l : list R) (z : R) : Prop := In z l /\ forall x, In x l -> x <= z.
