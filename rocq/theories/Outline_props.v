(** Property theorems about the outlines of craters (C97). *)
From Coq Require Import Reals Lra.
From Verif Require Import Common Geo_spec Outline_model Outline_spec Outline_proofs Outline_cases.
Import ListNotations.
Open Scope R_scope.

Section Outlines.
Variable radius : R.
Variable fwd : R -> R -> R -> R -> R * R.
Variable cut : list point -> R -> list (list point).
Variable centroid : list point -> R.
Variable elevations : R -> R -> R -> list R.
Hypothesis pos : 0 < radius.
Hypothesis good : solves radius fwd.

(** C97: the outline has as many vertices as asked for; the i-th one lies on the great circle that
    leaves the centre at its share of a full turn past the orientation of the crater, at the
    distance, measured on the sphere, at which the ellipse with the two semi-axes of the crater
    meets that direction. *)
Theorem C97_vertices n e : proper e -> (2 <= n)%nat ->
  List.length (vertices fwd n e) = n /\
  (forall i v, nth_error (vertices fwd n e) i = Some v ->
     -180 <= fst v <= 180 /\ -90 <= snd v <= 90 /\
     exists r, e_b e <= r <= e_a e /\
       (let theta := 360 * INR i / INR (n - 1) in
        (r * cos (rad theta) / e_a e) ^ 2 + (r * sin (rad theta) / e_b e) ^ 2 = 1 /\
        place (fst v) (snd v) = reached (rad (e_lon e)) (rad (e_lat e)) (rad (theta + e_phi e)) (r / radius))).
Proof. exact (fun P N => conj (vertices_length fwd n e) (fun i v => vertex_spec radius fwd good n e i v P N)). Qed.

(** C97: the outline ends where it began. *)
Theorem C97_closed n e u v : proper e -> (2 <= n)%nat ->
  nth_error (vertices fwd n e) 0 = Some u -> nth_error (vertices fwd n e) (n - 1) = Some v ->
  place (fst u) (snd u) = place (fst v) (snd v).
Proof. exact (closed radius fwd good n e u v). Qed.

(** C97: unless it has to be split, the outline is one polygon through these vertices in this
    order, drawn from the measured sizes or from the original ones as asked, at the height of the
    highest face of the crater. *)
Theorem C97_one_polygon n split m initial measured : let e := if (m : bool) then measured else initial in
  (split = false \/ ptp (map fst (vertices fwd n e)) <= 180) -> elevations (e_lon e) (e_lat e) (e_radius e) <> [] ->
  exists z, highest (elevations (e_lon e) (e_lat e) (e_radius e)) z /\
    to_geoseries fwd cut centroid elevations n split m initial measured = Whole (map (fun v => mk_point (fst v) (snd v) (Some z)) (vertices fwd n e)).
Proof. exact (whole_points fwd cut centroid elevations n split m initial measured). Qed.

(** C97: if no pole is within the crater's reach, the outline is fit for a map of longitudes and
    latitudes: either one polygon, no two points of which are half a turn apart, or the parts in
    which a polygon around the centre through the same places is cut along the antimeridian, each
    moved to longitudes between -180 and 180 without leaving its place.
    Missing: a crater that reaches a pole, for which this is false (see below). *)
Theorem C97_contiguous_partial n m initial measured : cuts cut centroid ->
  let e := if (m : bool) then measured else initial in proper e -> clear_of_poles radius e ->
  match to_geoseries fwd cut centroid elevations n true m initial measured with
  | Whole poly => Forall2 drawn poly (vertices fwd n e) /\ (forall p q, In p poly -> In q poly -> Rabs (p_lon p - p_lon q) < 180)
  | Parts parts => exists poly antimeridian, Rabs antimeridian = 180 /\
      Forall2 drawn poly (vertices fwd n e) /\ (forall p, In p poly -> Rabs (p_lon p - e_lon e) < 90) /\
      Forall2 (fun part piece => Forall2 moved part piece /\ (forall p, In p part -> -180 <= p_lon p <= 180) /\
                                 (forall p q, In p part -> In q part -> Rabs (p_lon p - p_lon q) <= 180))
        parts (cut poly antimeridian)
  end.
Proof. exact (fun C => contiguous radius fwd cut centroid elevations pos good C n m initial measured). Qed.

(** C97: the part of a split outline beyond the antimeridian is drawn without any height, although
    the rest of the outline has the height of the rim. *)
Theorem C97_far_part_height_refuted n m initial measured : let e := if (m : bool) then measured else initial in
  180 < ptp (map fst (vertices fwd n e)) ->
  exists poly antimeridian parts, to_geoseries fwd cut centroid elevations n true m initial measured = Parts parts /\
    Forall2 (fun part piece => 180 < Rabs (centroid piece) -> forall p, In p part -> p_z p = None) parts (cut poly antimeridian).
Proof. exact (far_part_flat fwd cut centroid elevations n m initial measured). Qed.

(** C97: if the centre has the longitude 0 and the outline reaches around a pole, no longitude is
    unwrapped and the polygon, which jumps across the whole map, is cut along the prime
    meridian. *)
Theorem C97_prime_meridian_refuted n m initial measured : let e := if (m : bool) then measured else initial in
  180 < ptp (map fst (vertices fwd n e)) -> e_lon e = 0 ->
  exists z parts, to_geoseries fwd cut centroid elevations n true m initial measured = Parts parts /\
    parts = map (fun p => if Rlt_dec 180 (Rabs (centroid p)) then map lon_flip p else p)
                (cut (map (fun v => mk_point (fst v) (snd v) (Some z)) (vertices fwd n e)) 0).
Proof. exact (prime fwd cut centroid elevations n m initial measured). Qed.

(** C97: the outline of a circular crater centred on the north pole is a line of constant
    latitude: on a map of longitudes and latitudes it encloses neither the pole nor any area. *)
Theorem C97_pole_refuted n e v : proper e -> e_lat e = 90 -> e_a e = e_b e -> In v (vertices fwd n e) -> sin (rad (snd v)) = cos (e_a e / radius).
Proof. exact (pole_flat radius fwd good n e v). Qed.
End Outlines.
Print Assumptions C97_vertices.
Print Assumptions C97_closed.
Print Assumptions C97_one_polygon.
Print Assumptions C97_contiguous_partial.
Print Assumptions C97_far_part_height_refuted.
Print Assumptions C97_prime_meridian_refuted.
Print Assumptions C97_pole_refuted.
(** The hypotheses are met by a solver of the direct problem on the unit sphere, a way to cut and
    a crater on the antimeridian, which is split. *)
Example C97_case : 0 < 1 /\ solves 1 (sphere 1) /\ cuts slice mean /\ proper across /\ clear_of_poles 1 across /\
  180 < ptp (map fst (vertices (sphere 1) 5 across)) /\ flat (e_lon across) (e_lat across) (e_radius across) <> [].
Proof.
  exact (conj Rlt_0_1 (conj (sphere_solves 1 Rlt_0_1) (conj slice_cuts (conj (proj1 across_proper) (conj (proj2 across_proper)
    (conj (across_wide (sphere 1) (sphere_solves 1 Rlt_0_1)) (fun H : [5; 7; 6] = [] => eq_ind [5; 7; 6] (fun l => match l with [] => False | _ => True end) I [] H))))))).
Qed.
Example C97_far_case : exists parts part p, to_geoseries (sphere 1) slice mean flat 5 true false across across = Parts parts /\ In part parts /\ In p part /\ p_z p = None.
Proof. exact across_lost. Qed.
Example C97_prime_case : proper polar_cap /\ e_lon polar_cap = 0 /\ e_lat polar_cap = 90 /\ e_a polar_cap = e_b polar_cap /\
  180 < ptp (map fst (vertices (sphere 1) 5 polar_cap)).
Proof. exact (conj cap_proper (conj eq_refl (conj eq_refl (conj eq_refl (cap_wide (sphere 1) (sphere_solves 1 Rlt_0_1)))))). Qed.
