(** C32, C33, C50: crater and ejecta profiles, and the extent of a feature. *)
From Coq Require Import Reals Lra.
From Verif Require Import Common Profile_model Profile_spec Profile_proofs.
Open Scope R_scope.

(** C32: the profile is computed for every non-empty input. *)
Theorem C32_profile_defined : forall p pts, pts <> [] -> exists out, crater_profile p pts = Ok out.
Proof. exact profile_total. Qed.
Print Assumptions C32_profile_defined.

(** On a flat reference surface the floor is flat at the floor depth, up to and
    including its edge. *)
Theorem C32_floor : forall p pts out e r z, admissible p -> flat e pts ->
  crater_profile p pts = Ok out -> entry pts out r e z ->
  0 <= r <= floor_diameter p / 2 -> z = e + floor_depth p.
Proof. exact floor_flat. Qed.
Print Assumptions C32_floor.
Example C32_floor_case : admissible unit_crater /\ flat 7 [(1 / 4, 7); (3 / 4, 7)] /\
  0 <= 1 / 4 <= floor_diameter unit_crater / 2.
Proof.
  split; [exact unit_admissible|]. split; [|unfold unit_crater; simpl; lra].
  intros r h H. simpl in H. destruct H as [H|[H|[]]]; congruence.
Qed.

(** From the floor edge to the rim the wall rises strictly and stays below the
    rim height. *)
Theorem C32_wall_rises : forall p pts out e r1 r2 z1 z2, admissible p -> flat e pts ->
  crater_profile p pts = Ok out -> entry pts out r1 e z1 -> entry pts out r2 e z2 ->
  floor_diameter p / 2 <= r1 -> r1 < r2 -> r2 < diameter p / 2 -> z1 < z2 < e + rim_height p.
Proof. exact wall_rises. Qed.
Print Assumptions C32_wall_rises.

(** At the rim, crater plus ejecta is continuous with the value of the rim height. *)
Theorem C32_rim_continuous : forall p e eps, admissible p -> ejrim p <= rim_height p - floor_depth p ->
  0 < eps -> exists d, 0 < d /\
  forall pts out r z, flat e pts -> crater_profile p pts = Ok out -> entry pts out r e z ->
    Rabs (r - diameter p / 2) < d ->
    Rabs (z + ejecta_profile_function r (diameter p / 2) (ejrim p) - (e + rim_height p)) < eps.
Proof. exact rim_continuous. Qed.
Print Assumptions C32_rim_continuous.
Example C32_rim_case : admissible unit_crater /\
  ejrim unit_crater <= rim_height unit_crater - floor_depth unit_crater.
Proof. split; [exact unit_admissible|unfold unit_crater; simpl; lra]. Qed.

(** On any reference surface, nothing inside the rim is lower than the floor depth
    below the mean reference elevation inside the rim. *)
Theorem C32_never_below_floor : forall p pts out r e z m, admissible p ->
  crater_profile p pts = Ok out -> entry pts out r e z -> r <= diameter p / 2 ->
  is_mean (inside_refs (diameter p / 2) pts) m -> m + floor_depth p <= z.
Proof. exact never_below_floor. Qed.
Print Assumptions C32_never_below_floor.
Example C32_never_below_case : is_mean (inside_refs 1 [(1 / 2, 3); (1, 5); (2, 100)]) 4.
Proof.
  unfold is_mean, inside_refs. simpl. destruct (Rle_dec (1 / 2) 1); [|lra].
  destruct (Rle_dec 1 1); [|lra]. destruct (Rle_dec 2 1); [lra|]. simpl.
  split; [discriminate|lra].
Qed.

(** Outside the rim the surface is raised, by at most the uplifted part of the rim,
    and falls off with distance, whenever the rim is at least as high as the ejecta. *)
Theorem C32_exterior_raised : forall p pts out r e z, admissible p -> ejrim p <= rim_height p ->
  crater_profile p pts = Ok out -> entry pts out r e z -> diameter p / 2 < r ->
  e <= z <= e + (rim_height p - ejrim p).
Proof. exact exterior_between. Qed.
Print Assumptions C32_exterior_raised.

Theorem C32_exterior_falls : forall p pts out r1 r2 e z1 z2, admissible p -> ejrim p <= rim_height p ->
  crater_profile p pts = Ok out -> entry pts out r1 e z1 -> entry pts out r2 e z2 ->
  diameter p / 2 < r1 -> r1 <= r2 -> z2 <= z1.
Proof. exact exterior_falls. Qed.
Print Assumptions C32_exterior_falls.
Example C32_exterior_case : ejrim unit_crater <= rim_height unit_crater.
Proof. unfold unit_crater; simpl; lra. Qed.

(** The morphometric relations of the lunar model always give an admissible
    shape (craters up to 10 000 km). *)
Theorem C32_lunar_shapes_admissible : forall m d p, 0 < d <= 10000000 ->
  basicmoon_shape m d = Ok p -> admissible p /\ 0 < ejrim p /\ diameter p = d.
Proof. exact basicmoon_admissible. Qed.
Print Assumptions C32_lunar_shapes_admissible.
Example C32_lunar_case : exists p, basicmoon_shape Complex 30000 = Ok p.
Proof. eexists. reflexivity. Qed.

(** Finding: for a one-metre lunar crater the ejecta at the rim is thicker than
    the rim is high, so the profile digs a depression outside the rim. *)
Theorem C32_exterior_raised_refuted : exists p out z, basicmoon_shape Simple 1 = Ok p /\
  crater_profile p [(1, 0)] = Ok out /\ entry [(1, 0)] out 1 0 z /\ z < 0.
Proof. exact depressed_exterior. Qed.
Print Assumptions C32_exterior_raised_refuted.

(** C33: zero inside, the rim thickness at the rim, never negative, decreasing,
    and the cube law outside. *)
Theorem C33_ejecta_profile : forall rs d ej, 0 < d -> 0 <= ej ->
  List.length (ejecta_profile rs d ej) = List.length rs /\
  forall i r t, nth_error rs i = Some r -> nth_error (ejecta_profile rs d ej) i = Some t ->
    (r < d / 2 -> t = 0) /\ (r = d / 2 -> t = ej) /\ 0 <= t <= ej /\
    (d / 2 <= r -> t = ej * (d / 2 / r) ^ 3) /\
    (forall j s u, nth_error rs j = Some s -> nth_error (ejecta_profile rs d ej) j = Some u ->
       d / 2 <= r -> r <= s -> u <= t).
Proof.
  exact (fun rs d ej Hd He => conj (map_length _ rs)
    (fun i r t Hi Ht =>
       ejecta_array rs d ej Hd He i r t Hi Ht)).
Qed.
Print Assumptions C33_ejecta_profile.
Example C33_case : nth_error (ejecta_profile [1; 5] 4 8) 0 = Some 0.
Proof.
  unfold ejecta_profile, ejecta_profile_function. simpl. destruct (Rle_dec (4 / 2) 1); [lra|reflexivity].
Qed.

(** C50: the extent lies between the crater radius and the limit. *)
Theorem C50_extent_bounds : forall brentq p truncation tr mt ft res upper,
  good_root_finder brentq -> 0 < diameter p ->
  extent_limit p truncation tr upper ->
  diameter p / 2 * (10001 / 10000) <= upper ->
  rmax brentq p truncation tr mt ft = Ok res ->
  diameter p / 2 <= res <= upper.
Proof. exact rmax_cases. Qed.
Print Assumptions C50_extent_bounds.

(** Everything beyond the extent (and within the limit) is thinner than the
    minimum thickness and everything within it, down to 1.0001 radii, is thicker,
    unless the root finder gave up and the crater radius was returned. *)
Theorem C50_extent_separates : forall brentq p truncation tr mt res upper,
  good_root_finder brentq -> 0 < diameter p -> 0 < ejrim p ->
  extent_limit p truncation tr upper ->
  diameter p / 2 * (10001 / 10000) <= upper ->
  rmax brentq p truncation tr mt FEjecta = Ok res ->
  res = diameter p / 2 \/
  (forall r, diameter p / 2 <= r -> res < r -> r <= upper ->
     ejecta_profile_function r (diameter p / 2) (ejrim p) < mt) /\
  (forall r, diameter p / 2 * (10001 / 10000) <= r < res ->
     mt < ejecta_profile_function r (diameter p / 2) (ejrim p)).
Proof. exact rmax_ejecta. Qed.
Print Assumptions C50_extent_separates.
Example C50_case : good_root_finder try_two /\
  rmax try_two unit_crater (Some 10) 1 (1 / 32) FEjecta = Ok 2.
Proof. exact (conj try_two_good rmax_case). Qed.

(** Finding: with a truncation factor of exactly one radius the extent is larger
    than the truncation distance. *)
Theorem C50_truncation_refuted : exists p, admissible p /\ 0 < ejrim p /\
  forall brentq tr, exists res, rmax brentq p (Some 1) tr 1 FEjecta = Ok res /\ 1 * (diameter p / 2) < res.
Proof. exact rmax_truncation. Qed.
Print Assumptions C50_truncation_refuted.
