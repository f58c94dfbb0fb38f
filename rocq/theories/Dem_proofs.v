From Coq Require Import Reals List ZArith Lia Lra.
From Verif Require Import Common Trig_model Geo_spec Geo_proofs Dem_model Dem_spec.
Import ListNotations.
Open Scope R_scope.

(* ------------------------------ sine is concave ------------------------------ *)
Lemma x_cos_lt_sin x : 0 < x <= PI / 2 -> x * cos x < sin x.
Proof.
  intros H. pose proof PI_RGT_0.
  destruct (MVT_cor2 (fun t => sin t - t * cos t) (fun t => cos t - (1 * cos t + t * - sin t)) 0 x ltac:(lra)) as (c & E & B).
  { intros c _. apply derivable_pt_lim_minus; [apply derivable_pt_lim_sin|]. apply (derivable_pt_lim_mult id cos); [apply derivable_pt_lim_id|apply derivable_pt_lim_cos]. }
  rewrite sin_0 in E. assert (0 < sin c) by (apply sin_gt_0; lra).
  assert (0 < c * sin c) by (apply Rmult_lt_0_compat; lra).
  assert (0 < (c * sin c) * (x - 0)) by (apply Rmult_lt_0_compat; lra). lra.
Qed.
Lemma sin_concave x y : 0 < x -> x < y -> y <= PI / 2 -> x * sin y < y * sin x.
Proof.
  intros A B C. pose proof PI_RGT_0.
  destruct (MVT_cor2 (fun t => sin t / t) (fun t => (cos t * t - 1 * sin t) / t²) x y B) as (c & E & D).
  { intros c H1. apply (derivable_pt_lim_div sin id); [apply derivable_pt_lim_sin|apply derivable_pt_lim_id|unfold id; lra]. }
  assert (X : (cos c * c - 1 * sin c) / c² < 0).
  { pose proof (x_cos_lt_sin c ltac:(lra)). assert (0 < / c²) by (apply Rinv_0_lt_compat, Rlt_0_sqr; lra).
    unfold Rdiv. assert (0 < (sin c - c * cos c) * / c²) by (apply Rmult_lt_0_compat; lra). lra. }
  assert (Y : 0 < - ((cos c * c - 1 * sin c) / c²) * (y - x)) by (apply Rmult_lt_0_compat; lra).
  assert (Z : sin y / y < sin x / x) by lra.
  apply Rmult_lt_compat_r with (r := x * y) in Z; [|apply Rmult_lt_0_compat; lra].
  replace (sin y / y * (x * y)) with (x * sin y) in Z by (field; lra). replace (sin x / x * (x * y)) with (y * sin x) in Z by (field; lra). exact Z.
Qed.

(* ------------------------------ points of a region ------------------------------ *)
Lemma rad_deg x : rad (deg x) = x.
Proof. pose proof PI_RGT_0. unfold rad, deg. field. lra. Qed.
Lemma deg_rad x : deg (rad x) = x.
Proof. pose proof PI_RGT_0. unfold rad, deg. field. lra. Qed.
Lemma rad_le x y : x <= y <-> rad x <= rad y.
Proof. pose proof PI_RGT_0 as P. unfold rad. split; intros H.
  - apply Rmult_le_compat_r with (r := PI / 180) in H; lra.
  - apply Rmult_le_reg_r with (r := PI / 180); lra.
Qed.
Lemma rad_lt x y : x < y <-> rad x < rad y.
Proof. pose proof PI_RGT_0 as P. unfold rad. split; intros H.
  - apply Rmult_lt_compat_r with (r := PI / 180) in H; lra.
  - apply Rmult_lt_reg_r with (r := PI / 180); lra.
Qed.
Lemma rad_abs x : rad (Rabs x) = Rabs (rad x).
Proof. pose proof PI_RGT_0. unfold rad, Rdiv. rewrite !Rabs_mult, (Rabs_right PI), (Rabs_right (/ 180)) by lra. reflexivity. Qed.
(** Within [a] (an angle up to a half turn) in terms of the directions. *)
Lemma within_dot T r lon0 lat0 lon lat : 0 < T -> r / T <= PI -> (compute_one_distance lon0 lat0 lon lat T <= r <-> 0 <= r / T /\ cos (r / T) <= dot (direction lon0 lat0) (direction lon lat)).
Proof.
  intros HT HP. rewrite distance_angle. set (d := dot _ _).
  assert (B : -1 <= d <= 1) by (apply dot_bound; apply direction_unit).
  pose proof (acos_bound d) as A. split.
  - intros H. assert (X : acos d <= r / T) by (apply Rmult_le_reg_l with (r := T); [exact HT|]; replace (T * (r / T)) with r by (field; lra); exact H).
    split; [lra|]. rewrite <- (cos_acos d B). apply cos_decr_1; lra.
  - intros [H0 H]. assert (X : acos d <= r / T) by (apply cos_decr_0; try lra; rewrite (cos_acos d B); exact H).
    apply Rmult_le_compat_l with (r := T) in X; [|lra]. replace (T * (r / T)) with r in X by (field; lra). exact X.
Qed.
(** Latitude differs by no more than the angle. *)
Lemma lat_angle lon0 lat0 lon lat a : latitude lat0 -> latitude lat -> 0 <= a <= PI -> cos a <= dot (direction lon0 lat0) (direction lon lat) -> Rabs (lat - lat0) <= a.
Proof.
  intros H0 H1 HA H. unfold latitude in *. rewrite dot_formula in H.
  assert (X : cos a <= cos (Rabs (lat - lat0))).
  { assert (E : cos (Rabs (lat - lat0)) = cos (lat - lat0)) by (unfold Rabs; destruct (Rcase_abs _); [apply cos_neg|reflexivity]).
    rewrite E, cos_minus. pose proof (COS_bound (lon - lon0)). 
    assert (C : 0 <= cos lat0 * cos lat) by (apply Rmult_le_pos; apply lat_cos; assumption).
    assert (cos lat0 * cos lat * cos (lon - lon0) <= cos lat0 * cos lat * 1) by (apply Rmult_le_compat_l; lra).
    lra. }
  apply cos_decr_0; try lra; try apply Rabs_pos. apply Rabs_le. lra.
Qed.

Lemma latitudes T lon0 lat0 r lon lat : 0 < T -> 0 <= r -> -90 <= lat0 <= 90 -> in_region T lon0 lat0 r lon lat ->
  fst (snd (location_extents T lon0 lat0 r)) <= lat <= snd (snd (location_extents T lon0 lat0 r)).
Proof.
  intros HT Hr H0 [HL HD]. cbn [location_extents fst snd]. pose proof PI_RGT_0 as P.
  assert (LA : forall x, -90 <= x <= 90 -> latitude (rad x)).
  { intros x Hx. unfold latitude, rad. split; [apply Rmult_le_reg_r with (r := 180 / PI)|apply Rmult_le_reg_r with (r := 180 / PI)]; try (apply Rdiv_lt_0_compat; lra); 
      [replace (- (PI / 2) * (180 / PI)) with (-90) by (field; lra)|replace (PI / 2 * (180 / PI)) with 90 by (field; lra)]; replace (x * PI / 180 * (180 / PI)) with x by (field; lra); lra. }
  assert (X : Rabs (lat - lat0) <= deg (r / T)).
  { assert (Q : 0 <= r / T) by (apply Rmult_le_pos; [lra|left; apply Rinv_0_lt_compat; lra]).
    apply (proj2 (rad_le _ _)). rewrite rad_deg. destruct (Rle_dec (r / T) PI) as [B|B].
    - apply (within_dot T r) in HD; [|exact HT|exact B]. rewrite rad_abs. replace (rad (lat - lat0)) with (rad lat - rad lat0) by (unfold rad; field).
      apply (lat_angle (rad lon0) _ (rad lon)); [apply LA; lra|apply LA; lra|lra|apply HD].
    - assert (Y : Rabs (lat - lat0) <= 180) by (apply Rabs_le; lra). apply (proj1 (rad_le _ _)) in Y. replace (rad 180) with PI in Y by (unfold rad; field). lra. }
  assert (Y : - deg (r / T) <= lat - lat0 <= deg (r / T)) by (revert X; unfold Rabs; destruct (Rcase_abs _); lra).
  split; [apply Rmax_lub; lra|apply Rmin_glb; lra].
Qed.
(** The farthest latitudes are reached. *)
Lemma latitudes_reached T lon0 lat0 r s : 0 < T -> s = 1 \/ s = -1 -> 0 <= r -> -90 <= lat0 <= 90 -> -90 <= lat0 + s * deg (r / T) <= 90 ->
  in_region T lon0 lat0 r lon0 (lat0 + s * deg (r / T)).
Proof.
  intros HT Hs Hr H0 H1. split; [exact H1|]. pose proof PI_RGT_0 as P.
  assert (Q : 0 <= r / T) by (apply Rmult_le_pos; [lra|left; apply Rinv_0_lt_compat; lra]).
  assert (B : r / T <= PI).
  { rewrite <- (rad_deg (r / T)). replace PI with (rad 180) by (unfold rad; field). apply (proj1 (rad_le _ _)). destruct Hs as [-> | ->]; lra. }
  apply within_dot; [exact HT|exact B|]. split; [exact Q|]. rewrite dot_formula.
  replace (rad (lat0 + s * deg (r / T))) with (rad lat0 + s * (r / T)) by (rewrite <- (rad_deg (r / T)) at 1; unfold rad; field).
  replace (rad lon0 - rad lon0) with 0 by ring. rewrite cos_0. right.
  transitivity (cos (rad lat0 - (rad lat0 + s * (r / T)))); [|rewrite cos_minus; ring].
  replace (rad lat0 - (rad lat0 + s * (r / T))) with (- (s * (r / T))) by ring. rewrite cos_neg. destruct Hs as [-> | ->]; [f_equal; ring|]. rewrite <- cos_neg. f_equal. ring.
Qed.
