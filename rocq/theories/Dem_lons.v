From Coq Require Import Reals List ZArith Lia Lra.
From Verif Require Import Common Trig_model Geo_spec Geo_proofs Dem_model Dem_spec Dem_proofs.
Import ListNotations.
Open Scope R_scope.

Lemma cap_ratio lat0 a : 0 <= a -> Rabs lat0 + a < PI / 2 -> 0 < cos lat0 /\ 0 <= sin a < cos lat0 /\ 0 < cos a.
Proof.
  intros A H. pose proof (Rabs_pos lat0). pose proof (Rle_abs lat0). pose proof (Rle_abs (- lat0)) as N. rewrite Rabs_Ropp in N. pose proof PI_RGT_0.
  assert (C : cos lat0 = cos (Rabs lat0)) by (unfold Rabs; destruct (Rcase_abs _); [symmetry; apply cos_neg|reflexivity]).
  split; [apply cos_gt_0; lra|]. split; [|apply cos_gt_0; lra]. split; [apply sin_ge_0; lra|].
  rewrite C, <- cos_shift. apply cos_decreasing_1; lra.
Qed.
(** Longitudes in a cap that contains no pole. *)
Lemma lon_angle lon0 lat0 lon lat a : latitude lat -> 0 <= a -> Rabs lat0 + a < PI / 2 -> cos a <= dot (direction lon0 lat0) (direction lon lat) ->
  forall d, - PI <= d <= PI -> cos d = cos (lon - lon0) -> Rabs d <= asin (sin a / cos lat0).
Proof.
  intros HL A HP H d Hd E. rewrite dot_formula in H. rewrite <- E in H. destruct (cap_ratio _ _ A HP) as (C0 & [S0 S1] & CA).
  pose proof (Rabs_pos lat0). pose proof (Rle_abs lat0). pose proof (Rle_abs (- lat0)) as N. rewrite Rabs_Ropp in N. pose proof PI_RGT_0.
  pose proof (lat_cos _ HL) as CL. pose proof (cs lat) as K. pose proof (cs lat0) as K0. pose proof (cs d) as KD. pose proof (cs a) as KA.
  (* cos d > 0 *)
  assert (CD : 0 < cos d).
  { destruct (Rlt_dec 0 (cos d)) as [|Z]; [assumption|exfalso].
    assert (cos lat0 * cos lat * cos d <= 0).
    { assert (0 <= cos lat0 * cos lat * - cos d) by (apply Rmult_le_pos; [apply Rmult_le_pos; lra|lra]). lra. }
    assert (X : sin lat0 * sin lat <= sin (Rabs lat0)).
    { pose proof (SIN_bound lat). assert (0 <= sin (Rabs lat0)) by (apply sin_ge_0; lra).
      unfold Rabs in *; destruct (Rcase_abs lat0) as [L|L].
      - rewrite sin_neg in *. assert (0 <= - sin lat0 * (1 + sin lat)) by (apply Rmult_le_pos; lra). lra.
      - assert (0 <= sin lat0 * (1 - sin lat)) by (apply Rmult_le_pos; lra). lra. }
    assert (Y : sin (Rabs lat0) < cos a).
    { rewrite <- cos_shift. apply cos_decreasing_1; lra. }
    lra. }
  assert (D2 : Rabs d < PI / 2).
  { destruct (Rlt_dec (Rabs d) (PI / 2)) as [|Z]; [assumption|exfalso].
    assert (cos d = cos (Rabs d)) as Q by (unfold Rabs; destruct (Rcase_abs _); [symmetry; apply cos_neg|reflexivity]).
    assert (Rabs d <= PI) by (apply Rabs_le; lra). pose proof (cos_le_0 (Rabs d) ltac:(lra) ltac:(lra)). lra. }
  destruct (Rabs_def2 _ _ D2) as [D3 D4].
  (* cos a <= sqrt (sin^2 lat0 + cos^2 lat0 cos^2 d) *)
  assert (X : cos a * cos a <= sin lat0 * sin lat0 + (cos lat0 * cos d) * (cos lat0 * cos d)).
  { set (u := sin lat0) in *. set (v := cos lat0 * cos d). set (p := sin lat) in *. set (q := cos lat) in *.
    assert (B : cos a <= u * p + v * q) by (unfold v; lra).
    assert (cos a * cos a <= (u * p + v * q) * (u * p + v * q)) by (apply Rmult_le_compat; lra).
    assert (0 <= (u * q - v * p) * (u * q - v * p)) by apply Rle_0_sqr.
    assert ((u * p + v * q) * (u * p + v * q) + (u * q - v * p) * (u * q - v * p) = (u * u + v * v) * (q * q + p * p)) by ring.
    rewrite K in *. lra. }
  assert (Y : (cos lat0 * sin d) * (cos lat0 * sin d) <= sin a * sin a).
  { replace ((cos lat0 * cos d) * (cos lat0 * cos d)) with ((cos lat0 * cos lat0) * (cos d * cos d)) in X by ring.
    replace ((cos lat0 * sin d) * (cos lat0 * sin d)) with ((cos lat0 * cos lat0) * (sin d * sin d)) by ring.
    replace (sin d * sin d) with (1 - cos d * cos d) by lra. lra. }
  assert (Z : sin (Rabs d) <= sin a / cos lat0).
  { apply Rmult_le_reg_r with (r := cos lat0); [exact C0|]. unfold Rdiv. rewrite Rmult_assoc, Rinv_l, Rmult_1_r by lra.
    assert (Q : sin (Rabs d) * cos lat0 = Rabs (cos lat0 * sin d)).
    { rewrite Rabs_mult, (Rabs_right (cos lat0)) by lra. rewrite Rmult_comm. f_equal. unfold Rabs at 1. destruct (Rcase_abs d) as [L|L].
      - rewrite sin_neg, Rabs_left; [reflexivity|]. apply sin_lt_0_var; lra.
      - rewrite Rabs_right; [reflexivity|]. apply Rle_ge, sin_ge_0; lra. }
    rewrite Q. apply Rsqr_incr_0_var; [|exact S0]. unfold Rsqr. rewrite <- Rabs_mult. rewrite Rabs_right; [exact Y|]. apply Rle_ge, Rle_0_sqr. }
  pose proof (Rabs_pos d).
  assert (W : -1 <= sin a / cos lat0 <= 1).
  { assert (0 <= sin a / cos lat0) by (apply Rmult_le_pos; [lra|left; apply Rinv_0_lt_compat; exact C0]).
    assert (sin a / cos lat0 <= 1) by (apply Rmult_le_reg_r with (r := cos lat0); [exact C0|]; unfold Rdiv; rewrite Rmult_assoc, Rinv_l by lra; lra). lra. }
  pose proof (asin_bound (sin a / cos lat0)). apply sin_incr_0; try lra. rewrite sin_asin by exact W. exact Z.
Qed.
(** The easternmost point of the cap. *)
Lemma east_point lat0 a : 0 <= a -> Rabs lat0 + a < PI / 2 ->
  latitude (asin (sin lat0 / cos a)) /\
  forall lon0, cos a = dot (direction lon0 lat0) (direction (lon0 + asin (sin a / cos lat0)) (asin (sin lat0 / cos a))).
Proof.
  intros A HP. destruct (cap_ratio _ _ A HP) as (C0 & [S0 S1] & CA). split; [apply asin_bound|]. intros lon0. rewrite dot_formula.
  replace (lon0 + asin (sin a / cos lat0) - lon0) with (asin (sin a / cos lat0)) by ring.
  pose proof (cs a) as KA. pose proof (cs lat0) as K0.
  assert (V : 0 < cos a * cos a - sin lat0 * sin lat0).
  { replace (cos a * cos a - sin lat0 * sin lat0) with (cos lat0 * cos lat0 - sin a * sin a) by lra.
    assert (sin a * sin a < cos lat0 * cos lat0) by (apply Rmult_le_0_lt_compat; lra). lra. }
  assert (B1 : -1 <= sin a / cos lat0 <= 1).
  { assert (0 <= sin a / cos lat0) by (apply Rmult_le_pos; [lra|left; apply Rinv_0_lt_compat; exact C0]).
    assert (sin a / cos lat0 <= 1) by (apply Rmult_le_reg_r with (r := cos lat0); [exact C0|]; unfold Rdiv; rewrite Rmult_assoc, Rinv_l by lra; lra). lra. }
  assert (B2 : -1 <= sin lat0 / cos a <= 1).
  { assert (X : - cos a <= sin lat0 <= cos a).
    { apply Rabs_def2b || idtac. assert (Q : Rabs (sin lat0) <= cos a).
      { apply Rsqr_incr_0_var; [|lra]. unfold Rsqr. rewrite <- Rabs_mult, Rabs_right; [lra|apply Rle_ge, Rle_0_sqr]. }
      revert Q. unfold Rabs. destruct (Rcase_abs _); lra. }
    split; (apply Rmult_le_reg_r with (r := cos a); [exact CA|]); unfold Rdiv; rewrite Rmult_assoc, Rinv_l by lra; lra. }
  rewrite sin_asin by exact B2. rewrite !cos_asin by assumption.
  replace (1 - (sin lat0 / cos a)²) with ((cos a * cos a - sin lat0 * sin lat0) * / (cos a * cos a)) by (unfold Rsqr; field; lra).
  replace (1 - (sin a / cos lat0)²) with ((cos a * cos a - sin lat0 * sin lat0) * / (cos lat0 * cos lat0)).
  2:{ unfold Rsqr. apply Rmult_eq_reg_r with (r := cos lat0 * cos lat0); [|apply Rmult_integral_contrapositive; split; lra]. 
      replace ((1 - sin a / cos lat0 * (sin a / cos lat0)) * (cos lat0 * cos lat0)) with (cos lat0 * cos lat0 - sin a * sin a) by (field; lra).
      rewrite Rmult_assoc, Rinv_l by (apply Rmult_integral_contrapositive; split; lra). lra. }
  assert (P1 : 0 < cos a * cos a) by (apply Rmult_lt_0_compat; lra). assert (P2 : 0 < cos lat0 * cos lat0) by (apply Rmult_lt_0_compat; lra).
  rewrite (sqrt_mult _ (/ (cos a * cos a))), (sqrt_mult _ (/ (cos lat0 * cos lat0))) by (try lra; left; apply Rinv_0_lt_compat; assumption).
  rewrite !sqrt_inv, !sqrt_square by lra.
  set (w := sqrt (cos a * cos a - sin lat0 * sin lat0)). assert (W : w * w = cos a * cos a - sin lat0 * sin lat0) by (apply sqrt_sqrt; lra).
  replace (sin lat0 * (sin lat0 / cos a) + cos lat0 * (w * / cos a) * (w * / cos lat0)) with ((sin lat0 * sin lat0 + w * w) / cos a) by (field; lra).
  rewrite W. field. lra.
Qed.
(** Off the equator it is farther east than angle / cos latitude. *)
Lemma east_far lat0 a : 0 < a -> lat0 <> 0 -> Rabs lat0 + a < PI / 2 -> a / cos lat0 < asin (sin a / cos lat0) < PI / 2.
Proof.
  intros A NZ HP. destruct (cap_ratio lat0 a ltac:(lra) HP) as (C0 & [S0 S1] & CA). pose proof PI_RGT_0.
  pose proof (Rabs_pos_lt _ NZ) as L.
  assert (C : cos lat0 = cos (Rabs lat0)) by (unfold Rabs; destruct (Rcase_abs _); [symmetry; apply cos_neg|reflexivity]).
  assert (C1 : cos lat0 < 1) by (rewrite C, <- cos_0; apply cos_decreasing_1; lra).
  assert (IC : 1 < / cos lat0) by (apply Rmult_lt_reg_r with (r := cos lat0); [exact C0|]; rewrite Rinv_l by lra; lra).
  (* a / cos lat0 < PI/2 *)
  assert (J : (PI / 2 - Rabs lat0) * 1 < PI / 2 * cos lat0).
  { rewrite C. rewrite <- sin_shift. replace 1 with (sin (PI / 2)) by apply sin_PI2. apply sin_concave; lra. }
  assert (K : a / cos lat0 < PI / 2).
  { apply Rmult_lt_reg_r with (r := cos lat0); [exact C0|]. unfold Rdiv at 1. rewrite Rmult_assoc, Rinv_l by lra. lra. }
  assert (M : a < a / cos lat0) by (unfold Rdiv; rewrite <- (Rmult_1_r a) at 1; apply Rmult_lt_compat_l; lra).
  pose proof (sin_concave a (a / cos lat0) A M ltac:(lra)) as S.
  assert (S2 : sin (a / cos lat0) < sin a / cos lat0).
  { apply Rmult_lt_reg_l with (r := a); [exact A|]. eapply Rlt_le_trans; [exact S|]. right. field. lra. }
  assert (B1 : -1 <= sin a / cos lat0 < 1).
  { assert (0 <= sin a / cos lat0) by (apply Rmult_le_pos; [lra|left; apply Rinv_0_lt_compat; exact C0]).
    assert (sin a / cos lat0 < 1) by (apply Rmult_lt_reg_r with (r := cos lat0); [exact C0|]; unfold Rdiv; rewrite Rmult_assoc, Rinv_l by lra; lra). lra. }
  pose proof (asin_bound (sin a / cos lat0)) as AB. split.
  - apply sin_increasing_0; try lra. rewrite sin_asin by lra. exact S2.
  - apply sin_increasing_0; try lra. rewrite sin_asin, sin_PI2 by lra. lra.
Qed.
(* ------------------------------ in degrees ------------------------------ *)
Lemma lat_rad x : -90 <= x <= 90 -> latitude (rad x).
Proof.
  intros H. unfold latitude. replace (PI / 2) with (rad 90) by (unfold rad; field). replace (- rad 90) with (rad (-90)) by (unfold rad; field).
  split; apply (proj1 (rad_le _ _)); lra.
Qed.
Lemma cap_rad lat0 x : Rabs lat0 + deg x < 90 -> Rabs (rad lat0) + x < PI / 2.
Proof.
  intros H. apply (proj1 (rad_lt _ _)) in H. replace (rad 90) with (PI / 2) in H by (unfold rad; field).
  replace (rad (Rabs lat0 + deg x)) with (rad (Rabs lat0) + rad (deg x)) in H by (unfold rad; field). rewrite rad_deg, rad_abs in H. exact H.
Qed.
Lemma near_longitude lon0 lon w : 0 <= w <= PI -> (forall d, - PI <= d <= PI -> cos d = cos (rad lon - rad lon0) -> Rabs d <= w) ->
  between_lons (lon0 - deg w, lon0 + deg w) lon.
Proof.
  intros W H. pose proof PI_RGT_0 as P. destruct (wrap_turns (rad lon - rad lon0)) as (k & K). pose proof (wrap_range (rad lon - rad lon0)) as B.
  rewrite K in B. pose proof (H (rad lon - rad lon0 + 2 * IZR k * PI) ltac:(lra)) as D.
  rewrite <- K, wrap_cos in D. specialize (D eq_refl). rewrite K in D. exists k. cbn [fst snd].
  assert (E : rad lon - rad lon0 + 2 * IZR k * PI = rad (lon - lon0 + 360 * IZR k)) by (unfold rad; field). rewrite E in D.
  rewrite <- (rad_deg w), <- rad_abs in D. apply (proj2 (rad_le _ _)) in D.
  revert D. unfold Rabs. destruct (Rcase_abs _); lra.
Qed.
Lemma true_longitudes T lon0 lat0 r lon lat : 0 < T -> 0 <= r -> Rabs lat0 + deg (r / T) < 90 -> in_region T lon0 lat0 r lon lat ->
  let w := deg (asin (sin (r / T) / cos (rad lat0))) in between_lons (lon0 - w, lon0 + w) lon.
Proof.
  intros HT Hr HP [HL HD]. cbv zeta. pose proof PI_RGT_0 as P.
  assert (Q : 0 <= r / T) by (apply Rmult_le_pos; [lra|left; apply Rinv_0_lt_compat; lra]).
  pose proof (cap_rad _ _ HP) as HC. pose proof (Rabs_pos (rad lat0)).
  apply within_dot in HD; [|exact HT|lra]. destruct HD as [_ HD].
  destruct (cap_ratio _ _ Q HC) as (C0 & [S0 S1] & CA).
  assert (B1 : 0 <= sin (r / T) / cos (rad lat0) <= 1).
  { assert (0 <= sin (r / T) / cos (rad lat0)) by (apply Rmult_le_pos; [lra|left; apply Rinv_0_lt_compat; exact C0]).
    assert (sin (r / T) / cos (rad lat0) <= 1) by (apply Rmult_le_reg_r with (r := cos (rad lat0)); [exact C0|]; unfold Rdiv at 1; rewrite Rmult_assoc, Rinv_l by lra; lra). lra. }
  apply near_longitude.
  - pose proof (asin_bound (sin (r / T) / cos (rad lat0))). split; [|lra]. apply sin_incr_0; try lra. rewrite sin_asin, sin_0 by lra. lra.
  - intros d Hd E. apply (lon_angle (rad lon0) _ (rad lon) (rad lat)); auto. apply lat_rad. exact HL.
Qed.
Lemma equator_longitudes T lon0 r lon lat : 0 < T -> 0 <= r -> in_region T lon0 0 r lon lat ->
  between_lons (fst (location_extents T lon0 0 r)) lon \/ fst (location_extents T lon0 0 r) = (-180, 180).
Proof.
  intros HT Hr H. cbn [location_extents fst]. destruct (Rle_dec 90 (Rabs 0 + deg (r / T))) as [X|X]; [right; reflexivity|left].
  assert (HP : Rabs 0 + deg (r / T) < 90) by lra. pose proof (true_longitudes _ _ _ _ _ _ HT Hr HP H) as W. cbv zeta in W.
  replace (rad 0) with 0 in * by (unfold rad; field). rewrite cos_0 in *. replace (sin (r / T) / 1) with (sin (r / T)) in W by field.
  assert (Q : 0 <= r / T) by (apply Rmult_le_pos; [lra|left; apply Rinv_0_lt_compat; lra]). pose proof PI_RGT_0.
  pose proof (cap_rad _ _ HP) as HC. pose proof (Rabs_pos (rad 0)). rewrite asin_sin in W by lra. rewrite Rabs_R0 in HP. 
  replace (Rmin (deg (r / T) / 1) 180) with (deg (r / T)); [exact W|]. rewrite Rmin_left by lra. field.
Qed.
Lemma whole_longitudes lon : between_lons (-180, 180) lon.
Proof.
  unfold between_lons. cbn [fst snd]. exists (- Int_part ((lon + 180) / 360))%Z. rewrite opp_IZR. destruct (base_Int_part ((lon + 180) / 360)) as [A B].
  split; lra.
Qed.
Lemma longitudes_missed T lon0 lat0 r : 0 < T -> 0 < r -> lat0 <> 0 -> Rabs lat0 + deg (r / T) < 90 ->
  exists lon lat, in_region T lon0 lat0 r lon lat /\ ~ between_lons (fst (location_extents T lon0 lat0 r)) lon.
Proof.
  intros HT Hr NZ HP. pose proof PI_RGT_0 as P.
  assert (Q : 0 < r / T) by (apply Rdiv_lt_0_compat; lra). pose proof (cap_rad _ _ HP) as HC. pose proof (Rabs_pos (rad lat0)).
  assert (NZ' : rad lat0 <> 0) by (intros E; apply NZ; rewrite <- (deg_rad lat0), E; unfold deg; field; lra).
  destruct (east_point (rad lat0) (r / T) ltac:(lra) HC) as [L E]. destruct (east_far _ _ Q NZ' HC) as [F1 F2].
  set (dl := asin (sin (r / T) / cos (rad lat0))) in *. set (la := asin (sin (rad lat0) / cos (r / T))) in *.
  exists (lon0 + deg dl), (deg la). split.
  - split.
    + unfold latitude in L. rewrite <- (rad_deg la) in L. replace (PI / 2) with (rad 90) in L by (unfold rad; field). replace (- rad 90) with (rad (-90)) in L by (unfold rad; field).
      split; apply (proj2 (rad_le _ _)); lra.
    + apply within_dot; [exact HT|lra|]. split; [lra|]. right. replace (rad (lon0 + deg dl)) with (rad lon0 + rad (deg dl)) by (unfold rad; field). rewrite !rad_deg. apply E.
  - cbn [location_extents fst]. destruct (Rle_dec 90 (Rabs lat0 + deg (r / T))) as [X|X]; [lra|].
    destruct (cap_ratio (rad lat0) (r / T) ltac:(lra) HC) as (C0 & _ & _).
    assert (D : deg (r / T) / cos (rad lat0) = deg (r / T / cos (rad lat0))) by (unfold deg; field; split; lra).
    assert (G1 : deg (r / T / cos (rad lat0)) < deg dl) by (apply (proj2 (rad_lt _ _)); rewrite !rad_deg; exact F1).
    assert (G2 : deg dl < 90) by (apply (proj2 (rad_lt _ _)); rewrite rad_deg; replace (rad 90) with (PI / 2) by (unfold rad; field); exact F2).
    assert (G0 : 0 < deg (r / T / cos (rad lat0))).
    { apply (proj2 (rad_lt _ _)). rewrite rad_deg. replace (rad 0) with 0 by (unfold rad; field). apply Rdiv_lt_0_compat; lra. }
    rewrite Rmin_left by (rewrite D; lra). rewrite D. unfold between_lons. cbn [fst snd]. intros (k & K1 & K2).
    assert (k = 0)%Z.
    { assert (-1 < IZR k < 1) by lra. destruct (Z.lt_trichotomy k 0) as [C|[C|C]]; [|exact C|].
      - assert (IZR k <= -1) by (apply IZR_le; lia). lra.
      - assert (1 <= IZR k) by (apply IZR_le; lia). lra. }
    subst k. lra.
Qed.
