From Coq Require Import QArith Qround Reals Qreals Lra Lqa Psatz ZArith.
From Verif Require Import Coords_model Coords_spec.
Open Scope Q_scope.

Lemma qmod_range x m : 0 < m -> 0 <= qmod x m < m.
Proof.
  intros Hm. unfold qmod.
  pose proof (Qfloor_le (x / m)) as H1.
  pose proof (Qlt_floor (x / m)) as H2.
  rewrite inject_Z_plus in H2.
  assert (Hx : x == m * (x / m)) by (field; intro E; rewrite E in Hm; now apply Qlt_irrefl in Hm).
  set (q := x / m) in *. set (f := inject_Z (Qfloor q)) in *.
  change (inject_Z 1) with 1 in H2.
  split.
  - rewrite Hx. assert (0 <= m * (q - f)) by (apply Qmult_le_0_compat; lra). lra.
  - rewrite Hx. assert (0 < m * (1 - (q - f))) by (apply Qmult_lt_0_compat; lra). lra.
Qed.

Lemma qmod_congr x m : exists k : Z, qmod x m == x + m * inject_Z k.
Proof.
  exists (- Qfloor (x / m))%Z. unfold qmod. rewrite inject_Z_opp. ring.
Qed.

Lemma Qfloor_unique (x : Q) (k : Z) : inject_Z k <= x -> x < inject_Z (k + 1) -> Qfloor x = k.
Proof.
  intros H1 H2.
  assert (A : (k <= Qfloor x)%Z) by (rewrite <- (Qfloor_Z k); now apply Qfloor_resp_le).
  assert (B : (Qfloor x < k + 1)%Z).
  { rewrite Zlt_Qlt. eapply Qle_lt_trans; [apply Qfloor_le | exact H2]. }
  lia.
Qed.

Lemma qmod_id x m : 0 <= x < m -> qmod x m == x.
Proof.
  intros [H1 H2]. assert (Hm : 0 < m) by lra.
  assert (E : Qfloor (x / m) = 0%Z).
  { apply Qfloor_unique.
    - apply Qle_shift_div_l; [exact Hm|]. change (inject_Z 0) with 0. lra.
    - apply Qlt_shift_div_r; [exact Hm|]. change (inject_Z (0 + 1)) with 1. lra. }
  unfold qmod. rewrite E. change (inject_Z 0) with 0. ring.
Qed.

Lemma Qle_bool_false x y : Qle_bool x y = false <-> y < x.
Proof.
  split; intros H.
  - apply Qnot_le_lt. intro E. apply Qle_bool_iff in E. congruence.
  - destruct (Qle_bool x y) eqn:E; [|reflexivity].
    apply Qle_bool_iff in E. exfalso. lra.
Qed.

Lemma qclip_range x : -90 <= qclip x (-90) 90 <= 90.
Proof.
  unfold qclip. destruct (Qle_bool 90 x) eqn:E1; [lra|].
  destruct (Qle_bool x (-90)) eqn:E2; [lra|].
  apply Qle_bool_false in E1. apply Qle_bool_false in E2. lra.
Qed.

Lemma qclip_id x : -90 <= x <= 90 -> qclip x (-90) 90 == x.
Proof.
  intros H. unfold qclip. destruct (Qle_bool 90 x) eqn:E1.
  - apply Qle_bool_iff in E1. lra.
  - destruct (Qle_bool x (-90)) eqn:E2; [|lra].
    apply Qle_bool_iff in E2. lra.
Qed.

Lemma normalize_inner lon lat : -90 <= lat <= 90 ->
  normalize_coords (lon, lat) = (qmod (lon + 180) 360 - 180, qclip lat (-90) 90).
Proof.
  intros [H1 H2]. unfold normalize_coords.
  apply Qle_bool_iff in H1, H2. now rewrite H2, H1.
Qed.

Lemma normalize_north lon lat : 90 < lat ->
  normalize_coords (lon, lat) = (lon - 180, qclip (180 - lat) (-90) 90).
Proof.
  intros H. unfold normalize_coords. apply Qle_bool_false in H. now rewrite H.
Qed.

Lemma normalize_south lon lat : lat < -90 ->
  normalize_coords (lon, lat) = (lon - 180, qclip (-180 - lat) (-90) 90).
Proof.
  intros H. unfold normalize_coords.
  assert (H2 : Qle_bool lat 90 = true) by (apply Qle_bool_iff; lra).
  apply Qle_bool_false in H. now rewrite H2, H.
Qed.

Lemma trichotomy lat : -90 <= lat <= 90 \/ 90 < lat \/ lat < -90.
Proof.
  destruct (Qlt_le_dec 90 lat); [auto|]. destruct (Qlt_le_dec lat (-90)); auto.
Qed.

Lemma lat_always loc : lat_in_range (normalize_coords loc).
Proof.
  destruct loc as [lon lat]. unfold lat_in_range.
  destruct (trichotomy lat) as [H|[H|H]];
    [rewrite normalize_inner by exact H | rewrite normalize_north by exact H
    |rewrite normalize_south by exact H]; apply qclip_range.
Qed.

(** *** Angles *)
Open Scope R_scope.

Lemma Q2R_inject_Z k : Q2R (inject_Z k) = IZR k.
Proof. unfold Q2R, inject_Z; simpl. field. Qed.

Lemma cos_period_Z x k : cos (x + 2 * IZR k * PI) = cos x.
Proof.
  destruct (Z_le_gt_dec 0 k) as [H|H].
  - rewrite <- (Z2Nat.id k) by exact H. rewrite <- INR_IZR_INZ. apply cos_period.
  - assert (E : IZR k = - INR (Z.to_nat (- k))).
    { rewrite INR_IZR_INZ, Z2Nat.id by lia. rewrite opp_IZR. lra. }
    rewrite <- (cos_period (x + 2 * IZR k * PI) (Z.to_nat (- k))).
    f_equal. rewrite E. lra.
Qed.

Lemma sin_period_Z x k : sin (x + 2 * IZR k * PI) = sin x.
Proof.
  destruct (Z_le_gt_dec 0 k) as [H|H].
  - rewrite <- (Z2Nat.id k) by exact H. rewrite <- INR_IZR_INZ. apply sin_period.
  - assert (E : IZR k = - INR (Z.to_nat (- k))).
    { rewrite INR_IZR_INZ, Z2Nat.id by lia. rewrite opp_IZR. lra. }
    rewrite <- (sin_period (x + 2 * IZR k * PI) (Z.to_nat (- k))).
    f_equal. rewrite E. lra.
Qed.

Lemma deg_ext a b : (a == b)%Q -> deg a = deg b.
Proof. intros H. unfold deg. now rewrite (Qeq_eqR _ _ H). Qed.

Lemma Q2R_360 : Q2R 360 = 360. Proof. unfold Q2R; simpl; lra. Qed.
Lemma Q2R_180 : Q2R 180 = 180. Proof. unfold Q2R; simpl; lra. Qed.
Lemma Q2R_m180 : Q2R (-180) = -180. Proof. unfold Q2R; simpl; lra. Qed.

Lemma same_point_inner lon lat : (-90 <= lat <= 90)%Q ->
  same_point (normalize_coords (lon, lat)) (lon, lat).
Proof.
  intros H. rewrite normalize_inner by exact H. unfold same_point, direction.
  destruct (qmod_congr (lon + 180) 360) as [k Hk].
  assert (E1 : (qmod (lon + 180) 360 - 180 == lon + 360 * inject_Z k)%Q) by (rewrite Hk; ring).
  rewrite (deg_ext _ _ E1), (deg_ext _ _ (qclip_id lat H)).
  assert (E2 : deg (lon + 360 * inject_Z k) = deg lon + 2 * IZR k * PI).
  { unfold deg. rewrite Q2R_plus, Q2R_mult, Q2R_inject_Z, Q2R_360. field. }
  now rewrite E2, cos_period_Z, sin_period_Z.
Qed.

Lemma deg_flip_lon lon : deg (lon - 180) = deg lon - PI.
Proof. unfold deg. rewrite Q2R_minus, Q2R_180. field. Qed.

Lemma cos_minus_PI x : cos (x - PI) = - cos x.
Proof. rewrite cos_minus, cos_PI, sin_PI. ring. Qed.
Lemma sin_minus_PI x : sin (x - PI) = - sin x.
Proof. rewrite sin_minus, cos_PI, sin_PI. ring. Qed.

Lemma same_point_north lon lat : (90 < lat <= 270)%Q ->
  same_point (normalize_coords (lon, lat)) (lon, lat).
Proof.
  intros [H1 H2]. rewrite normalize_north by exact H1. unfold same_point, direction.
  assert (Hc : (-90 <= 180 - lat <= 90)%Q) by (split; Lqa.lra).
  rewrite (deg_ext _ _ (qclip_id _ Hc)), deg_flip_lon, cos_minus_PI, sin_minus_PI.
  assert (E : deg (180 - lat) = PI - deg lat).
  { unfold deg. rewrite Q2R_minus, Q2R_180. field. }
  rewrite E, Rtrigo_facts.cos_pi_minus, Rtrigo_facts.sin_pi_minus.
  f_equal; f_equal; ring.
Qed.

Lemma same_point_south lon lat : (-270 <= lat < -90)%Q ->
  same_point (normalize_coords (lon, lat)) (lon, lat).
Proof.
  intros [H1 H2]. rewrite normalize_south by exact H2. unfold same_point, direction.
  assert (Hc : (-90 <= -180 - lat <= 90)%Q) by (split; Lqa.lra).
  rewrite (deg_ext _ _ (qclip_id _ Hc)), deg_flip_lon, cos_minus_PI, sin_minus_PI.
  assert (E : deg (-180 - lat) = - (deg lat + PI)).
  { unfold deg. rewrite Q2R_minus, Q2R_m180. field. }
  rewrite E, cos_neg, sin_neg, neg_cos, neg_sin.
  f_equal; [f_equal; ring|ring].
Qed.

Lemma same_point_270 lon lat : (-270 <= lat <= 270)%Q ->
  same_point (normalize_coords (lon, lat)) (lon, lat).
Proof.
  intros [H1 H2]. destruct (trichotomy lat) as [H|[H|H]].
  - now apply same_point_inner.
  - apply same_point_north. now split.
  - apply same_point_south. now split.
Qed.

Open Scope Q_scope.
Lemma range_inner lon lat : -90 <= lat <= 90 -> lon_in_range (normalize_coords (lon, lat)).
Proof.
  intros H. rewrite normalize_inner by exact H. unfold lon_in_range; simpl.
  assert (A : 0 < 360) by reflexivity.
  pose proof (qmod_range (lon + 180) 360 A). split; lra.
Qed.

(** exact characterisation of when the documented range is met *)
Lemma range_iff lon lat :
  lon_in_range (normalize_coords (lon, lat)) <->
  (-90 <= lat <= 90 \/ (0 <= lon /\ lon < 360)).
Proof.
  destruct (trichotomy lat) as [H|[H|H]].
  - split; [auto|]. intros _. now apply range_inner.
  - rewrite normalize_north by exact H. unfold lon_in_range; simpl. split.
    + intros [A B]. right. split; lra.
    + intros [[A B]|[A B]]; split; lra.
  - rewrite normalize_south by exact H. unfold lon_in_range; simpl. split.
    + intros [A B]. right. split; lra.
    + intros [[A B]|[A B]]; split; lra.
Qed.

Lemma idempotent_inner lon lat : -90 <= lat <= 90 ->
  same_pair (normalize_coords (normalize_coords (lon, lat))) (normalize_coords (lon, lat)).
Proof.
  intros H. rewrite (normalize_inner lon lat H).
  assert (H2 : -90 <= qclip lat (-90) 90 <= 90) by apply qclip_range.
  rewrite normalize_inner by exact H2. unfold same_pair; simpl. split.
  - assert (A : 0 < 360) by reflexivity.
    pose proof (qmod_range (lon + 180) 360 A) as Hr.
    set (r := qmod (lon + 180) 360) in *.
    assert (E : qmod (r - 180 + 180) 360 == r - 180 + 180) by (apply qmod_id; split; lra).
    rewrite E. ring.
  - apply qclip_id. exact H2.
Qed.

Lemma wrong_point : ~ same_point (normalize_coords (0, 300)) (0, 300).
Proof.
  assert (E : normalize_coords (0, 300) = (-180, -90)) by (vm_compute; reflexivity).
  rewrite E. unfold same_point, direction. intros H. injection H as _ _ Hs. revert Hs.
  assert (E1 : (deg (-90) = - (PI / 2))%R).
  { unfold deg. replace (Q2R (-90)) with (-90)%R by (unfold Q2R; simpl; Lra.lra). Lra.lra. }
  assert (E2 : (deg 300 = 2 * PI - PI / 3)%R).
  { unfold deg. replace (Q2R 300) with (300)%R by (unfold Q2R; simpl; Lra.lra). Lra.lra. }
  rewrite E1, E2, sin_neg, sin_PI2.
  rewrite sin_minus, sin_2PI, cos_2PI. rewrite sin_PI3, cos_PI3.
  intros Hs.
  assert (Hq : (sqrt 3 = 2)%R) by Lra.lra.
  assert (H3 : (sqrt 3 * sqrt 3 = 3)%R) by (apply sqrt_sqrt; Lra.lra).
  rewrite Hq in H3. Lra.lra.
Qed.
