(** Lemmas about the spherical helpers. *)
From Coq Require Import Reals Lra Psatz ZArith.
From Verif Require Import Coords_proofs Trig_model Geo_spec.
Open Scope R_scope.

(** ** Remainders *)
Lemma trunc_pos : forall q, 0 <= q -> 0 <= q - IZR (trunc q) < 1.
Proof.
  intros q H. unfold trunc. destruct (Rle_dec 0 q); [|lra].
  destruct (base_Int_part q). lra.
Qed.

Lemma trunc_neg : forall q, q < 0 -> -1 < q - IZR (trunc q) <= 0.
Proof.
  intros q H. unfold trunc. destruct (Rle_dec 0 q); [lra|].
  destruct (base_Int_part (- q)). rewrite opp_IZR. lra.
Qed.

Lemma rem_pos : forall x m, 0 < m -> 0 <= x -> 0 <= rust_rem x m < m.
Proof.
  intros x m Hm Hx. unfold rust_rem.
  assert (Q : 0 <= x / m) by (unfold Rdiv; apply Rmult_le_pos; [lra|left; apply Rinv_0_lt_compat; lra]).
  pose proof (trunc_pos _ Q). set (k := IZR (trunc (x / m))) in *.
  replace (x - m * k) with (m * (x / m - k)) by (field; lra). nra.
Qed.

Lemma rem_neg : forall x m, 0 < m -> x < 0 -> - m < rust_rem x m <= 0.
Proof.
  intros x m Hm Hx. unfold rust_rem.
  assert (Q : x / m < 0).
  { unfold Rdiv. assert (0 < / m) by (apply Rinv_0_lt_compat; lra). nra. }
  pose proof (trunc_neg _ Q). set (k := IZR (trunc (x / m))) in *.
  replace (x - m * k) with (m * (x / m - k)) by (field; lra). nra.
Qed.

Lemma positive_mod_range : forall x m, 0 < m -> 0 <= positive_mod x m < m.
Proof.
  intros x m Hm. unfold positive_mod. apply rem_pos; [lra|].
  destruct (Rle_lt_dec 0 x) as [H|H].
  - pose proof (rem_pos x m Hm H). lra.
  - pose proof (rem_neg x m Hm H). lra.
Qed.

Lemma positive_mod_congr : forall x m, exists k : Z, positive_mod x m = x + IZR k * m.
Proof.
  intros x m. unfold positive_mod, rust_rem.
  exists (- trunc (x / m) + 1 - trunc ((x - m * IZR (trunc (x / m)) + m) / m))%Z.
  rewrite minus_IZR, plus_IZR, opp_IZR. ring.
Qed.

Lemma wrap_turns : forall x, exists k : Z, positive_mod (x + PI) TAU - PI = x + 2 * IZR k * PI.
Proof.
  intros x. destruct (positive_mod_congr (x + PI) TAU) as [k E]. exists k. rewrite E. unfold TAU. ring.
Qed.

Lemma TAU_pos : 0 < TAU.
Proof. unfold TAU. pose proof PI_RGT_0. lra. Qed.

Lemma wrap_range : forall x, - PI <= positive_mod (x + PI) TAU - PI < PI.
Proof.
  intros x. pose proof (positive_mod_range (x + PI) TAU TAU_pos). unfold TAU in *. lra.
Qed.

Lemma small_multiple : forall a b (k : Z) m, 0 < m -> 0 <= a < m -> 0 <= b < m -> a = b + IZR k * m -> k = 0%Z.
Proof.
  intros a b k m Hm Ha Hb E.
  assert (-1 < IZR k < 1).
  { split; apply Rmult_lt_reg_r with m; lra. }
  destruct H as [H1 H2]. apply lt_IZR in H2. change (-1) with (IZR (-1)) in H1. apply lt_IZR in H1. lia.
Qed.

Lemma wrap_id : forall x, - PI <= x < PI -> positive_mod (x + PI) TAU - PI = x.
Proof.
  intros x H. destruct (positive_mod_congr (x + PI) TAU) as [k E].
  pose proof (positive_mod_range (x + PI) TAU TAU_pos) as P.
  assert (k = 0)%Z.
  { apply (small_multiple (positive_mod (x + PI) TAU) (x + PI) k TAU); auto using TAU_pos.
    unfold TAU. lra. }
  subst k. rewrite E. simpl. ring.
Qed.

Lemma same_angle_cos : forall a b, same_angle a b -> cos a = cos b.
Proof. intros a b [k ->]. apply cos_period_Z. Qed.
Lemma same_angle_sin : forall a b, same_angle a b -> sin a = sin b.
Proof. intros a b [k ->]. apply sin_period_Z. Qed.

Lemma wrap_cos : forall x, cos (positive_mod (x + PI) TAU - PI) = cos x.
Proof. intros. destruct (wrap_turns x) as [k ->]. apply cos_period_Z. Qed.
Lemma wrap_sin : forall x, sin (positive_mod (x + PI) TAU - PI) = sin x.
Proof. intros. destruct (wrap_turns x) as [k ->]. apply sin_period_Z. Qed.

(** ** atan2 *)
Lemma sq_sqrt : forall x, 0 <= x -> sqrt x * sqrt x = x.
Proof. intros. apply sqrt_sqrt. assumption. Qed.

Lemma hyp_pos : forall x y, 0 < x -> sqrt (x ^ 2 + y ^ 2) = x * sqrt (1 + (y / x)²).
Proof.
  intros x y Hx. replace (x ^ 2 + y ^ 2) with (x² * (1 + (y / x)²)).
  - rewrite sqrt_mult_alt by (apply Rle_0_sqr). rewrite sqrt_Rsqr by lra. reflexivity.
  - unfold Rsqr. field. lra.
Qed.

Lemma one_sq_pos : forall t, 0 < sqrt (1 + t²).
Proof. intro t. apply sqrt_lt_R0. pose proof (Rle_0_sqr t). lra. Qed.

Lemma atan2_polar : forall y x,
  sqrt (x ^ 2 + y ^ 2) * cos (atan2 y x) = x /\ sqrt (x ^ 2 + y ^ 2) * sin (atan2 y x) = y.
Proof.
  intros y x. unfold atan2. destruct (Rlt_dec 0 x) as [P|P].
  - rewrite hyp_pos by assumption. pose proof (one_sq_pos (y / x)).
    rewrite cos_atan, sin_atan. split; field; lra.
  - destruct (Rlt_dec x 0) as [N|N].
    + assert (HH : sqrt (x ^ 2 + y ^ 2) = - x * sqrt (1 + (y / x)²)).
      { replace (x ^ 2 + y ^ 2) with ((- x) ^ 2 + (- y) ^ 2) by ring. rewrite hyp_pos by lra.
        do 4 f_equal. field. lra. }
      rewrite HH. pose proof (one_sq_pos (y / x)).
      destruct (Rle_dec 0 y).
      * rewrite neg_cos, neg_sin, cos_atan, sin_atan. split; field; lra.
      * replace (atan (y / x) - PI) with (- (PI - atan (y / x))) by ring.
        rewrite cos_neg, sin_neg, Rtrigo_facts.cos_pi_minus, Rtrigo_facts.sin_pi_minus, cos_atan, sin_atan.
        split; field; lra.
    + assert (x = 0) by lra. subst x.
      replace (0 ^ 2 + y ^ 2) with (y²) by (unfold Rsqr; ring).
      destruct (Rlt_dec 0 y) as [Y|Y].
      * rewrite sqrt_Rsqr, cos_PI2, sin_PI2 by lra. split; ring.
      * destruct (Rlt_dec y 0) as [Z|Z].
        -- rewrite (Rsqr_neg y), sqrt_Rsqr, cos_neg, sin_neg, cos_PI2, sin_PI2 by lra. split; ring.
        -- assert (y = 0) by lra. subst y. rewrite Rsqr_0, sqrt_0. split; ring.
Qed.

Lemma atan2_range : forall y x, - PI < atan2 y x <= PI.
Proof.
  intros y x. unfold atan2. pose proof PI_RGT_0. destruct (Rlt_dec 0 x) as [P|P].
  - pose proof (atan_bound (y / x)). lra.
  - destruct (Rlt_dec x 0) as [N|N].
    + assert (Hi : / x < 0) by (apply Rinv_lt_0_compat; assumption).
      destruct (Rle_dec 0 y).
      * assert (L : y / x <= 0) by (unfold Rdiv; nra).
        pose proof (atan_bound (y / x)).
        assert (atan (y / x) <= 0).
        { destruct L as [L|L]; [left; rewrite <- atan_0; apply atan_increasing; assumption|rewrite L, atan_0; lra]. }
        lra.
      * assert (L : 0 < y / x) by (unfold Rdiv; nra).
        pose proof (atan_bound (y / x)).
        assert (0 < atan (y / x)) by (rewrite <- atan_0; apply atan_increasing; assumption). lra.
    + destruct (Rlt_dec 0 y); [lra|]. destruct (Rlt_dec y 0); lra.
Qed.

(** ** Directions *)
Lemma cs : forall x, cos x * cos x + sin x * sin x = 1.
Proof. intro x. pose proof (sin2_cos2 x) as H. unfold Rsqr in H. lra. Qed.

Lemma direction_unit : forall lon lat, dot (direction lon lat) (direction lon lat) = 1.
Proof.
  intros. unfold dot, direction. pose proof (cs lon). pose proof (cs lat).
  replace (cos lat * cos lon * (cos lat * cos lon) + cos lat * sin lon * (cos lat * sin lon) + sin lat * sin lat)
    with (cos lat * cos lat * (cos lon * cos lon + sin lon * sin lon) + sin lat * sin lat) by ring.
  rewrite H. lra.
Qed.

Lemma dot_sym : forall u v, dot u v = dot v u.
Proof. intros [[a b] c] [[x y] z]. unfold dot. ring. Qed.

Lemma dot_formula : forall lon1 lat1 lon2 lat2,
  dot (direction lon1 lat1) (direction lon2 lat2)
  = sin lat1 * sin lat2 + cos lat1 * cos lat2 * cos (lon2 - lon1).
Proof. intros. unfold dot, direction. rewrite cos_minus. ring. Qed.

Lemma dot_bound : forall u v, dot u u = 1 -> dot v v = 1 -> -1 <= dot u v <= 1.
Proof.
  intros [[a b] c] [[x y] z] Hu Hv. unfold dot in *.
  assert (0 <= (a + x) * (a + x) + (b + y) * (b + y) + (c + z) * (c + z)).
  { pose proof (Rle_0_sqr (a + x)). pose proof (Rle_0_sqr (b + y)). pose proof (Rle_0_sqr (c + z)). unfold Rsqr in *. lra. }
  assert (0 <= (a - x) * (a - x) + (b - y) * (b - y) + (c - z) * (c - z)).
  { pose proof (Rle_0_sqr (a - x)). pose proof (Rle_0_sqr (b - y)). pose proof (Rle_0_sqr (c - z)). unfold Rsqr in *. lra. }
  lra.
Qed.

Lemma dot_one : forall u v, dot u u = 1 -> dot v v = 1 -> dot u v = 1 -> u = v.
Proof.
  intros [[a b] c] [[x y] z] Hu Hv H. unfold dot in *.
  assert (E : (a - x)² + (b - y)² + (c - z)² = 0) by (unfold Rsqr; lra).
  pose proof (Rle_0_sqr (a - x)). pose proof (Rle_0_sqr (b - y)). pose proof (Rle_0_sqr (c - z)).
  assert (a - x = 0) by (apply Rsqr_eq_0; lra).
  assert (b - y = 0) by (apply Rsqr_eq_0; lra).
  assert (c - z = 0) by (apply Rsqr_eq_0; lra).
  repeat f_equal; lra.
Qed.

Lemma gram : forall u v w, dot u u = 1 -> dot v v = 1 -> dot w w = 1 ->
  0 <= 1 + 2 * dot u v * dot v w * dot u w - dot u v * dot u v - dot v w * dot v w - dot u w * dot u w.
Proof.
  intros [[a b] c] [[d e] f] [[g h] i] Hu Hv Hw.
  pose proof (Rle_0_sqr (a * (e * i - f * h) - b * (d * i - f * g) + c * (d * h - e * g))) as D.
  assert (G : (a * (e * i - f * h) - b * (d * i - f * g) + c * (d * h - e * g))² =
    dot (a,b,c) (a,b,c) * dot (d,e,f) (d,e,f) * dot (g,h,i) (g,h,i)
    + 2 * dot (a,b,c) (d,e,f) * dot (d,e,f) (g,h,i) * dot (a,b,c) (g,h,i)
    - dot (g,h,i) (g,h,i) * (dot (a,b,c) (d,e,f) * dot (a,b,c) (d,e,f))
    - dot (a,b,c) (a,b,c) * (dot (d,e,f) (g,h,i) * dot (d,e,f) (g,h,i))
    - dot (d,e,f) (d,e,f) * (dot (a,b,c) (g,h,i) * dot (a,b,c) (g,h,i))).
  { unfold dot, Rsqr. ring. }
  rewrite Hu, Hv, Hw in G. lra.
Qed.

Lemma angle_triangle : forall u v w, dot u u = 1 -> dot v v = 1 -> dot w w = 1 ->
  acos (dot u w) <= acos (dot u v) + acos (dot v w).
Proof.
  intros u v w Hu Hv Hw.
  pose proof (gram u v w Hu Hv Hw) as G.
  pose proof (dot_bound u v Hu Hv) as B1. pose proof (dot_bound v w Hv Hw) as B2. pose proof (dot_bound u w Hu Hw) as B3.
  set (x := dot u v) in *. set (y := dot v w) in *. set (z := dot u w) in *.
  pose proof (acos_bound x) as A1. pose proof (acos_bound y) as A2. pose proof (acos_bound z) as A3.
  destruct (Rle_lt_dec PI (acos x + acos y)) as [L|L]; [lra|].
  apply cos_decr_0; [lra|lra|lra|lra|].
  rewrite cos_plus, !cos_acos, !sin_acos by assumption.
  assert (X : 0 <= 1 - x²) by (unfold Rsqr; nra). assert (Y : 0 <= 1 - y²) by (unfold Rsqr; nra).
  rewrite <- sqrt_mult_alt by assumption.
  destruct (Rle_lt_dec (x * y) z) as [Q|Q].
  - pose proof (sqrt_pos ((1 - x²) * (1 - y²))). lra.
  - assert (S : x * y - z <= sqrt ((1 - x²) * (1 - y²))); [|lra].
    rewrite <- (sqrt_Rsqr (x * y - z)) by lra. apply sqrt_le_1_alt. unfold Rsqr. lra.
Qed.

(** ** Distance *)
Lemma haversine : forall lon1 lat1 lon2 lat2,
  (sin ((lat2 - lat1) / 2)) ^ 2 + cos lat1 * cos lat2 * (sin ((positive_mod (lon2 - lon1 + PI) TAU - PI) / 2)) ^ 2
  = (1 - dot (direction lon1 lat1) (direction lon2 lat2)) / 2.
Proof.
  intros.
  assert (H : forall x, (sin (x / 2)) ^ 2 = (1 - cos x) / 2).
  { intro x. replace (cos x) with (cos (2 * (x / 2))) by (f_equal; field). rewrite cos_2a_sin. field. }
  rewrite !H, wrap_cos, dot_formula, (cos_minus lat2 lat1). field.
Qed.

Lemma distance_angle : forall lon1 lat1 lon2 lat2 radius,
  compute_one_distance lon1 lat1 lon2 lat2 radius
  = radius * acos (dot (direction lon1 lat1) (direction lon2 lat2)).
Proof.
  intros. unfold compute_one_distance. cbv zeta. rewrite haversine.
  set (d := dot _ _).
  assert (B : -1 <= d <= 1) by (apply dot_bound; apply direction_unit).
  f_equal. pose proof (acos_bound d) as A.
  assert (E : (1 - d) / 2 = (sin (acos d / 2))²).
  { rewrite <- (cos_acos d B) at 1. replace (acos d) with (2 * (acos d / 2)) at 1 by field.
    rewrite cos_2a_sin. unfold Rsqr. field. }
  rewrite E, sqrt_Rsqr by (apply sin_ge_0; lra). rewrite asin_sin; lra.
Qed.

Lemma direction_turns : forall lon lat lon', same_angle lon' lon -> direction lon' lat = direction lon lat.
Proof. intros. unfold direction. rewrite (same_angle_cos _ _ H), (same_angle_sin _ _ H). reflexivity. Qed.

Lemma acos_zero : forall d, -1 <= d <= 1 -> acos d = 0 -> d = 1.
Proof. intros d B H. rewrite <- (cos_acos d B), H. apply cos_0. Qed.

Lemma acos_1' : acos 1 = 0.
Proof. rewrite <- cos_0. apply acos_cos. pose proof PI_RGT_0. lra. Qed.

(** ** Destination *)
Lemma lat_cos : forall lat, latitude lat -> 0 <= cos lat.
Proof. intros lat [A B]. apply cos_ge_0; lra. Qed.

Lemma destination_sine : forall lat1 delta bearing,
  -1 <= sin lat1 * cos delta + cos lat1 * sin delta * cos bearing <= 1.
Proof.
  intros.
  replace (sin lat1 * cos delta + cos lat1 * sin delta * cos bearing)
    with (dot (direction 0 lat1) (direction bearing (PI / 2 - delta))).
  - apply dot_bound; apply direction_unit.
  - rewrite dot_formula. rewrite sin_shift, cos_shift, Rminus_0_r. ring.
Qed.

Section Dest.
  Variables lat1 delta bearing : R.
  Hypothesis Hlat : latitude lat1.
  Let s2 := sin lat1 * cos delta + cos lat1 * sin delta * cos bearing.
  Let lat2 := asin s2.
  Let y := sin bearing * sin delta * cos lat1.
  Let x := cos delta - sin lat1 * sin lat2.
  Let dlon := atan2 y x.

  Lemma sin_lat2 : sin lat2 = s2.
  Proof. apply sin_asin. apply destination_sine. Qed.

  Lemma lat2_ok : latitude lat2.
  Proof. apply asin_bound. Qed.

  Lemma hypot_sq : x ^ 2 + y ^ 2 = (cos lat1 * cos lat2)².
  Proof.
    unfold x, y. pose proof (cs lat2) as C2. rewrite sin_lat2 in *.
    assert (C2' : cos lat2 * cos lat2 = 1 - s2 * s2) by lra.
    unfold Rsqr. replace (cos lat1 * cos lat2 * (cos lat1 * cos lat2))
      with (cos lat1 * cos lat1 * (cos lat2 * cos lat2)) by ring.
    rewrite C2'. unfold s2. pose proof (cs lat1) as C1. pose proof (cs delta) as CD. pose proof (cs bearing) as CB.
    assert (E1 : cos lat1 * cos lat1 = 1 - sin lat1 * sin lat1) by lra.
    assert (E2 : cos delta * cos delta = 1 - sin delta * sin delta) by lra.
    assert (E3 : sin bearing * sin bearing = 1 - cos bearing * cos bearing) by lra.
    set (a := sin lat1) in *. set (b := cos lat1) in *. set (c := cos delta) in *. set (d := sin delta) in *.
    set (p := sin bearing) in *. set (q := cos bearing) in *.
    replace ((c - a * (a * c + b * d * q)) ^ 2 + (p * d * b) ^ 2) with
      (c * c * (1 - a * a) * (1 - a * a) - 2 * c * (1 - a * a) * a * b * d * q + a * a * (b * b) * (d * d) * (q * q)
        + p * p * (d * d) * (b * b)) by ring.
    replace (b * b * (1 - (a * c + b * d * q) * (a * c + b * d * q))) with
      (b * b * (1 - a * a * (c * c) - 2 * a * c * b * d * q - b * b * (d * d) * (q * q))) by ring.
    rewrite E1, E2, E3. ring_simplify.
    replace (d ^ 2) with (d * d) by ring. ring.
  Qed.

  Lemma hypot_val : sqrt (x ^ 2 + y ^ 2) = cos lat1 * cos lat2.
  Proof.
    rewrite hypot_sq. apply sqrt_Rsqr. apply Rmult_le_pos; apply lat_cos; [exact Hlat|exact lat2_ok].
  Qed.

  Lemma dest_cos : cos lat1 * cos lat2 * cos dlon = cos delta - sin lat1 * sin lat2.
  Proof. rewrite <- hypot_val. apply (proj1 (atan2_polar y x)). Qed.
  Lemma dest_sin : cos lat1 * cos lat2 * sin dlon = sin bearing * sin delta * cos lat1.
  Proof. rewrite <- hypot_val. apply (proj2 (atan2_polar y x)). Qed.

  Lemma dest_dot : forall lon1, dot (direction lon1 lat1) (direction (lon1 + dlon) lat2) = cos delta.
  Proof.
    intro lon1. rewrite dot_formula. replace (lon1 + dlon - lon1) with dlon by ring.
    rewrite dest_cos. ring.
  Qed.
End Dest.

Lemma location_elem : forall lon1 lat1 d b radius lon2 lat2,
  compute_location_elem lon1 lat1 d b radius = (lon2, lat2) ->
  lat2 = asin (sin lat1 * cos (d / radius) + cos lat1 * sin (d / radius) * cos b) /\
  same_angle lon2 (lon1 + atan2 (sin b * sin (d / radius) * cos lat1)
                     (cos (d / radius) - sin lat1 * sin lat2)) /\ - PI <= lon2 < PI.
Proof.
  intros lon1 lat1 d b radius lon2 lat2 E. unfold compute_location_elem, compute_one_location in E.
  set (l2 := asin _) in *. 
  assert (W : positive_mod (l2 + PI) TAU - PI = l2).
  { apply wrap_id. pose proof (asin_bound (sin lat1 * cos (d / radius) + cos lat1 * sin (d / radius) * cos b)).
    fold l2 in H. pose proof PI_RGT_0. lra. }
  injection E as E1 E2. rewrite W in E2. subst lat2. split; [reflexivity|]. split.
  - subst lon2. apply wrap_turns.
  - subst lon2. apply wrap_range.
Qed.

Lemma location_distance : forall lon1 lat1 d b radius lon2 lat2,
  latitude lat1 -> 0 < radius -> 0 <= d <= PI * radius ->
  compute_location_elem lon1 lat1 d b radius = (lon2, lat2) ->
  compute_one_distance lon1 lat1 lon2 lat2 radius = d /\ latitude lat2 /\ - PI <= lon2 < PI.
Proof.
  intros lon1 lat1 d b radius lon2 lat2 HL HR Hd E.
  destruct (location_elem _ _ _ _ _ _ _ E) as (E2 & S & Rg). split; [|split; [|exact Rg]].
  - rewrite distance_angle, (direction_turns _ _ _ S), E2, dest_dot by assumption.
    rewrite acos_cos.
    + field. lra.
    + split.
      * unfold Rdiv. apply Rmult_le_pos; [lra|]. left. apply Rinv_0_lt_compat. lra.
      * apply Rmult_le_reg_r with radius; [lra|]. unfold Rdiv. rewrite Rmult_assoc, Rinv_l by lra. lra.
  - rewrite E2. apply asin_bound.
Qed.

(** ** Bearing *)
Lemma bearing_components : forall lon1 lat1 lon2 lat2,
  sin (lon2 - lon1) * cos lat2 = dot (east lon1) (direction lon2 lat2) /\
  cos lat1 * sin lat2 - sin lat1 * cos lat2 * cos (lon2 - lon1) = dot (north lon1 lat1) (direction lon2 lat2).
Proof.
  intros. unfold dot, east, north, direction. rewrite sin_minus, cos_minus. split; ring.
Qed.

Lemma tangent_norm : forall lon1 lat1 lon2 lat2,
  (cos lat1 * sin lat2 - sin lat1 * cos lat2 * cos (lon2 - lon1)) ^ 2 + (sin (lon2 - lon1) * cos lat2) ^ 2
  = 1 - (dot (direction lon1 lat1) (direction lon2 lat2))².
Proof.
  intros. rewrite dot_formula. pose proof (cs lat1). pose proof (cs lat2). pose proof (cs (lon2 - lon1)).
  set (a := cos lat1) in *. set (b := sin lat1) in *. set (c := cos lat2) in *. set (d := sin lat2) in *.
  set (p := cos (lon2 - lon1)) in *. set (q := sin (lon2 - lon1)) in *.
  unfold Rsqr.
  assert (E1 : a * a = 1 - b * b) by lra. assert (E2 : d * d = 1 - c * c) by lra. assert (E3 : q * q = 1 - p * p) by lra.
  replace ((a * d - b * c * p) ^ 2 + (q * c) ^ 2) with
    (a * a * (d * d) - 2 * a * b * c * d * p + b * b * (c * c) * (p * p) + q * q * (c * c)) by ring.
  replace (1 - (b * d + a * c * p) * (b * d + a * c * p)) with
    (1 - b * b * (d * d) - 2 * a * b * c * d * p - a * a * (c * c) * (p * p)) by ring.
  rewrite E1, E2, E3. ring.
Qed.

Lemma one_bearing_polar : forall lon1 lat1 lon2 lat2,
  let h := sqrt (1 - (dot (direction lon1 lat1) (direction lon2 lat2))²) in
  h * cos (compute_one_bearing lon1 lat1 lon2 lat2) = dot (north lon1 lat1) (direction lon2 lat2) /\
  h * sin (compute_one_bearing lon1 lat1 lon2 lat2) = dot (east lon1) (direction lon2 lat2).
Proof.
  intros. unfold compute_one_bearing. cbv zeta. rewrite wrap_sin, wrap_cos.
  unfold h. rewrite <- tangent_norm.
  destruct (bearing_components lon1 lat1 lon2 lat2) as [E N]. rewrite <- E, <- N.
  apply atan2_polar.
Qed.

Lemma bearing_range : forall lon1 lat1 lon2 lat2, 0 <= compute_bearing_elem lon1 lat1 lon2 lat2 < 2 * PI.
Proof. intros. apply (positive_mod_range _ TAU TAU_pos). Qed.

Lemma bearing_turns : forall lon1 lat1 lon2 lat2,
  same_angle (compute_bearing_elem lon1 lat1 lon2 lat2) (compute_one_bearing lon1 lat1 lon2 lat2).
Proof.
  intros. unfold compute_bearing_elem. destruct (positive_mod_congr (compute_one_bearing lon1 lat1 lon2 lat2) TAU) as [k E].
  exists k. rewrite E. unfold TAU. ring.
Qed.

Lemma bearing_polar : forall lon1 lat1 lon2 lat2,
  let h := sin (acos (dot (direction lon1 lat1) (direction lon2 lat2))) in
  h * cos (compute_bearing_elem lon1 lat1 lon2 lat2) = dot (north lon1 lat1) (direction lon2 lat2) /\
  h * sin (compute_bearing_elem lon1 lat1 lon2 lat2) = dot (east lon1) (direction lon2 lat2).
Proof.
  intros. rewrite (same_angle_cos _ _ (bearing_turns lon1 lat1 lon2 lat2)),
    (same_angle_sin _ _ (bearing_turns lon1 lat1 lon2 lat2)).
  unfold h. rewrite sin_acos by (apply dot_bound; apply direction_unit).
  apply one_bearing_polar.
Qed.

(** Angles with the same cosine and sine differ by whole turns. *)
Lemma angle_unique : forall a b, cos a = cos b -> sin a = sin b -> same_angle a b.
Proof.
  intros a b C S.
  assert (H : cos (a - b) = 1) by (rewrite cos_minus, C, S; apply cs).
  destruct (positive_mod_congr (a - b) TAU) as [k E].
  pose proof (positive_mod_range (a - b) TAU TAU_pos) as Rg.
  set (t := positive_mod (a - b) TAU) in *.
  assert (Ct : cos t = 1).
  { rewrite E. replace (IZR k * TAU) with (2 * IZR k * PI) by (unfold TAU; ring). rewrite cos_period_Z. exact H. }
  assert (Z : t = 0).
  { assert (S2 : sin (t / 2) = 0).
    { replace t with (2 * (t / 2)) in Ct by field. rewrite cos_2a_sin in Ct.
      apply Rsqr_eq_0. unfold Rsqr. lra. }
    destruct (Rle_lt_or_eq_dec 0 t (proj1 Rg)) as [P|P]; [|lra].
    assert (0 < sin (t / 2)) by (apply sin_gt_0; unfold TAU in Rg; lra). lra. }
  exists (- k)%Z. rewrite opp_IZR. rewrite Z in E. unfold TAU in E. lra.
Qed.

(** Going out on a bearing and asking for the bearing back gives that bearing. *)
Lemma bearing_round_trip : forall lon1 lat1 d b radius lon2 lat2,
  off_pole lat1 -> 0 < radius -> 0 < d < PI * radius ->
  compute_location_elem lon1 lat1 d b radius = (lon2, lat2) ->
  same_angle (compute_bearing_elem lon1 lat1 lon2 lat2) b.
Proof.
  intros lon1 lat1 d b radius lon2 lat2 HO HR Hd E.
  assert (HL : latitude lat1) by (unfold latitude, off_pole in *; lra).
  destruct (location_elem _ _ _ _ _ _ _ E) as (E2 & S & _).
  pose proof (bearing_polar lon1 lat1 lon2 lat2) as BP. cbv zeta in BP.
  rewrite (direction_turns _ _ _ S) in BP.
  pose proof (dest_dot lat1 (d / radius) b HL lon1) as DD.
  pose proof (dest_cos lat1 (d / radius) b HL) as DC. pose proof (dest_sin lat1 (d / radius) b HL) as DS.
  pose proof (sin_lat2 lat1 (d / radius) b) as SL.
  rewrite <- E2 in DD, DC, DS, SL. rewrite DD in BP.
  assert (Dl : 0 < d / radius < PI).
  { split.
    - apply Rdiv_lt_0_compat; lra.
    - apply Rmult_lt_reg_r with radius; [lra|]. unfold Rdiv. rewrite Rmult_assoc, Rinv_l by lra. lra. }
  rewrite acos_cos in BP by lra.
  set (dl := d / radius) in *. set (dlon := atan2 _ _) in *.
  assert (SD : 0 < sin dl) by (apply sin_gt_0; lra).
  assert (CL : 0 < cos lat1) by (apply cos_gt_0; unfold off_pole in HO; lra).
  destruct (bearing_components lon1 lat1 (lon1 + dlon) lat2) as [Ee En].
  rewrite <- Ee, <- En in BP. replace (lon1 + dlon - lon1) with dlon in BP by ring.
  destruct BP as [B1 B2].
  assert (EC : sin dl * cos (compute_bearing_elem lon1 lat1 lon2 lat2) = sin dl * cos b).
  { apply Rmult_eq_reg_l with (cos lat1); [|lra]. rewrite B1.
    replace (cos lat1 * (cos lat1 * sin lat2 - sin lat1 * cos lat2 * cos dlon))
      with (cos lat1 * cos lat1 * sin lat2 - sin lat1 * (cos lat1 * cos lat2 * cos dlon)) by ring.
    rewrite DC. pose proof (cs lat1).
    replace (cos lat1 * cos lat1 * sin lat2 - sin lat1 * (cos dl - sin lat1 * sin lat2))
      with ((cos lat1 * cos lat1 + sin lat1 * sin lat1) * sin lat2 - sin lat1 * cos dl) by ring.
    rewrite H, SL. ring. }
  assert (ES : sin dl * sin (compute_bearing_elem lon1 lat1 lon2 lat2) = sin dl * sin b).
  { apply Rmult_eq_reg_l with (cos lat1); [|lra]. rewrite B2.
    replace (cos lat1 * (sin dlon * cos lat2)) with (cos lat1 * cos lat2 * sin dlon) by ring.
    rewrite DS. ring. }
  apply angle_unique; apply Rmult_eq_reg_l with (sin dl); lra.
Qed.

(** Following the computed bearing for the computed distance reaches the point. *)
Lemma location_round_trip : forall lon1 lat1 lon2 lat2 radius lon3 lat3,
  latitude lat1 -> latitude lat2 -> 0 < radius -> off_pole lat1 ->
  compute_location_elem lon1 lat1 (compute_one_distance lon1 lat1 lon2 lat2 radius)
     (compute_bearing_elem lon1 lat1 lon2 lat2) radius = (lon3, lat3) ->
  lat3 = lat2 /\ direction lon3 lat3 = direction lon2 lat2.
Proof.
  intros lon1 lat1 lon2 lat2 radius lon3 lat3 H1 H2 HR HO E.
  destruct (location_elem _ _ _ _ _ _ _ E) as (E3 & S & _).
  pose proof (bearing_polar lon1 lat1 lon2 lat2) as BP. cbv zeta in BP.
  set (D := dot (direction lon1 lat1) (direction lon2 lat2)) in *.
  assert (B : -1 <= D <= 1) by (apply dot_bound; apply direction_unit).
  assert (DD : compute_one_distance lon1 lat1 lon2 lat2 radius / radius = acos D).
  { rewrite distance_angle. fold D. field. lra. }
  rewrite DD in *. set (b := compute_bearing_elem lon1 lat1 lon2 lat2) in *.
  destruct (bearing_components lon1 lat1 lon2 lat2) as [Ee En]. rewrite <- Ee, <- En in BP. destruct BP as [B1 B2].
  rewrite cos_acos in * by exact B.
  assert (DF : D = sin lat1 * sin lat2 + cos lat1 * cos lat2 * cos (lon2 - lon1)) by (apply dot_formula).
  pose proof (cs lat1) as C1.
  assert (L3 : lat3 = lat2).
  { rewrite E3. replace (sin lat1 * D + cos lat1 * sin (acos D) * cos b) with (sin lat2).
    - apply asin_sin. exact H2.
    - replace (cos lat1 * sin (acos D) * cos b) with (cos lat1 * (sin (acos D) * cos b)) by ring.
      rewrite B1, DF.
      replace (sin lat1 * (sin lat1 * sin lat2 + cos lat1 * cos lat2 * cos (lon2 - lon1)) +
        cos lat1 * (cos lat1 * sin lat2 - sin lat1 * cos lat2 * cos (lon2 - lon1)))
        with ((cos lat1 * cos lat1 + sin lat1 * sin lat1) * sin lat2) by ring.
      rewrite C1. ring. }
  split; [exact L3|]. subst lat3. rewrite L3 in *.
  assert (CL : 0 < cos lat1) by (apply cos_gt_0; unfold off_pole in HO; lra).
  pose proof (lat_cos _ H2) as CL2.
  set (X := D - sin lat1 * sin lat2) in *. set (Y := sin b * sin (acos D) * cos lat1) in *.
  assert (HX : X = cos lat1 * cos lat2 * cos (lon2 - lon1)) by (unfold X; rewrite DF; ring).
  assert (HY : Y = cos lat1 * cos lat2 * sin (lon2 - lon1)).
  { unfold Y. replace (sin b * sin (acos D) * cos lat1) with (cos lat1 * (sin (acos D) * sin b)) by ring. rewrite B2. ring. }
  assert (HH : sqrt (X ^ 2 + Y ^ 2) = cos lat1 * cos lat2).
  { rewrite HX, HY. pose proof (cs (lon2 - lon1)) as CL12.
    replace ((cos lat1 * cos lat2 * cos (lon2 - lon1)) ^ 2 + (cos lat1 * cos lat2 * sin (lon2 - lon1)) ^ 2)
      with ((cos lat1 * cos lat2)² * (cos (lon2 - lon1) * cos (lon2 - lon1) + sin (lon2 - lon1) * sin (lon2 - lon1)))
      by (unfold Rsqr; ring).
    rewrite CL12, Rmult_1_r. apply sqrt_Rsqr. apply Rmult_le_pos; lra. }
  destruct (atan2_polar Y X) as [P1 P2]. rewrite HH in P1, P2. rewrite HX in P1 at 2. rewrite HY in P2 at 2.
  rewrite (direction_turns _ _ _ S).
  destruct (Rle_lt_or_eq_dec 0 (cos lat2) CL2) as [P|P].
  - assert (Hne : cos lat1 * cos lat2 <> 0) by (apply Rgt_not_eq; apply Rmult_lt_0_compat; lra).
    apply Rmult_eq_reg_l in P1; [|exact Hne]. apply Rmult_eq_reg_l in P2; [|exact Hne].
    apply direction_turns. destruct (angle_unique (atan2 Y X) (lon2 - lon1) P1 P2) as [k Ek].
    exists k. rewrite Ek. ring.
  - unfold direction. rewrite <- P. rewrite !Rmult_0_l. reflexivity.
Qed.

(** ** Distance facts *)
Lemma distance_metric : forall radius, 0 < radius ->
  (forall lon1 lat1 lon2 lat2,
     compute_one_distance lon1 lat1 lon2 lat2 radius = compute_one_distance lon2 lat2 lon1 lat1 radius) /\
  (forall lon1 lat1 lon2 lat2, 0 <= compute_one_distance lon1 lat1 lon2 lat2 radius <= PI * radius) /\
  (forall lon1 lat1 lon2 lat2, compute_one_distance lon1 lat1 lon2 lat2 radius = 0 <->
     direction lon1 lat1 = direction lon2 lat2) /\
  (forall lon1 lat1 lon2 lat2 lon3 lat3,
     compute_one_distance lon1 lat1 lon3 lat3 radius
     <= compute_one_distance lon1 lat1 lon2 lat2 radius + compute_one_distance lon2 lat2 lon3 lat3 radius).
Proof.
  intros radius HR. repeat split; intros; rewrite ?distance_angle in *.
  - rewrite dot_sym. reflexivity.
  - apply Rmult_le_pos; [lra|]. apply acos_bound.
  - rewrite Rmult_comm. apply Rmult_le_compat_r; [lra|]. apply acos_bound.
  - apply dot_one; try apply direction_unit. apply acos_zero; [apply dot_bound; apply direction_unit|].
    destruct (Rmult_integral _ _ H); [lra|assumption].
  - rewrite H, direction_unit, acos_1'. ring.
  - rewrite <- Rmult_plus_distr_l. apply Rmult_le_compat_l; [lra|].
    apply angle_triangle; apply direction_unit.
Qed.

Lemma distance_turns : forall lon1 lat1 lon2 lat2 radius lon1' lon2',
  same_angle lon1' lon1 -> same_angle lon2' lon2 ->
  compute_one_distance lon1' lat1 lon2' lat2 radius = compute_one_distance lon1 lat1 lon2 lat2 radius.
Proof.
  intros. rewrite !distance_angle, (direction_turns lon1 lat1 lon1' H), (direction_turns lon2 lat2 lon2' H0). reflexivity.
Qed.

(** Bearings of the compass points. *)
Lemma bearing_north_example : compute_bearing_elem 0 0 0 (PI / 4) = 0.
Proof.
  unfold compute_bearing_elem, compute_one_bearing. cbv zeta.
  rewrite wrap_sin, wrap_cos. rewrite Rminus_0_r, sin_0, cos_0.
  unfold atan2. assert (0 < sin (PI / 4)).
  { apply sin_gt_0; pose proof PI_RGT_0; lra. }
  destruct (Rlt_dec 0 _) as [P|P]; [|exfalso; apply P; lra].
  rewrite Rmult_0_l. unfold Rdiv at 1. rewrite Rmult_0_l, atan_0.
  assert (Z : forall x, x = 0 -> rust_rem x TAU = 0).
  { intros x ->. unfold rust_rem, trunc. unfold Rdiv. rewrite Rmult_0_l. destruct (Rle_dec 0 0); [|lra].
    change 0 with (INR 0). rewrite Int_part_INR. simpl. ring. }
  unfold positive_mod. rewrite (Z 0 eq_refl). unfold rust_rem, trunc.
  pose proof TAU_pos. replace ((0 + TAU) / TAU) with 1 by (field; lra).
  destruct (Rle_dec 0 1); [|lra]. change 1 with (INR 1). rewrite Int_part_INR. simpl. ring.
Qed.
