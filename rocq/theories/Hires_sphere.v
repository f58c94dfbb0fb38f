(** Where the points of the distribution lie on the sphere. *)
From Coq Require Import Reals Lra Lia ZArith.
From Verif Require Import Common Hires_model Hires_spec Hires_sizes Hires_grid Hires_rings Hires_rotation Dem_proofs.
Open Scope R_scope.

Lemma sin_ratio x y : 0 < x -> x < y -> y <= PI -> x * sin y <= y * sin x.
Proof.
  intros A B C. pose proof PI_RGT_0. destruct (Rle_dec y (PI / 2)) as [D|D]; [apply Rlt_le, sin_concave; assumption|].
  assert (SY : 0 <= sin y) by (apply sin_ge_0; lra). destruct (Rle_dec (PI / 2) x) as [E|E].
  - assert (sin y <= sin x) by (destruct (Req_dec y x) as [->|]; [lra|]; apply Rlt_le, sin_decreasing_1; lra). assert (x * sin y <= x * sin x) by (apply Rmult_le_compat_l; lra).
    assert (x * sin x <= y * sin x) by (apply Rmult_le_compat_r; lra). lra.
  - pose proof (sin_concave x (PI / 2) A ltac:(lra) ltac:(lra)) as G. rewrite sin_PI2 in G. assert (SX : 0 < sin x) by (apply sin_gt_0; lra).
    assert (x * sin y <= x * 1) by (apply Rmult_le_compat_l; [lra|apply SIN_bound]). assert (PI / 2 * sin x <= y * sin x) by (apply Rmult_le_compat_r; lra). lra.
Qed.
(** cos as a function of the square of the angle is convex. *)
Lemma cos_tangent u t : 0 < u -> u <= PI -> 0 <= t <= PI -> cos u - sin u / (2 * u) * (t ^ 2 - u ^ 2) <= cos t.
Proof.
  intros A B [C D]. set (c := sin u / (2 * u)). set (g := fun x => cos x + c * x ^ 2).
  assert (DG : forall x, derivable_pt_lim g x (- sin x + c * (2 * x))).
  { intros x. unfold g. apply (derivable_pt_lim_plus cos (fun x => c * x ^ 2)); [apply derivable_pt_lim_cos|]. apply (derivable_pt_lim_scal (fun x => x ^ 2)).
    replace (2 * x) with (INR 2 * x ^ pred 2) by (cbn; ring). apply derivable_pt_lim_pow. }
  assert (E : c * (2 * u) = sin u) by (unfold c; field; lra). assert (G : g u <= g t); [|unfold g in G; lra].
  assert (SG : forall x, 0 < x -> x <= PI -> (x < u -> - sin x + c * (2 * x) <= 0) /\ (u < x -> 0 <= - sin x + c * (2 * x))).
  { intros x X1 X2. replace (c * (2 * x)) with (x * sin u / u) by (rewrite <- E; field; lra). split; intros H.
    - pose proof (sin_ratio x u X1 H B). assert (x * sin u / u <= sin x); [|lra]. apply Rmult_le_reg_r with u; [exact A|]. replace (x * sin u / u * u) with (x * sin u) by (field; lra). lra.
    - pose proof (sin_ratio u x A H X2). assert (sin x <= x * sin u / u); [|lra]. apply Rmult_le_reg_r with u; [exact A|]. replace (x * sin u / u * u) with (x * sin u) by (field; lra). lra. }
  destruct (Rtotal_order t u) as [L|[->|L]]; [|lra|].
  - destruct (MVT_cor2 g (fun x => - sin x + c * (2 * x)) t u L (fun x _ => DG x)) as (x & X1 & X2). destruct (SG x ltac:(lra) ltac:(lra)) as [S _]. specialize (S ltac:(lra)).
    assert ((- sin x + c * (2 * x)) * (u - t) <= 0); [|lra]. rewrite <- (Rmult_0_l (u - t)). apply Rmult_le_compat_r; lra.
  - destruct (MVT_cor2 g (fun x => - sin x + c * (2 * x)) u t L (fun x _ => DG x)) as (x & X1 & X2). destruct (SG x ltac:(lra) ltac:(lra)) as [_ S]. specialize (S ltac:(lra)).
    assert (0 <= (- sin x + c * (2 * x)) * (t - u)); [|lra]. apply Rmult_le_pos; lra.
Qed.
Lemma cos_Rabs x : cos (Rabs x) = cos x.
Proof. unfold Rabs. destruct (Rcase_abs x); [apply cos_neg|reflexivity]. Qed.
Lemma sq_Rabs x : Rabs x ^ 2 = x ^ 2.
Proof. unfold Rabs. destruct (Rcase_abs x); ring. Qed.
Lemma cos_product a b u : 0 <= u -> u ^ 2 = a ^ 2 + b ^ 2 -> Rabs a + Rabs b <= PI -> cos u <= cos a * cos b.
Proof.
  intros U E L. destruct (Req_dec u 0) as [->|N].
  - assert (a = 0 /\ b = 0) as [-> ->]. { cbn in E. pose proof (Rle_0_sqr a). pose proof (Rle_0_sqr b). unfold Rsqr in *. split; apply Rsqr_0_uniq; unfold Rsqr; lra. } rewrite cos_0. lra.
  - assert (UP : u <= PI). { assert (u ^ 2 <= (Rabs a + Rabs b) ^ 2). { rewrite E, <- (sq_Rabs a), <- (sq_Rabs b). pose proof (Rmult_le_pos _ _ (Rabs_pos a) (Rabs_pos b)). lra. }
      apply Rle_trans with (Rabs a + Rabs b); [|exact L]. apply Rsqr_incr_0; [unfold Rsqr; lra|exact U|pose proof (Rabs_pos a); pose proof (Rabs_pos b); lra]. }
    assert (P1 : Rabs (a + b) <= PI) by (pose proof (Rabs_triang a b); lra). assert (P2 : Rabs (a - b) <= PI) by (pose proof (Rabs_triang a (- b)) as T; rewrite Rabs_Ropp in T; unfold Rminus; lra).
    pose proof (cos_tangent u (Rabs (a + b)) ltac:(lra) UP (conj (Rabs_pos _) P1)) as T1. pose proof (cos_tangent u (Rabs (a - b)) ltac:(lra) UP (conj (Rabs_pos _) P2)) as T2.
    rewrite cos_Rabs, sq_Rabs in T1, T2. rewrite cos_plus in T1. rewrite cos_minus in T2. set (c := sin u / (2 * u)) in *.
    assert (Z : c * ((a + b) ^ 2 - u ^ 2) + c * ((a - b) ^ 2 - u ^ 2) = 0) by (rewrite E; ring). lra.
Qed.
Lemma acos_le d x : 0 <= x <= PI -> cos x <= d <= 1 -> acos d <= x.
Proof.
  intros X D. destruct (Rle_dec (acos d) x) as [|N]; [assumption|]. exfalso. apply Rnot_le_lt in N. pose proof (acos_bound d) as B.
  pose proof (cos_decreasing_1 x (acos d) (proj1 X) (proj2 X) (proj1 B) (proj2 B) N) as C. rewrite cos_acos in C; [lra|]. pose proof (COS_bound x). lra.
Qed.
Lemma acos_gt d x : 0 <= x <= PI -> -1 <= d < cos x -> x < acos d.
Proof.
  intros X D. destruct (Rlt_dec x (acos d)) as [|N]; [assumption|]. exfalso. apply Rnot_lt_le in N. pose proof (acos_bound d) as B. pose proof (COS_bound x).
  assert (cos x <= cos (acos d)); [|rewrite cos_acos in H0; lra]. destruct (Req_dec x (acos d)) as [->|]; [lra|]. apply Rlt_le, cos_decreasing_1; lra.
Qed.
Lemma interior_unit p : vdot (interior_point p) (interior_point p) = 1.
Proof.
  destruct p as [lat lon]. unfold interior_point, vdot. pose proof (cs2 lat). pose proof (cs2 lon). transitivity (cos lat * cos lat * (cos lon * cos lon + sin lon * sin lon) + sin lat * sin lat); [ring|]. rewrite H0. lra.
Qed.
Lemma ring_unit g q : In q (ring_points g) -> vdot q q = 1 /\ vdot pole q = cos (fst g).
Proof.
  destruct g as [t n]. unfold ring_points. intros I. apply in_map_iff in I as (j & <- & _). unfold vdot, pole. set (f := 2 * PI * INR j / IZR n). cbn [fst]. split; [|ring].
  pose proof (cs2 t). pose proof (cs2 f). transitivity (sin t * sin t * (cos f * cos f + sin f * sin f) + cos t * cos t); [ring|]. rewrite H0. lra.
Qed.
Lemma lattice_inside radius pix loc k p : 0 < radius -> 0 < pix -> faces_across pix loc k -> 2 * loc < PI * radius -> lattice (pix / radius) k p -> radius * angle pole (interior_point p) < loc.
Proof.
  intros P X [K _] W (i & j & E1 & E2 & Q). destruct p as [lat lon]. cbn [fst snd] in *. set (u := sqrt (lat ^ 2 + lon ^ 2)). set (d := pix / radius) in *.
  assert (D : 0 < d) by (apply Rmult_lt_0_compat; [exact X|apply Rinv_0_lt_compat; exact P]).
  assert (Q' : lat ^ 2 + lon ^ 2 < (INR k * d) ^ 2). { rewrite E1, E2, INR_IZR_INZ. apply IZR_lt in Q. rewrite plus_IZR, !mult_IZR in Q. apply (Rmult_lt_compat_r (d * d)) in Q; [|apply Rmult_lt_0_compat; exact D]. cbn [pow]. lra. }
  assert (S0 : 0 <= lat ^ 2 + lon ^ 2) by (pose proof (Rle_0_sqr lat); pose proof (Rle_0_sqr lon); unfold Rsqr in *; cbn [pow]; lra).
  assert (U2 : u ^ 2 = lat ^ 2 + lon ^ 2) by (transitivity (u * u); [ring|exact (sqrt_sqrt _ S0)]). assert (U0 : 0 <= u) by apply sqrt_pos.
  assert (KD : 0 <= INR k * d) by (apply Rmult_le_pos; [apply pos_INR|lra]).
  assert (U1 : u < INR k * d) by (apply Rsqr_incrst_0; [unfold Rsqr; cbn [pow] in *; lra|exact U0|exact KD]).
  assert (LR : INR k * d <= loc / radius) by (apply reached; assumption).
  assert (LP : loc / radius < PI / 2) by (apply Rmult_lt_reg_r with radius; [exact P|]; replace (loc / radius * radius) with loc by (field; lra); lra).
  assert (AB : Rabs lat + Rabs lon <= PI).
  { pose proof (Rabs_pos lat). pose proof (Rabs_pos lon). pose proof PI_RGT_0.
    assert (forall x y, x ^ 2 + y ^ 2 = u ^ 2 -> Rabs x <= u). { intros x y H2. apply Rsqr_incr_0; [|apply Rabs_pos|exact U0]. pose proof (sq_Rabs x). pose proof (Rle_0_sqr y). unfold Rsqr in *. cbn [pow] in *. lra. }
    pose proof (H2 lat lon (eq_sym U2)). pose proof (H2 lon lat ltac:(lra)). lra. }
  pose proof (cos_product lat lon u U0 U2 AB) as C. assert (V : vdot pole (interior_point (lat, lon)) = cos lat * cos lon) by (unfold pole, interior_point, vdot; ring).
  unfold angle. rewrite V. assert (A : acos (cos lat * cos lon) <= u).
  { apply acos_le; [pose proof PI_RGT_0; lra|]. split; [exact C|]. pose proof (COS_bound lat). pose proof (COS_bound lon).
    assert (0 <= (1 - cos lat) * (1 + cos lon)) by (apply Rmult_le_pos; lra). assert (0 <= (1 + cos lat) * (1 - cos lon)) by (apply Rmult_le_pos; lra). lra. }
  apply Rle_lt_trans with (radius * u); [apply Rmult_le_compat_l; lra|]. replace loc with (radius * (loc / radius)) by (field; lra). apply Rmult_lt_compat_l; lra.
Qed.
(* ------------------------------ more fuel, same result ------------------------------ *)
Lemma interior_more radius pix loc : forall n m t r, interior n radius pix loc t = Some r -> (n <= m)%nat -> interior m radius pix loc t = Some r.
Proof.
  induction n as [|n IH]; intros m t r; [destruct m; cbn [interior]; destruct (Rle_dec t (loc / radius)); try discriminate; auto|]. intros I L. destruct m as [|m]; [lia|]. cbn [interior] in *. destruct (Rle_dec t (loc / radius)); [|exact I].
  destruct (interior_step radius pix t) as [p u]. destruct (interior n radius pix loc u) as [q|] eqn:Q; [|discriminate]. rewrite (IH m u q Q) by lia. exact I.
Qed.
Lemma exterior_more radius size : forall n m t r, exterior n radius size t = Some r -> (n <= m)%nat -> exterior m radius size t = Some r.
Proof.
  induction n as [|n IH]; intros m t r; [destruct m; cbn [exterior]; destruct (Rlt_dec t PI); try discriminate; auto|]. intros I L. destruct m as [|m]; [lia|]. cbn [exterior] in *. destruct (Rlt_dec t PI); [|exact I].
  destruct (exterior_step radius size t) as [p u]. destruct (exterior n radius size u) as [q|] eqn:Q; [|discriminate]. rewrite (IH m u q Q) by lia. exact I.
Qed.
Lemma generate_more h n m r : generate n h = Some r -> (n <= m)%nat -> generate m h = Some r.
Proof.
  unfold generate. intros G L. destruct (interior n _ _ _ 0) as [[p t]|] eqn:E; [|discriminate]. rewrite (interior_more _ _ _ _ _ _ _ E L). destruct (Rlt_dec t PI); [|exact G].
  destruct (slope h) as [[v h1]|]; [|exact G]. destruct (exponent h1) as [e h2]. destruct (exterior n _ _ t) as [g|] eqn:X; [|discriminate]. rewrite (exterior_more _ _ _ _ _ _ X L). exact G.
Qed.
Lemma generate_all' radius pix loc f h k size fuel pts rings : 0 < radius -> make radius pix loc f = Ok h -> 2 * loc < PI * radius -> faces_across pix loc k -> (forall r, has_size h r (size r)) ->
  generate fuel h = Some (Ok (pts, rings)) ->
    NoDup pts /\ (forall p, In p pts <-> lattice (pix / radius) k p) /\ successive radius size (INR (S k) * (pix / radius)) rings /\
    (forall t n, In (t, n) rings -> INR (S k) * (pix / radius) <= t /\ radius * t + size (radius * t) <= PI * radius /\ (1 <= n)%Z /\
      (n = 1%Z -> 2 * PI * radius * sin t <= 3 / 2 * size (radius * t)) /\ ((2 <= n)%Z -> 3 / 4 * size (radius * t) <= 2 * PI * radius * sin t / IZR n <= 5 / 4 * size (radius * t))) /\
    (rings <> [] -> forall r, INR (S k) * pix <= r <= PI * radius -> exists t n, In (t, n) rings /\ radius * t <= r < radius * t + size (radius * t) + size (radius * t + size (radius * t))).
Proof.
  intros P M D K Z G. destruct (generate_all radius pix loc f h k size P M D K Z) as [N A]. destruct (A (fuel + N)%nat ltac:(lia)) as (p & r & E & B).
  rewrite (generate_more h fuel (fuel + N) _ G ltac:(lia)) in E. injection E as <- <-. exact B.
Qed.

Lemma ring_nth t n j : (j < Z.to_nat n)%nat -> nth j (ring_points (t, n)) pole = (sin t * cos (2 * PI * INR j / IZR n), sin t * sin (2 * PI * INR j / IZR n), cos t).
Proof.
  intros J. unfold ring_points. set (g := fun j => _).
  rewrite nth_indep with (d' := g 0%nat) by (rewrite map_length, seq_length; exact J). rewrite map_nth, seq_nth by exact J. reflexivity.
Qed.
Lemma ring_even t n : (1 <= n)%Z -> 0 <= t <= PI ->
  List.length (ring_points (t, n)) = Z.to_nat n /\
  (forall q, In q (ring_points (t, n)) -> vdot q q = 1 /\ angle pole q = t) /\
  forall j, (j < Z.to_nat n)%nat ->
    nth ((j + 1) mod Z.to_nat n) (ring_points (t, n)) pole = spun (2 * PI / IZR n) (nth j (ring_points (t, n)) pole).
Proof.
  intros N T. assert (NN : 0 < IZR n) by (apply (IZR_lt 0); lia). split; [unfold ring_points; rewrite map_length, seq_length; reflexivity|]. split.
  - intros q I. destruct (ring_unit _ _ I) as [A B]. split; [exact A|]. unfold angle. rewrite B. cbn [fst]. apply acos_cos. exact T.
  - intros j J. assert (M : ((j + 1) mod Z.to_nat n < Z.to_nat n)%nat) by (apply Nat.mod_upper_bound; lia).
    rewrite (ring_nth t n j J), (ring_nth t n _ M). unfold spun.
    assert (E : forall a b, sin t * cos a * cos b - sin t * sin a * sin b = sin t * cos (a + b) /\ sin t * cos a * sin b + sin t * sin a * cos b = sin t * sin (a + b)).
    { intros a b. rewrite cos_plus, sin_plus. split; ring. }
    destruct (E (2 * PI * INR j / IZR n) (2 * PI / IZR n)) as [E1 E2]. rewrite E1, E2.
    destruct (Nat.eq_dec (j + 1) (Z.to_nat n)) as [L|L].
    + rewrite L, Nat.mod_same by lia. replace (2 * PI * INR j / IZR n + 2 * PI / IZR n) with (2 * PI).
      * rewrite Rmult_0_r. unfold Rdiv. rewrite Rmult_0_l, cos_0, sin_0, cos_2PI, sin_2PI. reflexivity.
      * assert (Q : IZR n = INR j + 1). { rewrite <- (Z2Nat.id n) by lia. rewrite <- L, <- INR_IZR_INZ, plus_INR. reflexivity. }
        rewrite Q. field. rewrite <- Q. lra.
    + rewrite Nat.mod_small by lia. replace (2 * PI * INR (j + 1) / IZR n) with (2 * PI * INR j / IZR n + 2 * PI / IZR n); [reflexivity|].
      rewrite plus_INR. simpl (INR 1). field. lra.
Qed.
