From Coq Require Import Reals ZArith List Lra Lia Psatz.
From Verif Require Import Common Hires_model Hires_rings Dem_proofs Arb_model Arb_spec.
Import ListNotations.
Open Scope R_scope.

Lemma PI_lo : 3.125 < PI.
Proof.
  destruct (Rle_dec PI 3.125) as [L|L]; [|lra]. exfalso.
  pose proof (pre_cos_bound 1.5625 1 ltac:(lra) ltac:(lra)) as [B _].
  pose proof PI2_3_2.
  assert (cos 1.5625 <= 0) by (apply cos_le_0; lra).
  unfold cos_approx, cos_term in B. cbn in B. lra.
Qed.
Lemma PI_hi : PI < 3.2.
Proof.
  destruct (Rle_dec 3.2 PI) as [L|L]; [|lra]. exfalso.
  pose proof (pre_cos_bound 1.6 0 ltac:(lra) ltac:(lra)) as [_ B].
  assert (0 <= cos 1.6) by (apply cos_ge_0; lra).
  unfold cos_approx, cos_term in B. cbn in B. lra.
Qed.

(** Euclidean distance. *)
Definition norm2 (u : vec) : R := let '(x, y, z) := u in x ^ 2 + y ^ 2 + z ^ 2.
Definition vsub (u v : vec) : vec := let '(a, b, c) := u in let '(x, y, z) := v in (a - x, b - y, c - z).
Lemma dist_norm u v : dist u v = sqrt (norm2 (vsub u v)).
Proof. destruct u as [[a b] c], v as [[x y] z]. reflexivity. Qed.
Lemma norm2_pos u : 0 <= norm2 u.
Proof. destruct u as [[x y] z]. unfold norm2. nra. Qed.
Lemma dist_pos u v : 0 <= dist u v.
Proof. rewrite dist_norm. apply sqrt_pos. Qed.
Lemma dist_sym u v : dist u v = dist v u.
Proof. rewrite !dist_norm. f_equal. destruct u as [[a b] c], v as [[x y] z]. unfold norm2, vsub. ring. Qed.
Lemma minkowski a b c x y z : sqrt ((a + x) ^ 2 + (b + y) ^ 2 + (c + z) ^ 2) <= sqrt (a ^ 2 + b ^ 2 + c ^ 2) + sqrt (x ^ 2 + y ^ 2 + z ^ 2).
Proof.
  set (p := a ^ 2 + b ^ 2 + c ^ 2). set (q := x ^ 2 + y ^ 2 + z ^ 2).
  assert (P : 0 <= p) by (unfold p; nra). assert (Q : 0 <= q) by (unfold q; nra).
  assert (CS : (a * x + b * y + c * z) <= sqrt p * sqrt q).
  { rewrite <- sqrt_mult by assumption. apply Rsqr_incr_0_var; [|apply sqrt_pos].
    unfold Rsqr. rewrite sqrt_sqrt by (apply Rmult_le_pos; assumption). unfold p, q.
    pose proof (Rle_0_sqr (a * y - b * x)). pose proof (Rle_0_sqr (a * z - c * x)). pose proof (Rle_0_sqr (b * z - c * y)).
    unfold Rsqr in *. nra. }
  apply Rsqr_incr_0_var.
  - unfold Rsqr. rewrite sqrt_sqrt by (pose proof (pow2_ge_0 (a + x)); pose proof (pow2_ge_0 (b + y)); pose proof (pow2_ge_0 (c + z)); lra).
    pose proof (sqrt_sqrt p P). pose proof (sqrt_sqrt q Q). unfold p, q in *. nra.
  - pose proof (sqrt_pos p). pose proof (sqrt_pos q). lra.
Qed.
Lemma dist_triangle u v w : dist u w <= dist u v + dist v w.
Proof.
  destruct u as [[a b] c], v as [[d e] f], w as [[x y] z]. unfold dist.
  replace (a - x) with ((a - d) + (d - x)) by ring. replace (b - y) with ((b - e) + (e - y)) by ring.
  replace (c - z) with ((c - f) + (f - z)) by ring. apply minkowski.
Qed.
Lemma dist_le u v r : 0 <= r -> norm2 (vsub u v) <= r ^ 2 -> dist u v <= r.
Proof.
  intros P H. rewrite dist_norm. replace r with (sqrt (r ^ 2)) by (apply sqrt_pow2; exact P). apply sqrt_le_1_alt. exact H.
Qed.
Lemma dist_ge u v r : 0 <= r -> r ^ 2 <= norm2 (vsub u v) -> r <= dist u v.
Proof.
  intros P H. rewrite dist_norm. replace r with (sqrt (r ^ 2)) by (apply sqrt_pow2; exact P). apply sqrt_le_1_alt. exact H.
Qed.

(** Chords of the sphere. *)
Lemma cos_half x : 1 - cos x = 2 * sin (x / 2) ^ 2.
Proof. replace x with (2 * (x / 2)) at 1 by field. rewrite cos_2a_sin. ring. Qed.
Lemma cs t : sin t ^ 2 = 1 - cos t ^ 2.
Proof. pose proof (sin2_cos2 t) as H. unfold Rsqr in H. nra. Qed.
Lemma chord_eq t f t' f' : norm2 (vsub (sph2cart (t, f)) (sph2cart (t', f'))) = 4 * sin ((t - t') / 2) ^ 2 + 4 * sin t * sin t' * sin ((f - f') / 2) ^ 2.
Proof.
  replace (4 * sin ((t - t') / 2) ^ 2) with (2 * (1 - cos (t - t'))) by (rewrite cos_half; ring).
  replace (4 * sin t * sin t' * sin ((f - f') / 2) ^ 2) with (2 * sin t * sin t' * (1 - cos (f - f'))) by (rewrite cos_half; ring).
  rewrite !cos_minus. unfold norm2, vsub, sph2cart.
  pose proof (cs t) as A. pose proof (cs t') as B. pose proof (cs f) as C. pose proof (cs f') as D.
  ring_simplify. rewrite A, B, C, D. ring.
Qed.
Lemma sin_abs_le x : sin x ^ 2 <= x ^ 2.
Proof.
  assert (P : forall y, 0 <= y -> sin y ^ 2 <= y ^ 2).
  { intros y Y. destruct (Req_dec y 0) as [->|N]. rewrite sin_0; lra.
    pose proof (sin_lt_x y ltac:(lra)) as U. destruct (Rle_dec y 1) as [L|L].
    - pose proof PI_lo. pose proof (sin_ge_0 y Y ltac:(lra)). nra.
    - pose proof (SIN_bound y). nra. }
  destruct (Rle_dec 0 x) as [L|L]; [apply P; exact L|].
  specialize (P (- x) ltac:(lra)). rewrite sin_neg in P. nra.
Qed.
(** Two steps: along the meridian, then along the parallel. *)
Lemma dist_meridian t t' f : dist (sph2cart (t, f)) (sph2cart (t', f)) <= Rabs (t - t').
Proof.
  apply dist_le; [apply Rabs_pos|]. rewrite chord_eq. replace ((f - f) / 2) with 0 by field. rewrite sin_0.
  pose proof (sin_abs_le ((t - t') / 2)). rewrite pow2_abs. nra.
Qed.
Lemma dist_parallel t f f' : 0 <= sin t -> dist (sph2cart (t, f)) (sph2cart (t, f')) <= sin t * Rabs (f - f').
Proof.
  intro S0. apply dist_le; [apply Rmult_le_pos; [exact S0|apply Rabs_pos]|]. rewrite chord_eq. replace ((t - t) / 2) with 0 by field. rewrite sin_0.
  rewrite Rpow_mult_distr, pow2_abs.
  pose proof (sin_abs_le ((f - f') / 2)). pose proof (Rmult_le_pos _ _ S0 S0). nra.
Qed.
Lemma dist_step t f t' f' : 0 <= sin t' -> dist (sph2cart (t, f)) (sph2cart (t', f')) <= Rabs (t - t') + sin t' * Rabs (f - f').
Proof.
  intro S0. eapply Rle_trans; [apply (dist_triangle _ (sph2cart (t', f)))|].
  apply Rplus_le_compat; [apply dist_meridian|apply dist_parallel; exact S0].
Qed.
(** Jordan's inequality. *)
Lemma jordan x : 0 <= x <= PI / 2 -> 2 / PI * x <= sin x.
Proof.
  intros [A B]. pose proof PI_lo.
  destruct (Req_dec x 0) as [->|N]. rewrite sin_0; lra.
  destruct (Req_dec x (PI / 2)) as [->|M]. rewrite sin_PI2. right. field. lra.
  pose proof (sin_concave x (PI / 2) ltac:(lra) ltac:(lra) ltac:(lra)) as C. rewrite sin_PI2 in C.
  apply Rmult_le_reg_l with (PI / 2); [lra|]. replace (PI / 2 * (2 / PI * x)) with x by (field; lra). lra.
Qed.
Lemma chord_rings t f t' f' r : 0 <= sin t -> 0 <= sin t' -> 0 <= r -> r <= Rabs (t - t') <= PI ->
  2 / PI * r <= dist (sph2cart (t, f)) (sph2cart (t', f')).
Proof.
  intros S0 S1 R0 [L U]. pose proof PI_lo. apply dist_ge.
  - apply Rmult_le_pos; [|exact R0]. apply Rlt_le, Rdiv_lt_0_compat; lra.
  - rewrite chord_eq. pose proof (jordan (Rabs (t - t') / 2) ltac:(lra)) as J.
    assert (E : sin ((t - t') / 2) ^ 2 = sin (Rabs (t - t') / 2) ^ 2).
    { unfold Rabs. destruct (Rcase_abs (t - t')); [|reflexivity]. replace (- (t - t') / 2) with (- ((t - t') / 2)) by field. rewrite sin_neg. ring. }
    rewrite E. set (y := sin (Rabs (t - t') / 2)) in *.
    assert (P : 0 <= 2 / PI) by (apply Rlt_le, Rdiv_lt_0_compat; lra).
    assert (J2 : 2 / PI * (r / 2) <= y). { eapply Rle_trans; [|exact J]. apply Rmult_le_compat_l; lra. }
    pose proof (Rmult_le_pos _ _ P R0). pose proof (Rmult_le_pos _ _ (Rmult_le_pos _ _ S0 S1) (pow2_ge_0 (sin ((f - f') / 2)))).
    nra.
Qed.
Lemma chord_ring t f f' r : 0 <= sin t -> 0 <= r -> r <= Rabs (f - f') <= 2 * PI - r ->
  2 / PI * r * sin t <= dist (sph2cart (t, f)) (sph2cart (t, f')).
Proof.
  intros S0 R0 [L U]. pose proof PI_lo.
  assert (P : 0 <= 2 / PI) by (apply Rlt_le, Rdiv_lt_0_compat; lra).
  apply dist_ge. { apply Rmult_le_pos; [apply Rmult_le_pos; assumption|assumption]. }
  rewrite chord_eq. replace ((t - t) / 2) with 0 by field. rewrite sin_0.
  assert (E : sin ((f - f') / 2) ^ 2 = sin (Rabs (f - f') / 2) ^ 2).
  { unfold Rabs. destruct (Rcase_abs (f - f')); [|reflexivity]. replace (- (f - f') / 2) with (- ((f - f') / 2)) by field. rewrite sin_neg. ring. }
  rewrite E. clear E. set (y := Rabs (f - f')) in *.
  assert (J : 2 / PI * (r / 2) <= sin (y / 2)).
  { destruct (Rle_dec y PI) as [Y|Y].
    - eapply Rle_trans; [|apply jordan; lra]. apply Rmult_le_compat_l; lra.
    - replace (sin (y / 2)) with (sin (PI - y / 2)) by (rewrite sin_minus, sin_PI, cos_PI; ring). eapply Rle_trans; [|apply jordan; lra]. apply Rmult_le_compat_l; lra. }
  assert (U0 : 0 <= 2 / PI * (r / 2)) by (apply Rmult_le_pos; lra).
  replace (2 / PI * r * sin t) with (2 * (2 / PI * (r / 2)) * sin t) by (field; lra).
  set (u := 2 / PI * (r / 2)) in *. assert (V : u ^ 2 <= sin (y / 2) ^ 2) by (apply pow_incr; split; assumption).
  pose proof (Rmult_le_pos _ _ S0 S0) as SS. pose proof (Rmult_le_compat_l _ _ _ SS V). nra.
Qed.
