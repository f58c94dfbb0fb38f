(** The degradation function. *)
From Coq Require Import Reals Lra Lia.
From Verif Require Import Common Degrade_model Degrade_spec.
Open Scope R_scope.
Lemma Rpower_pos a b : 0 < Rpower a b.
Proof. apply exp_pos. Qed.
Lemma Rpower_two a : 0 < a -> Rpower a 2 = a ^ 2.
Proof. intros H. replace 2 with (INR 2) by (cbn; lra). apply Rpower_pow, H. Qed.
Lemma Rpower_inv_base b c : 0 < b -> Rpower (/ b) c = / Rpower b c.
Proof.
  intros B. unfold Rpower. rewrite ln_Rinv by exact B. rewrite <- exp_Ropp. f_equal. ring.
Qed.
Lemma Rpower_div a b c : 0 < a -> 0 < b -> Rpower (a / b) c = Rpower a c / Rpower b c.
Proof.
  intros A B. unfold Rdiv. rewrite <- (Rpower_inv_base b c B). symmetry. apply Rpower_mult_distr; [exact A|apply Rinv_0_lt_compat, B].
Qed.
Lemma Rpower_incr a b c : 0 < a -> a < b -> 0 < c -> Rpower a c < Rpower b c.
Proof. intros A L C. unfold Rpower. apply exp_increasing, Rmult_lt_compat_l; [exact C|]. apply ln_increasing; assumption. Qed.
Lemma Rpower_decr a b c : 0 < a -> a < b -> c < 0 -> Rpower b c < Rpower a c.
Proof. intros A L C. unfold Rpower. apply exp_increasing. pose proof (ln_increasing a b A L). apply Rmult_lt_gt_compat_neg_l with (r := c) in H; lra. Qed.

Lemma lt_div a b c : 0 < c -> a * c < b -> a < b / c.
Proof. intros C L. apply Rmult_lt_reg_r with c; [exact C|]. unfold Rdiv. rewrite Rmult_assoc, Rinv_l by lra. lra. Qed.
Lemma div_lt a b c : 0 < c -> b < a * c -> b / c < a.
Proof. intros C L. apply Rmult_lt_reg_r with c; [exact C|]. unfold Rdiv. rewrite Rmult_assoc, Rinv_l by lra. lra. Qed.

(** A normal form. *)
Definition scale (fe : R) : R := 0.30 * Rpower (PI * fe ^ 2 * 0.0084 * (25 / 6)) (- (5 / 3)).
Lemma scale_pos fe : 0 < scale fe.
Proof. unfold scale. apply Rmult_lt_0_compat; [lra|apply Rpower_pos]. Qed.
Lemma kdmare_minton r fe psi : 0 < r -> kdmare r fe psi = minton r fe.
Proof.
  intros H. unfold kdmare, minton. replace (2 * ((3.2 - 2) / (3.2 - 2))) with 2 by lra. rewrite Rpower_two by exact H.
  replace (2 * 2 / ((3.2 - 2) * (2 + 2 - 3.2))) with (25 / 6) by lra. replace (- (2) / (3.2 - 2)) with (- (5 / 3)) by lra. reflexivity.
Qed.
Lemma deg_form d fe : 0 < d -> degradation_function d fe = scale fe * (d / 2) ^ 2 / 1.96 * Rpower (0.5 * (1 + d / 1000)) (- 0.8).
Proof.
  intros H. unfold degradation_function, kd, smooth_broken. rewrite kdmare_minton by lra. unfold minton. fold (scale fe).
  assert (X : 0 < d / 2 / 0.5e3) by (apply Rmult_lt_0_compat; lra).
  rewrite (Rpower_two _ X). replace (1 / 1) with 1 by lra. rewrite (Rpower_1 _ X). replace (d / 2 / 0.5e3) with (d / 1000) by lra.
  replace ((1.2 - 2) / 1) with (- 0.8) by lra. replace ((1 + (2 - 1.2) / 2) ^ 2) with 1.96 by lra. replace 0.5e3 with 500 by lra. replace 1.96 with (49 / 25) by lra. field.
Qed.
Lemma deg_pos d fe : 0 < d -> 0 < degradation_function d fe.
Proof.
  intros H. rewrite deg_form by exact H. apply Rmult_lt_0_compat; [|apply Rpower_pos]. apply Rmult_lt_0_compat; [|lra]. apply Rmult_lt_0_compat; [apply scale_pos|]. apply pow_lt. lra.
Qed.
Lemma deg_ratio d1 d2 fe : 0 < d1 -> 0 < d2 -> degradation_function d2 fe / degradation_function d1 fe = (d2 / d1) ^ 2 * Rpower ((1 + d2 / 1000) / (1 + d1 / 1000)) (- 0.8).
Proof.
  intros H1 H2. rewrite !deg_form by assumption.
  assert (P1 : 0 < 1 + d1 / 1000) by lra. assert (P2 : 0 < 1 + d2 / 1000) by lra.
  rewrite <- !(Rpower_mult_distr 0.5) by lra. rewrite Rpower_div by assumption.
  pose proof (scale_pos fe). pose proof (Rpower_pos 0.5 (- 0.8)). pose proof (Rpower_pos (1 + d1 / 1000) (- 0.8)).
  generalize dependent (Rpower 0.5 (- 0.8)). intros p Hp. generalize dependent (Rpower (1 + d1 / 1000) (- 0.8)). intros q Hq. generalize (Rpower (1 + d2 / 1000) (- 0.8)). intros w.
  replace 1.96 with (49 / 25) by lra. field. lra.
Qed.
Lemma deg_slope d1 d2 fe : 0 < d1 -> d1 < d2 ->
  Rpower (d2 / d1) 1.2 < degradation_function d2 fe / degradation_function d1 fe < Rpower (d2 / d1) 2.
Proof.
  intros H L. rewrite deg_ratio by lra.
  assert (Q1 : 1 < d2 / d1). { apply lt_div; lra. }
  set (w := (1 + d2 / 1000) / (1 + d1 / 1000)).
  assert (W1 : 1 < w). { unfold w. apply lt_div; lra. }
  assert (W2 : w < d2 / d1).
  { unfold w. apply Rmult_lt_reg_r with ((1 + d1 / 1000) * d1); [apply Rmult_lt_0_compat; lra|].
    replace ((1 + d2 / 1000) / (1 + d1 / 1000) * ((1 + d1 / 1000) * d1)) with ((1 + d2 / 1000) * d1) by (field; lra).
    replace (d2 / d1 * ((1 + d1 / 1000) * d1)) with ((1 + d1 / 1000) * d2) by (field; lra). lra. }
  rewrite <- Rpower_two by lra. split.
  - replace 1.2 with (2 + - 0.8) by lra. rewrite Rpower_plus. apply Rmult_lt_compat_l; [apply Rpower_pos|]. apply Rpower_decr; lra.
  - rewrite <- (Rmult_1_r (Rpower (d2 / d1) 2)) at 2. apply Rmult_lt_compat_l; [apply Rpower_pos|].
    replace 1 with (Rpower 1 (- 0.8)) by (unfold Rpower; rewrite ln_1, Rmult_0_r; apply exp_0). apply Rpower_decr; lra.
Qed.
Lemma deg_fe d fe c : 0 < d -> 0 < fe -> 0 < c -> degradation_function d (c * fe) = Rpower c (- (10 / 3)) * degradation_function d fe.
Proof.
  intros D F C. rewrite !deg_form by exact D.
  assert (X : scale (c * fe) = Rpower c (- (10 / 3)) * scale fe).
  { unfold scale. replace (PI * (c * fe) ^ 2 * 0.0084 * (25 / 6)) with (c ^ 2 * (PI * fe ^ 2 * 0.0084 * (25 / 6))) by ring.
    assert (0 < PI * fe ^ 2 * 0.0084 * (25 / 6)). { pose proof PI_RGT_0. apply Rmult_lt_0_compat; [|lra]. apply Rmult_lt_0_compat; [|lra]. apply Rmult_lt_0_compat; [lra|apply pow_lt, F]. }
    rewrite <- Rpower_mult_distr by (try apply pow_lt; assumption). rewrite <- Rpower_two by exact C. rewrite Rpower_mult. replace (2 * - (5 / 3)) with (- (10 / 3)) by lra. ring. }
  rewrite X. unfold Rdiv. ring.
Qed.
Lemma deg_minton d fe : 0 < d -> degradation_function d fe / minton (d / 2) fe = Rpower (2 / (1 + d / 1000)) 0.8 / 1.96.
Proof.
  intros D. rewrite deg_form by exact D. unfold minton. fold (scale fe). pose proof (scale_pos fe).
  assert (X : Rpower (0.5 * (1 + d / 1000)) (- 0.8) = Rpower (2 / (1 + d / 1000)) 0.8).
  { replace (- 0.8) with (- (8 / 10)) by lra. rewrite Rpower_Ropp, <- Rpower_inv_base by lra. replace 0.8 with (8 / 10) by lra. f_equal. replace 0.5 with (1 / 2) by lra. field. lra. }
  rewrite X. replace 1.96 with (49 / 25) by lra. field. lra.
Qed.
Lemma fifth a : 0 < a -> Rpower a 0.8 ^ 5 = a ^ 4.
Proof.
  intros H. rewrite <- (Rpower_pow 5) by apply Rpower_pos. rewrite Rpower_mult. replace (0.8 * INR 5) with (INR 4) by (cbn; lra). apply Rpower_pow, H.
Qed.
Lemma pow5_lt a b : 0 < b -> 0 < a -> a ^ 5 < b ^ 5 -> a < b.
Proof.
  intros B A L. destruct (Rlt_le_dec a b) as [H|H]; [exact H|]. exfalso. pose proof (pow_incr b a 5 ltac:(lra)). lra.
Qed.
Lemma deg_below d fe : 0 < d -> degradation_function d fe < 0.89 * minton (d / 2) fe.
Proof.
  intros D. assert (M : 0 < minton (d / 2) fe) by (unfold minton; fold (scale fe); apply Rmult_lt_0_compat; [apply scale_pos|apply pow_lt; lra]).
  apply Rmult_lt_reg_r with (/ minton (d / 2) fe); [apply Rinv_0_lt_compat, M|]. rewrite (Rmult_assoc 0.89), Rinv_r by lra. change (degradation_function d fe * / minton (d / 2) fe) with (degradation_function d fe / minton (d / 2) fe).
  rewrite deg_minton by exact D. assert (X : Rpower (2 / (1 + d / 1000)) 0.8 < 1.7444); [|lra].
  assert (Y : 0 < 2 / (1 + d / 1000) < 2). { split; [apply Rmult_lt_0_compat; [lra|apply Rinv_0_lt_compat; lra]|]. apply div_lt; lra. }
  apply pow5_lt; [lra|apply Rpower_pos|]. rewrite fifth by lra. pose proof (pow_incr (2 / (1 + d / 1000)) 2 4 ltac:(lra)). lra.
Qed.
Lemma deg_close d fe : 0 < d -> d <= 1 -> 0.88 * minton (d / 2) fe < degradation_function d fe.
Proof.
  intros D L. assert (M : 0 < minton (d / 2) fe) by (unfold minton; fold (scale fe); apply Rmult_lt_0_compat; [apply scale_pos|apply pow_lt; lra]).
  apply Rmult_lt_reg_r with (/ minton (d / 2) fe); [apply Rinv_0_lt_compat, M|]. rewrite (Rmult_assoc 0.88), Rinv_r by lra. change (degradation_function d fe * / minton (d / 2) fe) with (degradation_function d fe / minton (d / 2) fe).
  rewrite deg_minton by exact D. assert (X : 1.7248 < Rpower (2 / (1 + d / 1000)) 0.8); [|lra].
  assert (Y : 1.99 < 2 / (1 + d / 1000)). { apply lt_div; lra. }
  apply pow5_lt; [apply Rpower_pos|lra|]. rewrite fifth by lra. pose proof (pow_incr 1.99 (2 / (1 + d / 1000)) 4 ltac:(lra)). lra.
Qed.
