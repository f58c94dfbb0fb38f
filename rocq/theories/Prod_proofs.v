(** Proofs for C14-C16 and C55-C57. *)
From Coq Require Import Reals QArith Qreals List Lra Lia.
From Verif Require Import Common Prod_model Prod_poly Prod_spec.
Import ListNotations.
Open Scope R_scope.

(* ---------- logarithms ---------- *)
Lemma ln10_pos : 0 < ln 10.
Proof. rewrite <- ln_1. apply ln_increasing; lra. Qed.

Lemma log10_lt a b : 0 < a -> a < b -> log10 a < log10 b.
Proof.
  intros. unfold log10. apply Rmult_lt_compat_r; [apply Rinv_0_lt_compat, ln10_pos|].
  apply ln_increasing; assumption.
Qed.
Lemma log10_le a b : 0 < a -> a <= b -> log10 a <= log10 b.
Proof. intros H [L|<-]; [left; apply log10_lt; assumption|lra]. Qed.
Lemma log10_lt_inv a b : 0 < a -> 0 < b -> log10 a < log10 b -> a < b.
Proof.
  intros A B L. destruct (Rlt_dec a b); [assumption|].
  assert (X := log10_le b a B ltac:(lra)). lra.
Qed.
Lemma pow10_log10 x : 0 < x -> pow 10 (log10 x) = x.
Proof.
  intros H. unfold pow, Rpower, log10. pose proof ln10_pos.
  replace (ln x / ln 10 * ln 10) with (ln x) by (field; lra). apply exp_ln. exact H.
Qed.
Lemma log10_pow10 x : log10 (pow 10 x) = x.
Proof. unfold pow, Rpower, log10. rewrite ln_exp. pose proof ln10_pos. field. lra. Qed.
Lemma pow10_pos x : 0 < pow 10 x.
Proof. apply exp_pos. Qed.
Lemma pow10_lt x y : x < y -> pow 10 x < pow 10 y.
Proof.
  intros H. unfold pow, Rpower. apply exp_increasing, Rmult_lt_compat_r; [apply ln10_pos|exact H].
Qed.
Lemma log10_pow_nat n : log10 (10 ^ n) = INR n.
Proof.
  rewrite <- Rpower_pow by lra. apply (log10_pow10 (INR n)).
Qed.
Lemma log10_1 : log10 1 = 0.
Proof. unfold log10. rewrite ln_1. unfold Rdiv. ring. Qed.
Lemma log10_inv x : 0 < x -> log10 (/ x) = - log10 x.
Proof. intros. unfold log10. rewrite ln_Rinv by assumption. unfold Rdiv. ring. Qed.

(* ---------- the tables, certified ---------- *)
Definition qlo (v : version) : Z := match v with Projectile => -4 | _ => -2 end%Z.
Definition kappa (v : version) : Z := match v with Projectile => 11 | _ => 10 end%Z.
Definition steps (v : version) : nat := match v with Projectile => 35 | _ => 26 end.
Definition denom (v : version) : Z := 1000000000000%Z.
Definition marginZ (v : version) : Z := match v with Projectile => 2 | _ => 0 end%Z.
Definition margin (v : version) : R := match v with Projectile => 2 | _ => 0 end.
Definition top (v : version) : R := match v with Projectile => 2.31 | _ => 3 end.

Lemma slope_check v : slope_lt (denom v) (kappa v) (marginZ v) (qlo v) (steps v) (sfd_table v) = true.
Proof. destruct v; vm_cast_no_check (eq_refl true). Qed.
Lemma p_check v : below (denom v) (kappa v) (marginZ v) (qlo v) (steps v) (tl (sfd_table v)) = true.
Proof. destruct v; vm_cast_no_check (eq_refl true). Qed.

Lemma check_range v x : IZR (qlo v) <= x <= top v ->
  IZR (qlo v) <= x < IZR (qlo v) + 2 * INR (steps v) / IZR (kappa v).
Proof.
  intros H. split; [lra|]. rewrite INR_IZR_INZ.
  destruct v; unfold qlo, top, steps, kappa in *; cbn [Z.of_nat Pos.of_succ_nat Pos.succ] in *; lra.
Qed.
Lemma margin_Z v : IZR (marginZ v) = margin v.
Proof. destruct v; reflexivity. Qed.

Lemma slope_bound v x : IZR (qlo v) <= x <= top v -> peval (pderiv (sfd_table v)) x < margin v.
Proof.
  intros H. rewrite <- margin_Z.
  apply (slope_lt_ok (denom v) (kappa v) (marginZ v) (qlo v) (steps v)).
  - destruct v; reflexivity.
  - destruct v; reflexivity.
  - destruct v; simpl; lia.
  - apply slope_check.
  - apply check_range, H.
Qed.
Lemma p_bound v x : IZR (qlo v) <= x <= top v -> peval (tl (sfd_table v)) x < margin v.
Proof.
  intros H. rewrite <- margin_Z.
  apply (below_ok (denom v) (kappa v) (marginZ v) (qlo v) (steps v)).
  - destruct v; reflexivity.
  - destruct v; reflexivity.
  - apply p_check.
  - apply check_range, H.
Qed.

(* ---------- the range of the tables in log10 km ---------- *)
Definition xlo (v : version) : R := log10 (sfd_lo v / 1000).
Definition xhi (v : version) : R := log10 (sfd_hi v / 1000).

Lemma lo_pos v : 0 < sfd_lo v / 1000.
Proof. destruct v; simpl; lra. Qed.
Lemma lo_hi v : sfd_lo v / 1000 < sfd_hi v / 1000.
Proof. destruct v; simpl; lra. Qed.
Lemma hi_pos v : 0 < sfd_hi v / 1000.
Proof. destruct v; simpl; lra. Qed.

Lemma log10_200 : log10 200 <= 2.31.
Proof.
  assert (E : 13 * log10 200 <= 30); [|lra].
  replace (13 * log10 200) with (log10 (200 ^ 13)).
  - replace 30 with (INR 30) by (rewrite INR_IZR_INZ; reflexivity).
    rewrite <- log10_pow_nat. apply log10_le.
    + apply pow_lt. lra.
    + rewrite !pow_IZR. apply IZR_le. vm_compute. discriminate.
  - unfold log10. rewrite ln_pow by lra.
    replace (INR 13) with 13 by (rewrite INR_IZR_INZ; reflexivity). unfold Rdiv. ring.
Qed.

Lemma range_ok v : IZR (qlo v) <= xlo v /\ xlo v < xhi v /\ xhi v <= top v.
Proof.
  split; [|split].
  - unfold xlo. destruct v; unfold qlo, sfd_lo.
    + replace (10 / 1000) with (/ 10 ^ 2) by lra. rewrite log10_inv, log10_pow_nat by (apply pow_lt; lra). simpl. lra.
    + apply Rle_trans with (log10 (/ 10 ^ 2)); [|apply log10_le; lra].
      rewrite log10_inv, log10_pow_nat by (apply pow_lt; lra). simpl. lra.
    + replace (1 / 10 / 1000) with (/ 10 ^ 4) by lra. rewrite log10_inv, log10_pow_nat by (apply pow_lt; lra). simpl. lra.
  - apply log10_lt; [apply lo_pos|apply lo_hi].
  - unfold xhi. destruct v; unfold top, sfd_hi.
    + replace (1000000 / 1000) with (10 ^ 3) by lra. rewrite log10_pow_nat. simpl. lra.
    + apply Rle_trans with (log10 (10 ^ 3)); [apply log10_le; lra|]. rewrite log10_pow_nat. simpl. lra.
    + replace (200000 / 1000) with 200 by lra. apply log10_200.
Qed.

(* ---------- the size distribution in logarithms ---------- *)
Definition P (v : version) (x : R) : R := peval (sfd_table v) x.
Definition plo (v : version) : R := peval (tl (sfd_table v)) (xlo v).
Definition phi (v : version) : R := peval (tl (sfd_table v)) (xhi v) - 5.
Definition L (v : version) (x : R) : R :=
  if Rlt_dec x (xlo v) then P v (xlo v) + plo v * (x - xlo v)
  else if Rlt_dec (xhi v) x then P v (xhi v) + phi v * (x - xhi v)
  else P v x.

Lemma pow_branch v d D p : 0 < d -> 0 < D ->
  CSFD_in v d * pow (D / d) p = pow 10 (P v (log10 d) + p * (log10 D - log10 d)).
Proof.
  intros Hd HD. unfold CSFD_in, pow, Rpower. rewrite <- exp_plus. f_equal. unfold P.
  unfold Rdiv at 1. rewrite ln_mult, ln_Rinv by (auto using Rinv_0_lt_compat).
  unfold log10. pose proof ln10_pos. field. lra.
Qed.

Lemma CSFD_log v D : 0 < D -> CSFD v D = pow 10 (L v (log10 D)).
Proof.
  intros H. unfold CSFD, L. pose proof (lo_pos v). pose proof (hi_pos v).
  destruct (Rlt_dec D (sfd_lo v / 1000)) as [A|A].
  - assert (X := log10_lt D _ H A). fold (xlo v) in X.
    destruct (Rlt_dec (log10 D) (xlo v)); [|lra]. apply pow_branch; auto.
  - assert (X := log10_le (sfd_lo v / 1000) D ltac:(auto) ltac:(lra)). fold (xlo v) in X.
    destruct (Rlt_dec (log10 D) (xlo v)); [lra|].
    destruct (Rlt_dec (sfd_hi v / 1000) D) as [B|B].
    + assert (Y := log10_lt _ D ltac:(eassumption) B). fold (xhi v) in Y.
      destruct (Rlt_dec (xhi v) (log10 D)); [|lra]. apply pow_branch; auto.
    + assert (Y := log10_le D (sfd_hi v / 1000) H ltac:(lra)). fold (xhi v) in Y.
      destruct (Rlt_dec (xhi v) (log10 D)); [lra|]. reflexivity.
Qed.

Lemma L_lo v x : x <= xlo v -> L v x = P v (xlo v) + plo v * (x - xlo v).
Proof.
  intros H. unfold L. destruct (Rlt_dec x (xlo v)); [reflexivity|].
  destruct (range_ok v) as (_ & R1 & _).
  destruct (Rlt_dec (xhi v) x); [lra|]. assert (x = xlo v) by lra. subst. ring.
Qed.
Lemma L_mid v x : xlo v <= x <= xhi v -> L v x = P v x.
Proof.
  intros H. unfold L. destruct (Rlt_dec x (xlo v)); [lra|].
  destruct (Rlt_dec (xhi v) x); [lra|]. reflexivity.
Qed.
Lemma L_hi v x : xhi v <= x -> L v x = P v (xhi v) + phi v * (x - xhi v).
Proof.
  intros H. destruct (range_ok v) as (_ & R1 & _).
  unfold L. destruct (Rlt_dec x (xlo v)); [lra|].
  destruct (Rlt_dec (xhi v) x); [reflexivity|]. assert (x = xhi v) by lra. subst. ring.
Qed.

Lemma plo_lt v : plo v < margin v.
Proof. destruct (range_ok v) as (A & B & C). apply p_bound. lra. Qed.
Lemma phi_lt v : phi v < margin v.
Proof.
  destruct (range_ok v) as (A & B & C). unfold phi.
  assert (X := p_bound v (xhi v) ltac:(lra)). lra.
Qed.

Lemma steep_lo v x y : x < y -> y <= xlo v -> L v y - L v x < margin v * (y - x).
Proof. intros A B. rewrite !L_lo by lra. pose proof (plo_lt v). nra. Qed.
Lemma steep_hi v x y : x < y -> xhi v <= x -> L v y - L v x < margin v * (y - x).
Proof. intros A B. rewrite !L_hi by lra. pose proof (phi_lt v). nra. Qed.
Lemma steep_mid v x y : x < y -> xlo v <= x -> y <= xhi v -> L v y - L v x < margin v * (y - x).
Proof.
  intros A B C. rewrite !L_mid by lra. unfold P. destruct (range_ok v) as (D & E & F).
  apply pdecreasing; [exact A|]. intros z Hz. apply slope_bound. lra.
Qed.
Lemma steep_midhi v x y : x < y -> xlo v <= x -> L v y - L v x < margin v * (y - x).
Proof.
  intros A B. destruct (Rle_dec y (xhi v)); [apply steep_mid; lra|].
  destruct (Rle_dec (xhi v) x); [apply steep_hi; lra|].
  assert (X := steep_mid v x (xhi v) ltac:(lra) B ltac:(lra)).
  assert (Y := steep_hi v (xhi v) y ltac:(lra) ltac:(lra)). lra.
Qed.
Lemma steep v x y : x < y -> L v y - L v x < margin v * (y - x).
Proof.
  intros A. destruct (Rle_dec y (xlo v)); [apply steep_lo; lra|].
  destruct (Rle_dec (xlo v) x); [apply steep_midhi; lra|].
  assert (X := steep_lo v x (xlo v) ltac:(lra) ltac:(lra)).
  assert (Y := steep_midhi v (xlo v) y ltac:(lra) ltac:(lra)). lra.
Qed.

Lemma CSFD_pos v D : 0 < D -> 0 < CSFD v D.
Proof. intros H. rewrite CSFD_log by exact H. apply pow10_pos. Qed.

Lemma CSFD_decreasing v : v <> Projectile -> decreasing_on_pos (CSFD v).
Proof.
  intros Hv a b H. rewrite !CSFD_log by lra. apply pow10_lt.
  assert (X := steep v _ _ (log10_lt a b ltac:(lra) ltac:(lra))).
  destruct v; [simpl in X; lra|simpl in X; lra|congruence].
Qed.

(** For projectiles, R / D^2 decreases. *)
Lemma CSFD_over_sq a b : 0 < a < b -> CSFD Projectile b / b ^ 2 < CSFD Projectile a / a ^ 2.
Proof.
  intros H.
  assert (E : forall x, 0 < x -> CSFD Projectile x / x ^ 2 = pow 10 (L Projectile (log10 x) - 2 * log10 x)).
  { intros x Hx. rewrite CSFD_log by exact Hx.
    replace (L Projectile (log10 x) - 2 * log10 x) with (L Projectile (log10 x) + - (2 * log10 x)) by ring.
    unfold pow at 2. rewrite Rpower_plus, Rpower_Ropp. unfold Rdiv. f_equal. f_equal.
    replace (2 * log10 x) with (log10 x + log10 x) by ring. rewrite Rpower_plus.
    fold (pow 10 (log10 x)). rewrite pow10_log10 by exact Hx. ring. }
  rewrite !E by lra. apply pow10_lt.
  assert (X := steep Projectile _ _ (log10_lt a b ltac:(lra) ltac:(lra))). simpl margin in X. lra.
Qed.

(* ---------- the summation over bins ---------- *)
Lemma sqrt2_bounds : 1 < sqrt 2 < 2.
Proof.
  split.
  - rewrite <- sqrt_1 at 1. apply sqrt_lt_1; lra.
  - rewrite <- (sqrt_pow2 2) at 2 by lra. apply sqrt_lt_1; lra.
Qed.

Lemma bin_term_eq f D : 0 < D -> bin_term f D =
  let m := (1 + sqrt 2) / 2 in f (D * m) / (D * m) ^ 2 * ((sqrt 2 - 1) / m).
Proof.
  intros H. pose proof sqrt2_bounds. unfold bin_term. cbv zeta.
  replace ((D + D * sqrt 2) / 2) with (D * ((1 + sqrt 2) / 2)) by field.
  field. split; nra.
Qed.

Lemma term_decreasing a b : 0 < a < b ->
  bin_term (CSFD Projectile) b < bin_term (CSFD Projectile) a.
Proof.
  intros H. pose proof sqrt2_bounds. rewrite !bin_term_eq by lra. cbv zeta.
  set (m := (1 + sqrt 2) / 2). assert (Hm : 0 < m) by (unfold m; lra).
  apply Rmult_lt_compat_r; [apply Rdiv_lt_0_compat; lra|].
  apply CSFD_over_sq. nra.
Qed.
Lemma term_pos a : 0 < a -> 0 < bin_term (CSFD Projectile) a.
Proof.
  intros H. pose proof sqrt2_bounds. rewrite bin_term_eq by lra. cbv zeta.
  set (m := (1 + sqrt 2) / 2). assert (Hm : 0 < m) by (unfold m; lra).
  apply Rmult_lt_0_compat; [|apply Rdiv_lt_0_compat; lra].
  apply Rdiv_lt_0_compat; [apply CSFD_pos; nra|]. apply pow_lt. nra.
Qed.

Lemma sum_terminates f lim D : 0 < D -> exists fuel n, R_to_CSFD f lim fuel D = Some n.
Proof.
  intros H. pose proof sqrt2_bounds as S2.
  assert (G : exists k, lim <= D * sqrt 2 ^ k).
  { destruct (Pow_x_infinity (sqrt 2) ltac:(rewrite Rabs_right; lra) (lim / D)) as (N & HN).
    exists N. specialize (HN N (le_n N)).
    rewrite Rabs_right in HN by (apply Rle_ge, pow_le; lra).
    apply Rge_le in HN. apply Rmult_le_compat_l with (r := D) in HN; [|lra].
    replace (D * (lim / D)) with lim in HN by (field; lra). exact HN. }
  destruct G as (k & G). exists k. revert D H G.
  induction k as [|k IH]; intros D H G; cbn [R_to_CSFD].
  - simpl in G. destruct (Rlt_dec D lim); [lra|]. eauto.
  - destruct (Rlt_dec D lim); [|eauto].
    destruct (IH (D * sqrt 2) ltac:(nra)) as (n & ->); [|eauto].
    rewrite Rmult_assoc. exact G.
Qed.

Lemma sum_more_fuel f lim fuel : forall D n fuel', R_to_CSFD f lim fuel D = Some n -> (fuel <= fuel')%nat ->
  R_to_CSFD f lim fuel' D = Some n.
Proof.
  induction fuel as [|k IH]; intros D n fuel' E L'.
  - destruct fuel'; cbn [R_to_CSFD] in *; destruct (Rlt_dec D lim); try discriminate; exact E.
  - destruct fuel' as [|k']; [lia|]. cbn [R_to_CSFD] in *. destruct (Rlt_dec D lim); [|exact E].
    destruct (R_to_CSFD f lim k (D * sqrt 2)) eqn:E1; [|discriminate].
    rewrite (IH _ _ k' E1 ltac:(lia)). exact E.
Qed.
Lemma sum_det f lim a b D n m : R_to_CSFD f lim a D = Some n -> R_to_CSFD f lim b D = Some m -> n = m.
Proof.
  intros A B. apply (sum_more_fuel f lim a D n (a + b)) in A; [|lia].
  apply (sum_more_fuel f lim b D m (a + b)) in B; [|lia]. congruence.
Qed.
(** A diameter of zero never gets beyond the limit. *)
Lemma sum_zero f lim fuel : 0 < lim -> R_to_CSFD f lim fuel 0 = None.
Proof.
  intros H. induction fuel as [|k IH]; cbn [R_to_CSFD]; destruct (Rlt_dec 0 lim); try lra; auto.
  rewrite Rmult_0_l, IH. reflexivity.
Qed.

Lemma sum_nonneg fuel : forall D lim n, 0 < D -> R_to_CSFD (CSFD Projectile) lim fuel D = Some n ->
  0 <= n /\ (D < lim -> 0 < n).
Proof.
  pose proof sqrt2_bounds as S2.
  induction fuel as [|k IH]; intros D lim n H E; cbn [R_to_CSFD] in E; destruct (Rlt_dec D lim); try discriminate.
  - injection E as <-. split; lra.
  - destruct (R_to_CSFD _ lim k (D * sqrt 2)) as [s|] eqn:E1; [|discriminate].
    destruct (IH (D * sqrt 2) lim s ltac:(nra) E1) as (A & _). pose proof (term_pos D H).
    injection E as <-. split; lra.
  - injection E as <-. split; lra.
Qed.

Lemma sum_decreasing fuel : forall a b lim n m, 0 < a < b ->
  R_to_CSFD (CSFD Projectile) lim fuel a = Some n ->
  R_to_CSFD (CSFD Projectile) lim fuel b = Some m ->
  m <= n /\ (a < lim -> m < n).
Proof.
  pose proof sqrt2_bounds as S2.
  induction fuel as [|k IH]; intros a b lim n m H A B.
  - cbn [R_to_CSFD] in *. destruct (Rlt_dec a lim); [discriminate|].
    destruct (Rlt_dec b lim); [discriminate|]. injection A as <-. injection B as <-. lra.
  - assert (NN := sum_nonneg (S k) a lim n ltac:(lra) A).
    cbn [R_to_CSFD] in *. destruct (Rlt_dec b lim) as [Lb|Lb].
    + destruct (Rlt_dec a lim); [|lra].
      destruct (R_to_CSFD _ lim k (a * sqrt 2)) as [s|] eqn:E1; [|discriminate].
      destruct (R_to_CSFD _ lim k (b * sqrt 2)) as [t|] eqn:E2; [|discriminate].
      destruct (IH (a * sqrt 2) (b * sqrt 2) lim s t) as (X & _); auto; [nra|].
      pose proof (term_decreasing a b H). injection A as <-. injection B as <-. lra.
    + injection B as <-. tauto.
Qed.

(* ---------- csfd ---------- *)
Lemma csfd_total v D : 0 < D -> exists n, csfd v D (Ok n).
Proof.
  intros H. destruct v.
  - eexists. apply csfd_crater; [exact H|discriminate].
  - eexists. apply csfd_crater; [exact H|discriminate].
  - destruct (sum_terminates (CSFD Projectile) 1000000 (D / 1000) ltac:(lra)) as (fu & n & E).
    eexists. eapply csfd_proj; eauto.
Qed.

Lemma csfd_det v D r s : csfd v D r -> csfd v D s -> r = s.
Proof.
  intros A B. destruct A as [A|fu n A E1 E|A E1]; destruct B as [B|fu' n' B F1 F|B F1]; try lra; try congruence.
  rewrite (sum_det _ _ _ _ _ _ _ E F). reflexivity.
Qed.

Lemma csfd_pos v D n : 0 < D < 1000000000 -> csfd v D (Ok n) -> 0 < n.
Proof.
  intros H A. inversion A as [|fu m A0 E1 E|A0 E1]; subst.
  - destruct (sum_nonneg fu (D / 1000) 1000000 m ltac:(lra) E) as (_ & X). specialize (X ltac:(lra)). lra.
  - assert (X := CSFD_pos v (D / 1000) ltac:(lra)). lra.
Qed.

Lemma csfd_decreases v a b n m : 0 < a < b -> a < 1000000000 ->
  csfd v a (Ok n) -> csfd v b (Ok m) -> m < n.
Proof.
  intros H La A B. inversion A as [|fu k A0 E1 E|A0 E1]; inversion B as [|fu' k' B0 F1 F|B0 F1]; subst; try congruence.
  - apply (sum_more_fuel _ _ _ _ _ (fu + fu')) in E; [|lia].
    apply (sum_more_fuel _ _ _ _ _ (fu + fu')) in F; [|lia].
    destruct (sum_decreasing (fu + fu') (a/1000) (b/1000) 1000000 k k' ltac:(lra) E F) as (_ & X).
    specialize (X ltac:(lra)). lra.
  - assert (X := CSFD_decreasing v E1 (a / 1000) (b / 1000) ltac:(lra)). lra.
Qed.

(* ---------- chronology ---------- *)
Lemma tau_inv t : t / 1000 / tau = t * (693 / 100000).
Proof. unfold tau. field. Qed.

Lemma N1km_0 ce cl : N1km ce cl 0 = 0.
Proof. unfold N1km. rewrite tau_inv, Rmult_0_l, exp_0. field. Qed.

Lemma N1km_increasing ce cl a b : 0 <= ce -> 0 < cl -> a < b -> N1km ce cl a < N1km ce cl b.
Proof.
  intros E C H. unfold N1km. rewrite !tau_inv.
  assert (X : exp (a * (693 / 100000)) < exp (b * (693 / 100000))) by (apply exp_increasing; lra).
  nra.
Qed.

Lemma Clin_pos v : 0 < Clin_of v.
Proof. apply pow10_pos. Qed.
Lemma Cexp_moon_pos : 0 < Cexp_moon.
Proof. unfold Cexp_moon. apply Rdiv_lt_0_compat; [lra|apply pow_lt; lra]. Qed.
Lemma Cexp_pos v : 0 < Cexp_of (Clin_of v) v.
Proof.
  pose proof Cexp_moon_pos. unfold Cexp_of. destruct v; auto;
    (apply Rdiv_lt_0_compat; [apply Rmult_lt_0_compat; [assumption|apply Clin_pos]|apply Clin_pos]).
Qed.
Lemma chron_increasing v a b : a < b -> chron_of v a < chron_of v b.
Proof.
  intros. apply N1km_increasing; [left; apply Cexp_pos|apply Clin_pos|assumption].
Qed.
Lemma chron_0 v : chron_of v 0 = 0.
Proof. apply N1km_0. Qed.

Lemma chronology_laws ce cl : 0 <= ce -> 0 < cl ->
  (forall ts te, te <= ts -> 0 <= chronology ce cl ts (Some te)) /\
  (forall t, chronology ce cl t (Some t) = 0) /\
  (forall t0 t1 t2, chronology ce cl t0 (Some t2) = chronology ce cl t0 (Some t1) + chronology ce cl t1 (Some t2)) /\
  (forall ts ts' te, ts < ts' -> chronology ce cl ts (Some te) < chronology ce cl ts' (Some te)) /\
  (forall ts, chronology ce cl ts None = chronology ce cl ts (Some 0)).
Proof.
  intros E C. unfold chronology. split; [|split; [|split; [|split]]].
  - intros ts te [H|<-]; [|lra]. assert (X := N1km_increasing ce cl te ts E C H). lra.
  - intros; ring.
  - intros; ring.
  - intros ts ts' te H. assert (X := N1km_increasing ce cl ts ts' E C H). lra.
  - intros. rewrite N1km_0. ring.
Qed.

Lemma number_laws v D ts te n : 0 < D < 1000000000 -> te <= ts -> neukum_number v D ts te n ->
  0 <= n /\ (te < ts -> 0 < n) /\ (ts = te -> n = 0) /\
  (forall tm m k, te <= tm <= ts -> neukum_number v D ts tm m -> neukum_number v D tm te k -> n = m + k) /\
  (forall D' n', 0 < D' < D -> te < ts -> neukum_number v D' ts te n' -> n < n').
Proof.
  intros H T (c & C & ->). assert (Pc := csfd_pos v D c H C).
  split; [|split; [|split; [|split]]].
  - destruct T as [T|<-]; [|lra]. assert (X := chron_increasing v te ts T). nra.
  - intros T'. assert (X := chron_increasing v te ts T'). nra.
  - intros ->. ring.
  - intros tm m k _ (c1 & C1 & ->) (c2 & C2 & ->).
    assert (A := csfd_det _ _ _ _ C C1). assert (B := csfd_det _ _ _ _ C C2).
    injection A as <-. injection B as <-. ring.
  - intros D' n' H' T' (c' & C' & ->). assert (X := csfd_decreases v D' D c' c ltac:(lra) ltac:(lra) C' C).
    assert (Y := chron_increasing v te ts T'). nra.
Qed.

Lemma number_exists v D ts te : 0 < D -> exists n, neukum_number v D ts te n.
Proof. intros H. destruct (csfd_total v D H) as (c & C). eexists. exists c. split; [exact C|reflexivity]. Qed.

(** The inverse functions. *)
Lemma brentq_inverse f a b n t r : (forall x y, a <= x -> x < y -> y <= b -> f x < f y) -> a <= t <= b -> f t = n ->
  brentq (fun x => f x - n) a b r -> r = Ok t.
Proof.
  intros M T E Br.
  assert (A : f a <= n) by (destruct (Rle_lt_or_eq_dec a t ltac:(lra)) as [X| ->]; [assert (Y := M a t ltac:(lra) X ltac:(lra)); lra|lra]).
  assert (B : n <= f b) by (destruct (Rle_lt_or_eq_dec t b ltac:(lra)) as [X| <-]; [assert (Y := M t b ltac:(lra) X ltac:(lra)); lra|lra]).
  destruct Br as [S|x S X F].
  - nra.
  - f_equal. destruct (Rtotal_order x t) as [L'|[->|L']]; [|reflexivity|].
    + assert (Y := M x t ltac:(lra) L' ltac:(lra)). lra.
    + assert (Y := M t x ltac:(lra) L' ltac:(lra)). lra.
Qed.
Lemma brentq_exists f a b n t : (forall x y, a <= x -> x < y -> y <= b -> f x < f y) -> a <= t <= b -> f t = n ->
  exists r, brentq (fun x => f x - n) a b r.
Proof.
  intros M T E. exists (Ok t). apply brentq_root; [|exact T|lra].
  assert (A : f a <= n) by (destruct (Rle_lt_or_eq_dec a t ltac:(lra)) as [X| ->]; [assert (Y := M a t ltac:(lra) X ltac:(lra)); lra|lra]).
  assert (B : n <= f b) by (destruct (Rle_lt_or_eq_dec t b ltac:(lra)) as [X| <-]; [assert (Y := M t b ltac:(lra) X ltac:(lra)); lra|lra]).
  nra.
Qed.

(** age_from_D_N inverts function, for every version, diameter and valid age, and
    rejects densities beyond that of the oldest valid age. *)
Lemma age_roundtrip v c D : 0 < D < 1000000000 -> csfd v D (Ok c) ->
  (forall t, 0 <= t <= 4500 ->
    (exists r, age_from_D_N (fun _ t => c * chron_of v t) (Some 0) (Some 4500) D (c * chron_of v t) r) /\
    forall r, age_from_D_N (fun _ t => c * chron_of v t) (Some 0) (Some 4500) D (c * chron_of v t) r -> r = Ok t) /\
  (forall n, c * chron_of v 4500 < n ->
    forall r, age_from_D_N (fun _ t => c * chron_of v t) (Some 0) (Some 4500) D n r -> r = Err ValueError).
Proof.
  intros H C. assert (Pc := csfd_pos v D c H C).
  assert (M : forall x y, 0 <= x -> x < y -> y <= 4500 -> c * chron_of v x < c * chron_of v y).
  { intros x y _ L' _. apply Rmult_lt_compat_l; [exact Pc|]. apply chron_increasing. exact L'. }
  split.
  - intros t T.
    assert (N : 0 <= c * chron_of v t).
    { apply Rmult_le_pos; [lra|]. rewrite <- (chron_0 v).
      destruct (Rle_lt_or_eq_dec 0 t ltac:(lra)) as [X| <-]; [|lra]. left. apply chron_increasing. exact X. }
    unfold age_from_D_N. destruct (Rlt_dec D 0); [lra|]. destruct (Rlt_dec (c * chron_of v t) 0); [lra|]. split.
    + apply (brentq_exists (fun t => c * chron_of v t) 0 4500 _ t M T eq_refl).
    + intros r. apply (brentq_inverse (fun t => c * chron_of v t) 0 4500 _ t r M T eq_refl).
  - intros n Hn r. unfold age_from_D_N. destruct (Rlt_dec D 0); [lra|].
    destruct (Rlt_dec n 0) as [|Nn]; [intros; assumption|].
    intros [S|x S X F]; [reflexivity|].
    exfalso. destruct X as [X1 X2]. destruct (Rle_lt_or_eq_dec x 4500 X2) as [X|X].
    + assert (Y := M x 4500 X1 X ltac:(lra)). lra.
    + subst x. lra.
Qed.

(** D_from_N_age inverts function in the diameter. *)
Lemma D_roundtrip v ts te D : v <> Projectile -> te < ts -> 1 / 1000000 <= D <= 1000000 ->
  let N := fun d => crater_csfd v d * (chron_of v ts - chron_of v te) in
  (exists r, D_from_N_age N (N D) r) /\ forall r, D_from_N_age N (N D) r -> r = Ok D.
Proof.
  intros Hv T HD N.
  assert (X := chron_increasing v te ts T).
  assert (M : forall x y, 1 / 1000000 <= x -> x < y -> y <= 1000000 -> N y < N x).
  { intros x y A B _. unfold N, crater_csfd.
    assert (Y := CSFD_decreasing v Hv (x / 1000) (y / 1000) ltac:(lra)).
    apply Rmult_lt_compat_r; lra. }
  assert (A : N D <= N (1 / 1000000)).
  { destruct (Rle_lt_or_eq_dec (1/1000000) D ltac:(lra)) as [Y| <-]; [|lra].
    left. apply M; lra. }
  assert (B : N 1000000 <= N D).
  { destruct (Rle_lt_or_eq_dec D 1000000 ltac:(lra)) as [Y| ->]; [|lra].
    left. apply M; lra. }
  split.
  - exists (Ok D). apply brentq_root; [|exact HD|ring]. nra.
  - intros r [S|x S Hx F]; [nra|]. f_equal.
    destruct (Rtotal_order x D) as [L'|[->|L']]; [|reflexivity|].
    + assert (Y := M x D ltac:(lra) L' ltac:(lra)). lra.
    + assert (Y := M D x ltac:(lra) L' ltac:(lra)). lra.
Qed.

(* ---------- C15: cached coefficients ---------- *)
Definition coherent (p : neukum) : Prop :=
  (forall c, c_lin p = Some c -> c = Clin_of (ver p)) /\
  (forall c, c_exp p = Some c -> c = Cexp_of (Clin_of (ver p)) (ver p)).

Lemma read_Clin_ok p : coherent p -> fst (read_Clin p) = Clin_of (ver p) /\
  coherent (snd (read_Clin p)) /\ ver (snd (read_Clin p)) = ver p.
Proof.
  intros (A & B). unfold read_Clin. destruct (c_lin p) as [c|] eqn:E; simpl.
  - split; [auto|]. split; [split; auto|reflexivity]. intros c' E'. apply A. congruence.
  - split; [reflexivity|]. split; [|reflexivity]. split; simpl; [|exact B]. intros c' E'. congruence.
Qed.
Lemma read_Cexp_ok p : coherent p -> fst (read_Cexp p) = Cexp_of (Clin_of (ver p)) (ver p) /\
  coherent (snd (read_Cexp p)) /\ ver (snd (read_Cexp p)) = ver p.
Proof.
  intros C. unfold read_Cexp. destruct (c_exp p) as [c|] eqn:E.
  - destruct C as (A & B). split; [auto|]. split; [split; auto|reflexivity].
  - destruct (read_Clin_ok p C) as (X & (Y1 & Y2) & Z).
    assert (G : forall v, ver p = v ->
      fst (let '(cl, p1) := read_Clin p in (Cexp_of cl v, mkNeukum (ver p1) (c_lin p1) (Some (Cexp_of cl v))))
        = Cexp_of (Clin_of v) v /\
      coherent (snd (let '(cl, p1) := read_Clin p in (Cexp_of cl v, mkNeukum (ver p1) (c_lin p1) (Some (Cexp_of cl v))))) /\
      ver (snd (let '(cl, p1) := read_Clin p in (Cexp_of cl v, mkNeukum (ver p1) (c_lin p1) (Some (Cexp_of cl v))))) = v).
    { intros v Ev. destruct (read_Clin p) as [cl p1]. simpl in *. rewrite Ev in *. rewrite X.
      split; [reflexivity|]. split; [|exact Z]. split; simpl; rewrite ?Z; [|intros; congruence].
      intros c' E'. rewrite <- Z. apply Y1. exact E'. }
    destruct (ver p) eqn:Ev.
    + simpl. split; [reflexivity|]. split; [|reflexivity]. destruct C as (A & B). rewrite Ev in *. split; simpl; [exact A|].
      intros; congruence.
    + apply G. reflexivity.
    + apply G. reflexivity.
Qed.
Lemma read_chronology_ok p ts te : coherent p ->
  fst (read_chronology ts te p) = chronology (Cexp_of (Clin_of (ver p)) (ver p)) (Clin_of (ver p)) ts te /\
  coherent (snd (read_chronology ts te p)) /\ ver (snd (read_chronology ts te p)) = ver p.
Proof.
  intros C. unfold read_chronology. destruct (read_Cexp_ok p C) as (A & B & D).
  destruct (read_Cexp p) as [ce p1]. simpl in *.
  destruct (read_Clin_ok p1 B) as (A' & B' & D'). destruct (read_Clin p1) as [cl p2]. simpl in *.
  rewrite D in *. subst. auto.
Qed.


Lemma history_snoc v l o : neukum_history v (l ++ [o]) = neukum_step (neukum_history v l) o.
Proof. unfold neukum_history. rewrite fold_left_app. reflexivity. Qed.

Lemma step_ver p o : ver (neukum_step p o) = match o with SetVersion w => w | _ => ver p end.
Proof.
  assert (A : forall q, ver (snd (read_Clin q)) = ver q).
  { intros q. unfold read_Clin. destruct (c_lin q); reflexivity. }
  assert (B : forall q, ver (snd (read_Cexp q)) = ver q).
  { intros q. unfold read_Cexp. destruct (c_exp q); [reflexivity|].
    assert (E : forall v, ver (snd (let '(cl, p1) := read_Clin q in
       (Cexp_of cl v, mkNeukum (ver p1) (c_lin p1) (Some (Cexp_of cl v))))) = ver q).
    { intros v. specialize (A q). destruct (read_Clin q). exact A. }
    destruct (ver q) eqn:Ev; [reflexivity|exact (E Mars)|exact (E Projectile)]. }
  destruct o; simpl; auto.
  unfold read_chronology. assert (X := B p). destruct (read_Cexp p) as [ce p1]. simpl in X.
  assert (Y := A p1). destruct (read_Clin p1). simpl in *. congruence.
Qed.

Lemma history_ver l : forall v, ver (neukum_history v l) = last_version v l.
Proof.
  unfold neukum_history. intros v. change v with (ver (new_neukum v)) at 2.
  generalize (new_neukum v). induction l as [|o l IH]; intros p; [reflexivity|].
  cbn [fold_left last_version]. rewrite IH, step_ver. destruct o; reflexivity.
Qed.

(** Fresh caches until the first read. *)
Lemma assignments_only l : forall p, c_lin p = None -> c_exp p = None -> forallb (fun o => negb (is_read o)) l = true ->
  c_lin (fold_left neukum_step l p) = None /\ c_exp (fold_left neukum_step l p) = None.
Proof.
  induction l as [|o l IH]; intros p A B F; [auto|]. simpl in F. apply andb_prop in F. destruct F as [F1 F2].
  destruct o; try discriminate. simpl. apply IH; auto.
Qed.
Lemma step_coherent p o : coherent p -> is_read o = true -> coherent (neukum_step p o).
Proof.
  intros C R0. destruct o; try discriminate; simpl.
  - apply read_Clin_ok. exact C.
  - apply read_Cexp_ok. exact C.
  - apply read_chronology_ok. exact C.
Qed.
Lemma reads_coherent l : forall p, coherent p -> forallb is_read l = true -> coherent (fold_left neukum_step l p).
Proof.
  induction l as [|o l IH]; intros p C F; [exact C|]. simpl in F. apply andb_prop in F. destruct F as [F1 F2].
  simpl. apply IH; [apply step_coherent; assumption|exact F2].
Qed.

Lemma used_follow v l1 l2 : forallb (fun o => negb (is_read o)) l1 = true -> forallb is_read l2 = true ->
  forall ts te, let w := last_version v (l1 ++ l2) in
  fst (read_chronology ts te (neukum_history v (l1 ++ l2))) =
    chronology (Cexp_of (Clin_of w) w) (Clin_of w) ts te.
Proof.
  intros F1 F2 ts te w. unfold w. rewrite <- history_ver.
  apply read_chronology_ok. unfold neukum_history. rewrite fold_left_app.
  destruct (assignments_only l1 (new_neukum v) eq_refl eq_refl F1) as (A & B).
  apply reads_coherent; [|exact F2]. split; intros c E; congruence.
Qed.

(** Once the chronology has been evaluated, the coefficients are frozen. *)
Lemma frozen l : forall p a b, c_lin p = Some a -> c_exp p = Some b ->
  c_lin (fold_left neukum_step l p) = Some a /\ c_exp (fold_left neukum_step l p) = Some b.
Proof.
  induction l as [|o l IH]; intros p a b A B; [auto|]. simpl. apply IH; destruct o; simpl; auto;
    unfold read_chronology, read_Clin, read_Cexp; rewrite ?A, ?B; simpl; rewrite ?A; auto.
Qed.
Lemma chronology_fills ts te p : exists a b, c_lin (snd (read_chronology ts te p)) = Some a /\
  c_exp (snd (read_chronology ts te p)) = Some b /\
  forall ts' te', fst (read_chronology ts' te' (snd (read_chronology ts te p))) = chronology b a ts' te'.
Proof.
  assert (X : exists a b, c_lin (snd (read_chronology ts te p)) = Some a /\ c_exp (snd (read_chronology ts te p)) = Some b).
  { unfold read_chronology. destruct (read_Cexp p) as [ce p1] eqn:E1.
    assert (Y : exists b, c_exp p1 = Some b).
    { unfold read_Cexp in E1. destruct (c_exp p) eqn:E.
      - injection E1 as <- <-. eauto.
      - destruct (ver p); [injection E1 as <- <-; simpl; eauto| |];
          destruct (read_Clin p) as [cl q]; injection E1 as <- <-; simpl; eauto. }
    destruct Y as (b & Yb). unfold read_Clin. destruct (c_lin p1) as [a|] eqn:E2; simpl; eauto. }
  destruct X as (a & b & A & B). exists a, b. split; [exact A|]. split; [exact B|].
  intros ts' te'. set (q := snd (read_chronology ts te p)) in *.
  unfold read_chronology, read_Cexp. rewrite B. unfold read_Clin. rewrite A. reflexivity.
Qed.

Lemma frozen_chronology v l ts te l' ts' te' : fst (read_chronology ts' te' (neukum_history v (l ++ ReadChronology ts te :: l'))) =
  let w := neukum_history v (l ++ [ReadChronology ts te]) in fst (read_chronology ts' te' w).
Proof.
  cbv zeta. rewrite history_snoc. simpl (neukum_step _ _).
  replace (l ++ ReadChronology ts te :: l') with ((l ++ [ReadChronology ts te]) ++ l') by (rewrite <- app_assoc; reflexivity).
  unfold neukum_history at 1. rewrite fold_left_app. fold (neukum_history v (l ++ [ReadChronology ts te])).
  rewrite history_snoc. simpl (neukum_step _ _).
  destruct (chronology_fills ts te (neukum_history v l)) as (a & b & A & B & C). rewrite C.
  destruct (frozen l' _ a b A B) as (A' & B').
  set (q := fold_left _ _ _) in *. unfold read_chronology, read_Cexp. rewrite B'. unfold read_Clin. rewrite A'. reflexivity.
Qed.

Lemma Clin_values : Clin_of Mars < Clin_of Moon.
Proof. unfold Clin_of. apply pow10_lt. simpl. unfold Q2R. simpl. lra. Qed.

Lemma stale : exists ts,
  let p := neukum_history Moon [ReadChronology 1000 None; SetVersion Mars] in
  ver p = Mars /\ fst (read_chronology ts None p) <> chronology (Cexp_of (Clin_of Mars) Mars) (Clin_of Mars) ts None.
Proof.
  exists 1000. cbv zeta. split; [reflexivity|].
  change [ReadChronology 1000 None; SetVersion Mars] with ([] ++ ReadChronology 1000 None :: [SetVersion Mars]).
  rewrite frozen_chronology. cbv zeta.
  assert (Y := used_follow Moon [] [ReadChronology 1000 None] eq_refl eq_refl 1000 None).
  cbn [app last_version] in Y. cbn [app]. rewrite Y.
  cbn [chronology]. unfold N1km. rewrite tau_inv.
  pose proof Clin_values as V. pose proof (Clin_pos Moon). pose proof (Clin_pos Mars). pose proof Cexp_moon_pos.
  assert (E : 1 < exp (1000 * (693 / 100000))) by (rewrite <- exp_0 at 1; apply exp_increasing; lra).
  assert (W : Cexp_of (Clin_of Mars) Mars < Cexp_moon).
  { unfold Cexp_of. apply Rmult_lt_reg_r with (Clin_of Moon); [assumption|].
    replace (Cexp_moon * Clin_of Mars / Clin_of Moon * Clin_of Moon) with (Cexp_moon * Clin_of Mars) by (field; lra).
    nra. }
  change (Cexp_of (Clin_of Moon) Moon) with Cexp_moon. intros Q. nra.
Qed.

(* ---------- C16: power law ---------- *)
Lemma pl_laws p : 0 < N1_coef p -> slope p < 0 ->
  (forall D ts te, pl_function p D ts (Some te) = N1_coef p * Rpower D (slope p) * (ts - te)) /\
  (forall D ts, pl_function p D ts None = pl_function p D ts (Some 0)) /\
  (forall a b ts te, 0 < a < b -> te < ts -> pl_function p b ts (Some te) < pl_function p a ts (Some te)) /\
  (forall D t0 t1 t2, pl_function p D t0 (Some t2) = pl_function p D t0 (Some t1) + pl_function p D t1 (Some t2)) /\
  (forall D t, pl_function p D t (Some t) = 0).
Proof.
  intros N S. unfold pl_function, pl_csfd, pow. split; [|split; [|split; [|split]]]; intros; try ring.
  apply Rmult_lt_compat_r; [lra|]. apply Rmult_lt_compat_l; [exact N|].
  unfold Rpower. apply exp_increasing.
  assert (X : ln a < ln b) by (apply ln_increasing; lra). nra.
Qed.

Lemma new_powerlaw_ok g n1 sl p : new_powerlaw g n1 sl = Ok p ->
  0 <= N1_coef p /\ slope p <= 0 /\ (sl <> Some 0 -> slope p < 0) /\
  (forall n, n1 = Some n -> N1_coef p = n) /\ (forall s, sl = Some s -> slope p = - Rabs s).
Proof.
  unfold new_powerlaw. intros E.
  set (n := match n1 with Some n => n | None => _ end) in *.
  destruct (Rlt_dec n 0); [discriminate|]. injection E as <-. cbn [N1_coef slope].
  split; [lra|]. destruct sl as [s|].
  - split; [destruct (Rlt_dec 0 s); lra|]. split.
    + intros Hs. assert (s <> 0) by congruence. destruct (Rlt_dec 0 s); lra.
    + split; [intros m ->; reflexivity|]. intros s' Q. injection Q as <-.
      destruct (Rlt_dec 0 s); [rewrite Rabs_right by lra|rewrite Rabs_left1 by lra]; ring.
  - split; [destruct g; destruct (Rlt_dec 0 _); lra|]. split; [intros _; destruct g; destruct (Rlt_dec 0 _); lra|].
    split; [intros m ->; reflexivity|discriminate].
Qed.

Lemma pl_chronology_constant p ts te ts' te' : pl_chronology p ts te = pl_chronology p ts' te'.
Proof. reflexivity. Qed.

(* ---------- C55: normalisation ---------- *)
Lemma csfd_1km v : v <> Projectile -> csfd v 1000 (Ok (Clin_of v * 1000)).
Proof.
  intros Hv.
  assert (E : CSFD v (1000 / 1000) = Clin_of v).
  { rewrite CSFD_log by lra. replace (1000 / 1000) with 1 by field. rewrite log10_1.
    destruct (range_ok v) as (A & B & C).
    assert (X : xlo v <= 0 <= xhi v).
    { rewrite <- log10_1. unfold xlo, xhi. pose proof (lo_pos v). pose proof (hi_pos v).
      destruct v; simpl in *; split; apply log10_le; lra. }
    rewrite L_mid by exact X. unfold P, Clin_of. f_equal.
    destruct v; simpl; ring. }
  rewrite <- E. apply csfd_crater; [lra|exact Hv].
Qed.

Lemma number_1km v ts te n : v <> Projectile -> neukum_number v 1000 ts te n ->
  n = Clin_of v * 1000 * (standard_N1 v ts - standard_N1 v te).
Proof.
  intros Hv (c & C & ->). assert (E := csfd_det _ _ _ _ C (csfd_1km v Hv)). injection E as ->. reflexivity.
Qed.


Lemma frac_lt a b K : 0 < a -> 0 < b -> 0 < K -> a * K < b -> a * / b < / K.
Proof.
  intros A B C H. apply Rmult_lt_reg_r with (b * K); [nra|].
  replace (a * / b * (b * K)) with (a * K) by (field; lra).
  replace (/ K * (b * K)) with b by (field; lra). exact H.
Qed.
Lemma frac_gt a b K : 0 < a -> 0 < b -> 0 < K -> b < a * K -> / K < a * / b.
Proof.
  intros A B C H. apply Rmult_lt_reg_r with (b * K); [nra|].
  replace (a * / b * (b * K)) with (a * K) by (field; lra).
  replace (/ K * (b * K)) with b by (field; lra). exact H.
Qed.
Lemma log10_pow x n : 0 < x -> log10 (x ^ n) = INR n * log10 x.
Proof. intros. unfold log10. rewrite ln_pow by assumption. unfold Rdiv. ring. Qed.

Lemma factor_moon : 8 / 10 < Clin_of Moon * 1000 < 82 / 100.
Proof.
  assert (E : Clin_of Moon * 1000 = pow 10 (- (876 / 10000))).
  { unfold Clin_of. change (Q2R (hd 0%Q (sfd_table Moon))) with (Q2R (-30876 # 10000)).
    replace (Q2R (-30876 # 10000)) with (- (876 / 10000) + Ropp 3) by (unfold Q2R; simpl; lra).
    unfold pow. rewrite Rpower_plus. replace (Rpower 10 (Ropp 3)) with (/ 1000).
    - field.
    - rewrite Rpower_Ropp. f_equal. replace 3 with (INR 3) by (simpl; lra). rewrite Rpower_pow by lra. ring. }
  rewrite E. split.
  - rewrite <- (pow10_log10 (8 / 10)) by lra. apply pow10_lt.
    assert (Y : INR 11 * log10 (8/10) < - INR 1).
    { rewrite <- log10_pow by lra. rewrite <- log10_pow_nat, <- log10_inv by (apply pow_lt; lra).
      apply log10_lt; [apply pow_lt; lra|].
      replace (8/10) with (4 * / 5) by field. rewrite Rpow_mult_distr, pow_inv.
      apply frac_lt; try (apply pow_lt; lra).
      rewrite !pow_IZR, <- mult_IZR. apply IZR_lt. vm_compute. reflexivity. }
    rewrite !INR_IZR_INZ in Y. simpl Z.of_nat in Y. lra.
  - rewrite <- (pow10_log10 (82 / 100)) by lra. apply pow10_lt.
    assert (Y : - INR 2 < INR 23 * log10 (82/100)).
    { rewrite <- log10_pow by lra. rewrite <- log10_pow_nat, <- log10_inv by (apply pow_lt; lra).
      apply log10_lt; [apply Rinv_0_lt_compat, pow_lt; lra|].
      replace (82/100) with (41 * / 50) by field. rewrite Rpow_mult_distr, pow_inv.
      apply frac_gt; try (apply pow_lt; lra).
      rewrite !pow_IZR, <- mult_IZR. apply IZR_lt. vm_compute. reflexivity. }
    rewrite !INR_IZR_INZ in Y. simpl Z.of_nat in Y. lra.
Qed.

Lemma not_normalised : forall t n, 0 < t -> neukum_number Moon 1000 t 0 n ->
  8 / 10 * standard_N1 Moon t < n < 82 / 100 * standard_N1 Moon t.
Proof.
  intros t n T H. rewrite (number_1km Moon t 0 n ltac:(discriminate) H).
  pose proof factor_moon. assert (X := chron_increasing Moon 0 t T). unfold standard_N1. rewrite chron_0 in *. nra.
Qed.

(* ---------- C57: slope of the extrapolation ---------- *)
Lemma slope_ext f g x a b s : a < x < b -> (forall z, a < z < b -> f z = g z) ->
  derivable_pt_lim f x s -> derivable_pt_lim g x s.
Proof.
  intros H E D eps He. destruct (D eps He) as (d & Hd).
  assert (M : 0 < Rmin d (Rmin (x - a) (b - x))).
  { apply Rmin_glb_lt; [apply cond_pos|]. apply Rmin_glb_lt; lra. }
  exists (mkposreal _ M). simpl. intros h Hh Lh.
  assert (A1 := Rmin_l d (Rmin (x - a) (b - x))). assert (A2 := Rmin_r d (Rmin (x - a) (b - x))).
  assert (B1 := Rmin_l (x - a) (b - x)). assert (B2 := Rmin_r (x - a) (b - x)).
  assert (C : - Rabs h <= h <= Rabs h) by (split; [pose proof (Rle_abs (- h)) as Q; rewrite Rabs_Ropp in Q; lra|apply Rle_abs]).
  rewrite <- !E by lra. apply Hd; [exact Hh|lra].
Qed.

Lemma log_CSFD v x : log10 (CSFD v (Rpower 10 x)) = L v x.
Proof.
  fold (pow 10 x). rewrite CSFD_log by apply pow10_pos. rewrite !log10_pow10. reflexivity.
Qed.

Lemma slope_below v D : 0 < D < sfd_lo v / 1000 -> loglog_slope (CSFD v) D (dNdD v (sfd_lo v / 1000)).
Proof.
  intros H. unfold loglog_slope. assert (X := log10_lt D _ ltac:(lra) (proj2 H)). fold (xlo v) in X.
  apply (slope_ext (fun x => P v (xlo v) + plo v * (x - xlo v)) _ (log10 D) (log10 D - 1) (xlo v)); [lra| |].
  - intros z Hz. rewrite log_CSFD. symmetry. apply L_lo. lra.
  - replace (dNdD v (sfd_lo v / 1000)) with (0 + plo v * (1 - 0)) by (unfold plo, dNdD, xlo; ring).
    apply (derivable_pt_lim_plus (fun _ => P v (xlo v)) (fun x => plo v * (x - xlo v))); [apply derivable_pt_lim_const|].
    apply (derivable_pt_lim_scal (fun x => x - xlo v)).
    apply (derivable_pt_lim_minus (fun x => x) (fun _ => xlo v)); [apply derivable_pt_lim_id|apply derivable_pt_lim_const].
Qed.
Lemma slope_inside v D : sfd_lo v / 1000 < D < sfd_hi v / 1000 ->
  loglog_slope (CSFD v) D (peval (pderiv (sfd_table v)) (log10 D)).
Proof.
  intros H. unfold loglog_slope. pose proof (lo_pos v).
  assert (X := log10_lt _ D ltac:(eassumption) (proj1 H)). fold (xlo v) in X.
  assert (Y := log10_lt D _ ltac:(lra) (proj2 H)). fold (xhi v) in Y.
  apply (slope_ext (P v) _ (log10 D) (xlo v) (xhi v)); [lra| |apply pderiv_lim].
  intros z Hz. rewrite log_CSFD. symmetry. apply L_mid. lra.
Qed.
Lemma slope_unique f D s t : loglog_slope f D s -> loglog_slope f D t -> s = t.
Proof. apply uniqueness_limite. Qed.

(** CSFD is continuous at the ends of the range. *)
Lemma L_continuous v : continuity (L v).
Proof.
  assert (Lip : exists K, 0 < K /\ True) by (exists 1; split; [lra|trivial]). clear Lip.
  intros x. destruct (range_ok v) as (_ & R1 & _).
  assert (G : forall f a b, a < x < b -> (forall z, a < z < b -> f z = L v z) -> continuity_pt f x -> continuity_pt (L v) x).
  { intros f a b H E C eps He. destruct (C eps He) as (d & Hd & Hc). unfold dist in Hc; simpl in Hc; unfold R_dist in Hc.
    exists (Rmin d (Rmin (x - a) (b - x))). split; [repeat apply Rmin_glb_lt; lra|].
    intros z [[Hz1 Hz2] Hz]. simpl in *. unfold R_dist in *.
    assert (A1 := Rmin_l d (Rmin (x - a) (b - x))). assert (A2 := Rmin_r d (Rmin (x - a) (b - x))).
    assert (B1 := Rmin_l (x - a) (b - x)). assert (B2 := Rmin_r (x - a) (b - x)).
    assert (Q : - Rabs (z - x) <= z - x <= Rabs (z - x)) by (split; [pose proof (Rle_abs (- (z - x))) as Q; rewrite Rabs_Ropp in Q; lra|apply Rle_abs]).
    rewrite <- !E by lra. apply Hc. split; [split; auto|lra]. }
  assert (Clin' : forall a b c, continuity_pt (fun z => a + b * (z - c)) x).
  { intros. apply derivable_continuous_pt. exists (0 + b * (1 - 0)).
    apply (derivable_pt_lim_plus (fun _ => a) (fun z => b * (z - c))); [apply derivable_pt_lim_const|].
    apply (derivable_pt_lim_scal (fun z => z - c)).
    apply (derivable_pt_lim_minus (fun z => z) (fun _ => c)); [apply derivable_pt_lim_id|apply derivable_pt_lim_const]. }
  assert (CP : continuity_pt (P v) x).
  { apply derivable_continuous_pt. exists (peval (pderiv (sfd_table v)) x). apply pderiv_lim. }
  destruct (Rtotal_order x (xlo v)) as [X|[X|X]].
  - apply (G (fun z => P v (xlo v) + plo v * (z - xlo v)) (x - 1) (xlo v)); [lra| |apply Clin'].
    intros z Hz. symmetry. apply L_lo. lra.
  - (* glue at xlo *)
    intros eps He.
    destruct (CP eps He) as (d1 & Hd1 & C1). destruct (Clin' (P v (xlo v)) (plo v) (xlo v) eps He) as (d2 & Hd2 & C2).
    exists (Rmin (Rmin d1 d2) (xhi v - xlo v)). split; [repeat apply Rmin_glb_lt; lra|].
    intros z [[Hz1 Hz2] Hz]. simpl in *. unfold R_dist in *.
    assert (A1 := Rmin_l (Rmin d1 d2) (xhi v - xlo v)). assert (A2 := Rmin_r (Rmin d1 d2) (xhi v - xlo v)).
    assert (B1 := Rmin_l d1 d2). assert (B2 := Rmin_r d1 d2).
    assert (Q : - Rabs (z - x) <= z - x <= Rabs (z - x)) by (split; [pose proof (Rle_abs (- (z - x))) as Q; rewrite Rabs_Ropp in Q; lra|apply Rle_abs]).
    destruct (Rle_dec z (xlo v)).
    + rewrite !L_lo by lra. apply C2. split; [split; auto|lra].
    + rewrite !L_mid by lra. apply C1. split; [split; auto|lra].
  - destruct (Rtotal_order x (xhi v)) as [Y|[Y|Y]].
    + apply (G (P v) (xlo v) (xhi v)); [lra| |apply CP]. intros z Hz. symmetry. apply L_mid. lra.
    + intros eps He.
      destruct (CP eps He) as (d1 & Hd1 & C1). destruct (Clin' (P v (xhi v)) (phi v) (xhi v) eps He) as (d2 & Hd2 & C2).
      exists (Rmin (Rmin d1 d2) (xhi v - xlo v)). split; [repeat apply Rmin_glb_lt; lra|].
      intros z [[Hz1 Hz2] Hz]. simpl in *. unfold R_dist in *.
      assert (A1 := Rmin_l (Rmin d1 d2) (xhi v - xlo v)). assert (A2 := Rmin_r (Rmin d1 d2) (xhi v - xlo v)).
      assert (B1 := Rmin_l d1 d2). assert (B2 := Rmin_r d1 d2).
      assert (Q : - Rabs (z - x) <= z - x <= Rabs (z - x)) by (split; [pose proof (Rle_abs (- (z - x))) as Q; rewrite Rabs_Ropp in Q; lra|apply Rle_abs]).
      destruct (Rle_dec (xhi v) z).
      * rewrite !L_hi by lra. apply C2. split; [split; auto|lra].
      * rewrite !L_mid by lra. apply C1. split; [split; auto|lra].
    + apply (G (fun z => P v (xhi v) + phi v * (z - xhi v)) (xhi v) (x + 1)); [lra| |apply Clin'].
      intros z Hz. symmetry. apply L_hi. lra.
Qed.

Lemma CSFD_continuous v D : 0 < D -> continuity_pt (CSFD v) D.
Proof.
  intros H.
  assert (E : continuity_pt (fun x => exp (L v (ln x / ln 10) * ln 10)) D).
  { apply (continuity_pt_comp (fun x => L v (ln x / ln 10) * ln 10) exp); [|apply derivable_continuous_pt, derivable_pt_exp].
    apply (continuity_pt_mult (fun x => L v (ln x / ln 10)) (fun _ => ln 10)); [|apply continuity_pt_const; intros a b; reflexivity].
    apply (continuity_pt_comp (fun x => ln x / ln 10) (L v)); [|apply L_continuous].
    apply (continuity_pt_mult ln (fun _ => / ln 10)); [|apply continuity_pt_const; intros a b; reflexivity].
    apply derivable_continuous_pt. exists (/ D). apply derivable_pt_lim_ln. exact H. }
  intros eps He. destruct (E eps He) as (d & Hd & C).
  exists (Rmin d D). split; [apply Rmin_glb_lt; lra|].
  intros z [[Hz1 Hz2] Hz]. simpl in *. unfold R_dist in *.
  assert (A1 := Rmin_l d D). assert (A2 := Rmin_r d D).
  assert (Q : - Rabs (z - D) <= z - D) by (pose proof (Rle_abs (- (z - D))) as Q; rewrite Rabs_Ropp in Q; lra).
  rewrite !CSFD_log by lra. apply C. split; [split; auto|lra].
Qed.

Lemma log10_lo_moon : log10 (sfd_lo Moon / 1000) = -2.
Proof.
  unfold sfd_lo. replace (10 / 1000) with (/ 10 ^ 2) by lra.
  rewrite log10_inv, log10_pow_nat by (apply pow_lt; lra). simpl. lra.
Qed.

Lemma kink : (forall D s, 0 < D < 1 / 100 -> loglog_slope (CSFD Moon) D s -> s < - (332 / 100)) /\
  (forall D s, 1 / 100 < D < 102 / 10000 -> loglog_slope (CSFD Moon) D s -> - (32 / 10) < s).
Proof.
  split.
  - intros D s H S. assert (X := slope_below Moon D ltac:(simpl; lra)).
    rewrite (slope_unique _ _ _ _ S X). unfold dNdD. rewrite log10_lo_moon.
    cbn [sfd_table tl peval]. unfold Q2R. simpl. lra.
  - intros D s H S. assert (X := slope_inside Moon D ltac:(simpl; lra)).
    rewrite (slope_unique _ _ _ _ S X).
    assert (A : -2 < log10 D).
    { rewrite <- log10_lo_moon. apply log10_lt; simpl; lra. }
    assert (B : log10 D < -2 + 1 / 100).
    { assert (Y : log10 D <= log10 (102 / 10000)) by (apply log10_le; lra).
      replace (102 / 10000) with (102 / 100 * / 10 ^ 2) in Y by lra.
      unfold log10 in Y at 2. rewrite ln_mult in Y by lra.
      replace ((ln (102 / 100) + ln (/ 10 ^ 2)) / ln 10) with (log10 (102/100) + log10 (/ 10 ^ 2)) in Y
        by (unfold log10; field; pose proof ln10_pos; lra).
      rewrite log10_inv, log10_pow_nat in Y by (apply pow_lt; lra).
      assert (L2 : 2 < ln 10).
      { assert (E2 : exp 2 < 10).
        { replace 2 with (1 + 1) by lra. rewrite exp_plus. pose proof exp_le_3. pose proof (exp_pos 1). nra. }
        rewrite <- (ln_exp 2). apply ln_increasing; [apply exp_pos|exact E2]. }
      assert (L1 : ln (102 / 100) <= 2 / 100).
      { rewrite <- (ln_exp (2 / 100)). pose proof (exp_ineq1 (2 / 100) ltac:(lra)).
        left. apply ln_increasing; lra. }
      assert (Z : log10 (102 / 100) < 1 / 100).
      { unfold log10. apply Rmult_lt_reg_r with (ln 10); [lra|]. unfold Rdiv at 1.
        rewrite Rmult_assoc, Rinv_l by lra. lra. }
      rewrite INR_IZR_INZ in Y. simpl Z.of_nat in *. lra. }
    assert (C : peval (pderiv (map (Qmult (-10)) (sfd_table Moon))) (log10 D) < IZR 32).
    { apply (slope_lt_ok 10000000 100 32 (-2) 1 (map (Qmult (-10)) (sfd_table Moon))).
      - reflexivity.
      - reflexivity.
      - simpl. lia.
      - vm_compute. reflexivity.
      - simpl. lra. }
    rewrite pderiv_scal in C. replace (Q2R (-10)) with (-10) in C by (unfold Q2R; simpl; lra). lra.
Qed.

(* ---------- the runs of C09-C11 with this production function ---------- *)
From Verif Require Run_spec.
Lemma crater_csfd_pos v D : 0 <= D -> 0 < crater_csfd v D.
Proof.
  intros [H|<-]; unfold crater_csfd.
  - assert (X := CSFD_pos v (D / 1000) ltac:(lra)). lra.
  - apply Rmult_lt_0_compat; [|lra]. unfold CSFD. pose proof (lo_pos v).
    destruct (Rlt_dec (0 / 1000) _); [|lra]. apply Rmult_lt_0_compat; apply exp_pos.
Qed.

Lemma neukum_good v age_of area : 0 < area ->
  (forall D n, age_from_D_N (fun D t => crater_csfd v D * chron_of v t) (Some 0) (Some 4500) D n (age_of D n)) ->
  Run_spec.good_production (crater_csfd v) (chron_of v) age_of area.
Proof.
  intros A H. constructor.
  - exact A.
  - apply chron_0.
  - intros a b L'. apply chron_increasing. lra.
  - apply crater_csfd_pos. lra.
  - intros D n t E. specialize (H D n). rewrite E in H. unfold age_from_D_N in H.
    destruct (Rlt_dec D 0); [discriminate|]. destruct (Rlt_dec n 0); [discriminate|].
    inversion H as [|x S X F Q]; subst. split; [lra|]. split; [apply crater_csfd_pos; lra|]. lra.
Qed.

Lemma root_continuous v D n : continuity (fun t => crater_csfd v D * chron_of v t - n).
Proof.
  intros x. apply (continuity_pt_minus (fun t => crater_csfd v D * chron_of v t) (fun _ => n));
    [|apply continuity_pt_const; intros a b; reflexivity].
  apply (continuity_pt_scal (chron_of v)). unfold chron_of, N1km.
  reg.
Qed.

(** A solver that meets the description of brentq. *)
Definition solver (v : version) (D n : R) : result R :=
  if Rlt_dec D 0 then Err ValueError
  else if Rlt_dec n 0 then Err ValueError
  else match Rle_dec ((fun t => crater_csfd v D * chron_of v t - n) 0 * (fun t => crater_csfd v D * chron_of v t - n) 4500) 0 with
       | left H => Ok (proj1_sig (IVT_cor (fun t => crater_csfd v D * chron_of v t - n) 0 4500
                                   (root_continuous v D n) ltac:(lra) H))
       | right _ => Err ValueError
       end.
Lemma solver_ok v D n : age_from_D_N (fun D t => crater_csfd v D * chron_of v t) (Some 0) (Some 4500) D n (solver v D n).
Proof.
  unfold age_from_D_N, solver. destruct (Rlt_dec D 0); [reflexivity|]. destruct (Rlt_dec n 0); [reflexivity|].
  destruct (Rle_dec _ 0) as [H|H].
  - destruct (IVT_cor _ 0 4500 _ _ H) as (x & X & Y). simpl. apply brentq_root; auto.
  - apply brentq_sign. lra.
Qed.
