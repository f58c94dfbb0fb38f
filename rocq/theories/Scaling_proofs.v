(** Proofs for C17 and C18. *)
From Coq Require Import Reals Lra.
From Verif Require Import Common Prod_model Prod_proofs Scaling_model Scaling_spec.
Open Scope R_scope.

(* ---------- powers ---------- *)
Lemma rp_pos x y : 0 < Rpower x y. Proof. apply exp_pos. Qed.
Lemma rp_lt a b y : 0 < a -> a < b -> 0 < y -> Rpower a y < Rpower b y.
Proof.
  intros A B Y. unfold Rpower. apply exp_increasing. apply Rmult_lt_compat_l; [exact Y|].
  apply ln_increasing; assumption.
Qed.
Lemma rp_le a b y : 0 < a -> a <= b -> 0 <= y -> Rpower a y <= Rpower b y.
Proof. intros. apply Rle_Rpower_l; [assumption|lra]. Qed.
Lemma rp_le_neg a b y : 0 < a -> a <= b -> y <= 0 -> Rpower b y <= Rpower a y.
Proof.
  intros A B Y. replace y with (- (- y)) by ring. rewrite !(Rpower_Ropp _ (- y)).
  apply Rinv_le_contravar; [apply rp_pos|]. apply rp_le; lra.
Qed.
Lemma ln_half : 1 / 2 <= ln 2.
Proof.
  assert (E : exp (1 / 2) <= 2).
  { assert (X : exp (1 / 2) * exp (1 / 2) <= 3).
    { rewrite <- exp_plus. replace (1 / 2 + 1 / 2) with 1 by lra. apply exp_le_3. }
    pose proof (exp_pos (1 / 2)). nra. }
  rewrite <- (ln_exp (1 / 2)). destruct (Req_dec (exp (1/2)) 2) as [H|H].
  - rewrite H. lra.
  - left. apply ln_increasing; [apply exp_pos|lra].
Qed.
Lemma ln_le_minus x : 0 < x -> ln x <= x - 1.
Proof.
  intros H. destruct (Req_dec x 1) as [->|N]; [rewrite ln_1; lra|].
  assert (E : exp (ln x) = x) by (apply exp_ln, H).
  destruct (Req_dec (ln x) 0) as [Z|Z].
  - rewrite Z, exp_0 in E. lra.
  - pose proof (exp_ineq1 (ln x) Z). lra.
Qed.
Lemma ln_inv' x : 0 < x -> ln (/ x) = - ln x.
Proof. intros. apply ln_Rinv. assumption. Qed.

(* ---------- what the constructors guarantee ---------- *)
Record wf (s : scaling) : Prop := {
  wf_s : 1 < simple_factor s; wf_c : complex_factor s = 1.02;
  wf_e : 0.0789 <= final_exp s <= 0.155;
  wf_T : 0 < transition s; wf_n : 0 < nominal s }.

Lemma built_wf s : built s -> wf s.
Proof.
  intros [st g mc b1 b2 z G B1 B2|st g G].
  - unfold bounded_norm in *. destruct mc; constructor; simpl; try lra; try apply rp_pos.
    apply Rmult_lt_reg_r with b1; [lra|]. unfold Rdiv. rewrite Rmult_assoc, Rinv_l; lra.
  - constructor; simpl; try lra; destruct st; try lra; apply Rmult_lt_0_compat; try lra; apply rp_pos.
Qed.
Lemma det_wf s : deterministic s -> wf s /\ transition s = nominal s /\ simple_factor s = 1 / 0.84.
Proof.
  intros [B M]. split; [apply built_wf, B|]. destruct B as [st g mc b1 b2 z G B1 B2|st g G].
  - destruct mc; simpl in *; [discriminate|]. auto.
  - simpl. auto.
Qed.

(* ---------- the complex branch ---------- *)
Section Complex.
Variable s : scaling.
Hypothesis W : wf s.
Local Notation e := (final_exp s).
Local Notation T := (transition s).
Local Notation c := (complex_factor s).
Local Notation k := (simple_factor s).

Lemma f2tc_pos D : 0 < D -> 0 < f2t_complex s D.
Proof.
  intros H. destruct W. unfold f2t_complex. apply Rmult_lt_0_compat; [|apply rp_pos].
  apply Rmult_lt_0_compat; [assumption|]. apply Rinv_0_lt_compat. nra.
Qed.
Lemma f2tc_eq D : 0 < D -> f2t_complex s D = Rpower D (1 - e) * (Rpower T e / (k * c)).
Proof.
  intros H. destruct W. unfold f2t_complex.
  assert (E : Rpower (D / T) (- e) = Rpower D (- e) * Rpower T e).
  { unfold Rdiv. rewrite <- Rpower_mult_distr by (try apply Rinv_0_lt_compat; assumption).
    f_equal. unfold Rpower. rewrite ln_inv' by assumption. f_equal. ring. }
  rewrite E. replace (1 - e) with (1 + - e) by ring. rewrite Rpower_plus, Rpower_1 by assumption. field. nra.
Qed.
Lemma coef_pos : 0 < Rpower T e / (k * c).
Proof.
  destruct W. apply Rmult_lt_0_compat; [apply rp_pos|]. apply Rinv_0_lt_compat. nra.
Qed.
Lemma f2tc_lt x y : 0 < x -> x < y -> f2t_complex s x < f2t_complex s y.
Proof.
  intros X Y. rewrite !f2tc_eq by lra. apply Rmult_lt_compat_r; [apply coef_pos|].
  destruct W. apply rp_lt; lra.
Qed.
Lemma f2tc_inj x y : 0 < x -> 0 < y -> f2t_complex s x = f2t_complex s y -> x = y.
Proof.
  intros X Y E. destruct (Rtotal_order x y) as [L|[L|L]]; [|assumption|].
  - pose proof (f2tc_lt x y X L). lra.
  - pose proof (f2tc_lt y x Y L). lra.
Qed.
Lemma f2tc_le_inv x y : 0 < x -> 0 < y -> f2t_complex s x <= f2t_complex s y -> x <= y.
Proof. intros X Y E. destruct (Rle_dec x y); [assumption|]. pose proof (f2tc_lt y x Y ltac:(lra)). lra. Qed.

(** The inverse. *)
Definition cinv (Dt : R) : R := Rpower (Dt / (Rpower T e / (k * c))) (/ (1 - e)).
Lemma cinv_ok Dt : 0 < Dt -> 0 < cinv Dt /\ f2t_complex s (cinv Dt) = Dt.
Proof.
  intros H. assert (P : 0 < cinv Dt) by apply rp_pos. split; [assumption|].
  rewrite f2tc_eq by assumption. unfold cinv. rewrite Rpower_mult.
  destruct W. rewrite Rinv_l by lra.
  rewrite Rpower_1; [field; split; [|]; try (pose proof (rp_pos T e)); nra|].
  apply Rmult_lt_0_compat; [assumption|]. apply Rinv_0_lt_compat, coef_pos.
Qed.

(** The bracket. *)
Lemma bracket_value q Dt : 0 < q -> 0 < Dt ->
  f2t_complex s (q * (Dt * k)) = Dt * (Rpower q (1 - e) / c / Rpower (Dt * k / T) e).
Proof.
  intros Q D. destruct W. unfold f2t_complex.
  assert (PY : 0 < Dt * k / T).
  { apply Rmult_lt_0_compat; [nra|]. apply Rinv_0_lt_compat; assumption. }
  replace (q * (Dt * k) / T) with (q * (Dt * k / T)) by (unfold Rdiv; ring).
  rewrite <- Rpower_mult_distr by assumption. rewrite !Rpower_Ropp.
  replace (1 - e) with (1 + - e) by ring. rewrite Rpower_plus, Rpower_1, Rpower_Ropp by assumption.
  pose proof (rp_pos q e). pose proof (rp_pos (Dt * k / T) e). field. nra.
Qed.
Lemma bracket_le q Dt : 0 < q -> 0 < Dt ->
  (f2t_complex s (q * (Dt * k)) <= Dt <-> Rpower q (1 - e) / c <= Rpower (Dt * k / T) e) /\
  (Dt <= f2t_complex s (q * (Dt * k)) <-> Rpower (Dt * k / T) e <= Rpower q (1 - e) / c).
Proof.
  intros Q D. rewrite (bracket_value q Dt Q D).
  set (Y := Rpower (Dt * k / T) e). set (Z := Rpower q (1 - e) / c).
  assert (PY : 0 < Y) by apply rp_pos.
  assert (E : Z = Z / Y * Y) by (field; lra).
  split; split; intros H.
  - assert (Z / Y <= 1) by (apply Rmult_le_reg_l with Dt; lra). rewrite E. nra.
  - assert (Z / Y <= 1); [|nra]. apply Rmult_le_reg_r with Y; [assumption|]. rewrite <- E. lra.
  - assert (1 <= Z / Y) by (apply Rmult_le_reg_l with Dt; lra). rewrite E. nra.
  - assert (1 <= Z / Y); [|nra]. apply Rmult_le_reg_r with Y; [assumption|]. rewrite <- E. lra.
Qed.

Definition lo (Dt : R) := 0.1 * (Dt * k).
Definition hi (Dt : R) := 10 * (Dt * k).
Lemma solvable_bracket Dt : 0 < Dt ->
  (solvable s Dt <-> f2t_complex s (lo Dt) <= Dt <= f2t_complex s (hi Dt)).
Proof.
  intros D. unfold solvable, lo, hi.
  destruct (bracket_le 0.1 Dt ltac:(lra) D) as [A _]. destruct (bracket_le 10 Dt ltac:(lra) D) as [_ B].
  replace (1 / 10) with 0.1 by lra. tauto.
Qed.
Lemma lo_hi_pos Dt : 0 < Dt -> 0 < lo Dt /\ lo Dt < hi Dt.
Proof. intros. destruct W. unfold lo, hi. split; nra. Qed.

Lemma brent_ok Dt r : 0 < Dt -> brentq (fun D => f2t_complex s D - Dt) (lo Dt) (hi Dt) r ->
  (r = Ok (cinv Dt) /\ solvable s Dt) \/ (r = Err ValueError /\ ~ solvable s Dt).
Proof.
  intros D H. destruct (lo_hi_pos Dt D) as [L1 L2]. pose proof (f2tc_lt _ _ L1 L2) as M.
  rewrite (solvable_bracket Dt D). inversion H as [S E|x S X F E]; subst.
  - right. split; [reflexivity|]. intros [A B]. nra.
  - left. destruct (cinv_ok Dt D) as [P Q]. split.
    + f_equal. apply f2tc_inj; [lra|assumption|]. lra.
    + split.
      * destruct (Req_dec x (lo Dt)) as [->|N]; [lra|]. pose proof (f2tc_lt (lo Dt) x L1 ltac:(lra)). lra.
      * destruct (Req_dec x (hi Dt)) as [->|N]; [lra|]. pose proof (f2tc_lt x (hi Dt) ltac:(lra) ltac:(lra)). lra.
Qed.
Lemma brent_complete Dt : 0 < Dt ->
  (solvable s Dt -> brentq (fun D => f2t_complex s D - Dt) (lo Dt) (hi Dt) (Ok (cinv Dt))) /\
  (~ solvable s Dt -> brentq (fun D => f2t_complex s D - Dt) (lo Dt) (hi Dt) (Err ValueError)).
Proof.
  intros D. destruct (lo_hi_pos Dt D) as [L1 L2]. pose proof (f2tc_lt _ _ L1 L2) as M.
  destruct (cinv_ok Dt D) as [P Q]. rewrite (solvable_bracket Dt D). split; intros H.
  - apply brentq_root; [nra| |lra]. split; apply f2tc_le_inv; lra.
  - apply brentq_sign. destruct (Rlt_dec Dt (f2t_complex s (lo Dt))); [nra|].
    destruct (Rlt_dec (f2t_complex s (hi Dt)) Dt); [nra|]. exfalso. apply H. lra.
Qed.
End Complex.

(* ---------- the transient -> final -> transient round trip ---------- *)
Lemma morph_err s D u e : get_morphology_type s D u = Err e -> D <= 0.
Proof.
  unfold get_morphology_type. destruct (Rle_dec D 0); [auto|].
  destruct (Rlt_dec D _); [discriminate|]. destruct (Rlt_dec _ D); [discriminate|].
  destruct (monte_carlo s); [|discriminate]. destruct (Rlt_dec D _); discriminate.
Qed.
Lemma morph_ok s D u : 0 < D -> exists m, get_morphology_type s D u = Ok m.
Proof.
  intros H. destruct (get_morphology_type s D u) eqn:E; [eauto|]. apply morph_err in E. lra.
Qed.

Definition t2f_result (s : scaling) (Dt u0 u1 u2 : R) : result (R * mtype) :=
  let Ds := Dt * simple_factor s in let Dc := cinv s Dt in
  rbind (get_morphology_type s Ds u0) (fun m0 =>
  rbind (get_morphology_type s Dc u1) (fun m1 => choose_final s Ds Dc m0 m1 u2)).

Lemma t2f_char s Dt u0 u1 u2 r : wf s -> 0 < Dt ->
  (transient_to_final s Dt u0 u1 u2 r <->
   (solvable s Dt /\ r = t2f_result s Dt u0 u1 u2) \/ (~ solvable s Dt /\ r = Err ValueError)).
Proof.
  intros W D. split.
  - intros H. inversion H as [L|e L B|Dc L B]; subst.
    + lra.
    + destruct (brent_ok s W Dt _ D B) as [[E S]|[E S]]; [discriminate|]. injection E as <-. auto.
    + destruct (brent_ok s W Dt _ D B) as [[E S]|[E S]]; [|discriminate]. injection E as ->. auto.
  - destruct (brent_complete s W Dt D) as [A B]. intros [[S ->]|[S ->]].
    + apply (t2f_root s Dt u0 u1 u2 (cinv s Dt) D (A S)).
    + apply (t2f_solver s Dt u0 u1 u2 ValueError D (B S)).
Qed.

Lemma choose_cases s Ds Dc m0 m1 u D m : choose_final s Ds Dc m0 m1 u = Ok (D, m) ->
  (D = Ds /\ m = Simple /\ (m0 = Simple \/ m1 = Simple)) \/ (D = Dc /\ m <> Simple /\ (m0 <> Simple \/ m1 <> Simple)).
Proof.
  unfold choose_final, choice2.
  destruct m0, m1; simpl; try (intros H; injection H as <- <-; intuition (try discriminate; auto); fail);
    try (destruct (Req_EM_T _ _); [discriminate|]; destruct (Rlt_dec _ _); intros H; injection H as <- <-;
         intuition (try discriminate; auto); fail).
  - destruct (monte_carlo s); [destruct (Rlt_dec _ _)|]; intros H; injection H as <- <-; right; intuition discriminate.
  - destruct (monte_carlo s); [destruct (Rlt_dec _ _)|]; intros H; injection H as <- <-; right; intuition discriminate.
Qed.

Lemma transient_round_trip s Dt u0 u1 u2 D m : built s ->
  transient_to_final s Dt u0 u1 u2 (Ok (D, m)) ->
  0 < D /\ forall u, final_to_transient s D (Some m) u = Ok (Dt, m).
Proof.
  intros B H. assert (W := built_wf s B).
  destruct (Rlt_dec 0 Dt) as [P|P]; [|inversion H; subst; lra].
  apply (t2f_char s Dt u0 u1 u2 _ W P) in H. destruct H as [[S H]|[S H]]; [|discriminate].
  unfold t2f_result in H. destruct (cinv_ok s W Dt P) as [Q1 Q2].
  assert (Q3 : 0 < Dt * simple_factor s) by (destruct W; nra).
  destruct (morph_ok s _ u0 Q3) as [m0 E0]. destruct (morph_ok s _ u1 Q1) as [m1 E1].
  rewrite E0, E1 in H. cbn [rbind] in H. symmetry in H. apply choose_cases in H.
  destruct H as [(-> & -> & _)|(-> & N & _)]; (split; [assumption|]); intros u; unfold final_to_transient.
  - destruct (Rle_dec _ 0); [lra|]. cbn [rbind]. f_equal. f_equal. unfold f2t_simple. field. destruct W. lra.
  - destruct (Rle_dec _ 0); [lra|]. cbn [rbind]. rewrite Q2. destruct m; [contradiction|reflexivity|reflexivity].
Qed.

Lemma t2f_total s Dt u0 u1 u2 : built s -> 0 < Dt ->
  (~ solvable s Dt -> forall r, transient_to_final s Dt u0 u1 u2 r <-> r = Err ValueError) /\
  (solvable s Dt -> exists r, transient_to_final s Dt u0 u1 u2 r /\
     (forall r', transient_to_final s Dt u0 u1 u2 r' -> r' = r) /\
     (r = Err ZeroDivisionError \/ exists D m, r = Ok (D, m)) /\
     (monte_carlo s = false -> r <> Err ZeroDivisionError)).
Proof.
  intros B P. assert (W := built_wf s B). split.
  - intros S r. rewrite (t2f_char s Dt u0 u1 u2 r W P). split; [intros [[A _]|[_ A]]; [contradiction|exact A]|intros ->; right; auto].
  - intros S. exists (t2f_result s Dt u0 u1 u2). split; [apply t2f_char; auto|]. split.
    + intros r' H. apply (t2f_char s Dt u0 u1 u2 r' W P) in H. destruct H as [[_ H]|[H _]]; [exact H|contradiction].
    + destruct (cinv_ok s W Dt P) as [Q1 Q2]. assert (Q3 : 0 < Dt * simple_factor s) by (destruct W; nra).
      destruct (morph_ok s _ u0 Q3) as [m0 E0]. destruct (morph_ok s _ u1 Q1) as [m1 E1].
      unfold t2f_result. rewrite E0, E1. cbn [rbind]. split.
      * unfold choose_final. destruct m0, m1; simpl; eauto; destruct (Req_EM_T _ _); auto; destruct (Rlt_dec _ _); eauto.
      * intros M Z. assert (E : Dt * simple_factor s = cinv s Dt).
        { unfold choose_final in Z. destruct m0, m1; simpl in Z; try discriminate;
            destruct (Req_EM_T _ _); try lra; destruct (Rlt_dec _ _); discriminate. }
        rewrite <- E in E1. assert (E0' := E0). unfold get_morphology_type in E0, E1. rewrite M in *.
        assert (m0 = m1) by congruence. subst m1. unfold choose_final in Z. destruct m0; simpl in Z; discriminate.
Qed.

(* ---------- deterministic scaling ---------- *)
Lemma two_pow e : 0.0789 <= e <= 0.155 -> 1.02 < Rpower 2 e /\ Rpower 2 e < 2.
Proof.
  intros H. split.
  - rewrite <- (exp_ln 1.02) by lra. unfold Rpower. apply exp_increasing.
    pose proof (ln_le_minus 1.02 ltac:(lra)). pose proof ln_half. nra.
  - rewrite <- (Rpower_1 2) at 2 by lra. apply Rpower_lt; lra.
Qed.

Definition gsimple (s : scaling) (D : R) : R := f2t_complex s D * simple_factor s.
Lemma gsimple_lt s x y : wf s -> 0 < x -> x < y -> gsimple s x < gsimple s y.
Proof. intros W X Y. unfold gsimple. pose proof (f2tc_lt s W x y X Y). destruct W. nra. Qed.
Lemma gsimple_at s q : wf s -> 0 < q -> gsimple s (q * transition s) = q * transition s / 1.02 * Rpower q (- final_exp s).
Proof.
  intros W Q. unfold gsimple, f2t_complex. destruct W.
  replace (q * transition s / transition s) with q by (field; lra). rewrite wf_c0. field. lra.
Qed.
Lemma gsimple_half s : wf s -> transition s / 2 < gsimple s (1 / 2 * transition s).
Proof.
  intros W. rewrite gsimple_at by (auto; lra). destruct (two_pow (final_exp s) ltac:(destruct W; lra)) as [A _].
  assert (E : Rpower (1 / 2) (- final_exp s) = Rpower 2 (final_exp s)).
  { unfold Rpower. replace (1 / 2) with (/ 2) by lra. rewrite ln_inv' by lra. f_equal. ring. }
  rewrite E. destruct W. apply Rmult_lt_reg_r with 1.02; [lra|].
  replace (1 / 2 * transition s / 1.02 * Rpower 2 (final_exp s) * 1.02) with (transition s / 2 * Rpower 2 (final_exp s)) by (field; lra).
  nra.
Qed.
Lemma gsimple_two s : wf s -> transition s / 2 < gsimple s (2 * transition s) < 2 * transition s.
Proof.
  intros W. rewrite gsimple_at by (auto; lra). destruct (two_pow (final_exp s) ltac:(destruct W; lra)) as [A B].
  rewrite Rpower_Ropp. set (p := Rpower 2 (final_exp s)) in *.
  assert (I1 : / p < / 1.02) by (apply Rinv_lt_contravar; nra).
  assert (I2 : / 2 < / p) by (apply Rinv_lt_contravar; nra).
  assert (I0 : 0 < / p) by (apply Rinv_0_lt_compat; lra).
  destruct W. split.
  - assert (X : transition s * / 2 < transition s * / p) by (apply Rmult_lt_compat_l; assumption). nra.
  - nra.
Qed.

Lemma morph_det s D u : monte_carlo s = false -> 0 < D ->
  get_morphology_type s D u =
    Ok (if Rlt_dec D (0.5 * nominal s) then Simple else if Rlt_dec (2 * nominal s) D then Complex else Transitional).
Proof.
  intros M P. unfold get_morphology_type. rewrite M. destruct (Rle_dec D 0); [lra|].
  destruct (Rlt_dec D _); [reflexivity|]. destruct (Rlt_dec _ D); reflexivity.
Qed.

Lemma cinv_f2tc s D : wf s -> 0 < D -> cinv s (f2t_complex s D) = D.
Proof.
  intros W P. destruct (cinv_ok s W (f2t_complex s D) (f2tc_pos s W D P)) as [A B].
  apply (f2tc_inj s W); assumption.
Qed.

Lemma final_round_trip s D u Dt m : deterministic s -> final_to_transient s D None u = Ok (Dt, m) ->
  solvable s Dt -> forall u0 u1 u2 r, transient_to_final s Dt u0 u1 u2 r <->
    r = Ok (D, if Rlt_dec (2 * nominal s) D
               then if Rlt_dec (2 * nominal s) (Dt * simple_factor s) then Complex else Transitional else m).
Proof.
  intros Det H Sv u0 u1 u2 r. destruct (det_wf s Det) as (W & TN & SF). destruct Det as [B M].
  unfold final_to_transient in H. destruct (Rle_dec D 0) as [|NP]; [discriminate|].
  assert (P : 0 < D) by lra. rewrite (morph_det s D u M P) in H. cbn [rbind] in H. injection H as H1 H2.
  assert (PDt : 0 < Dt).
  { pose proof (f2tc_pos s W D P). assert (0 < f2t_simple s D).
    { unfold f2t_simple. destruct W. apply Rmult_lt_0_compat; [assumption|]. apply Rinv_0_lt_compat. lra. }
    rewrite <- H1. destruct (Rlt_dec D _); [assumption|]. destruct (Rlt_dec _ D); assumption. }
  assert (PT : 0 < transition s) by (destruct W; assumption).
  rewrite (t2f_char s Dt u0 u1 u2 r W PDt).
  assert (R1 : t2f_result s Dt u0 u1 u2 = Ok (D, if Rlt_dec (2 * nominal s) D
               then if Rlt_dec (2 * nominal s) (Dt * simple_factor s) then Complex else Transitional else m)).
  { unfold t2f_result. destruct (cinv_ok s W Dt PDt) as [Q1 Q2].
    assert (Q3 : 0 < Dt * simple_factor s) by (destruct W; nra).
    rewrite !(morph_det s _ _ M) by assumption. cbn [rbind].
    destruct (Rlt_dec D (0.5 * nominal s)) as [A|A].
    - (* simple *)
      cbn beta iota in H1, H2. subst m.
      assert (E : Dt * simple_factor s = D).
      { rewrite <- H1. unfold f2t_simple. field. lra. }
      rewrite E. destruct (Rlt_dec (2 * nominal s) D); [rewrite <- TN in *; lra|].
      assert (C : cinv s Dt < D).
      { destruct (Rlt_dec (cinv s Dt) D); [assumption|]. exfalso.
        assert (G : f2t_complex s D <= Dt).
        { rewrite <- Q2. destruct (Req_dec D (cinv s Dt)) as [<-|]; [lra|]. left. apply (f2tc_lt s W); lra. }
        (* gsimple D <= D, but gsimple D > D below half of the transition *)
        assert (K : D < gsimple s D).
        { replace D with (D / transition s * transition s) at 2 by (field; lra).
          rewrite gsimple_at; [|assumption|apply Rmult_lt_0_compat; [assumption|apply Rinv_0_lt_compat; assumption]].
          replace (D / transition s * transition s) with D by (field; lra).
          assert (Y : Rpower (1 / 2) (- final_exp s) <= Rpower (D / transition s) (- final_exp s)).
          { destruct W. apply rp_le_neg; [apply Rmult_lt_0_compat; [assumption|apply Rinv_0_lt_compat; assumption]| |lra].
            apply Rmult_le_reg_r with (transition s); [assumption|]. unfold Rdiv at 1. rewrite Rmult_assoc, Rinv_l, Rmult_1_r by lra. lra. }
          assert (E2 : Rpower (1 / 2) (- final_exp s) = Rpower 2 (final_exp s)).
          { unfold Rpower. replace (1 / 2) with (/ 2) by lra. rewrite ln_inv' by lra. f_equal. ring. }
          rewrite E2 in Y. destruct (two_pow (final_exp s) ltac:(destruct W; lra)) as [Z _].
          apply Rmult_lt_reg_r with 1.02; [lra|].
          replace (D / 1.02 * Rpower (D / transition s) (- final_exp s) * 1.02) with (D * Rpower (D / transition s) (- final_exp s)) by (field; lra).
          nra. }
        unfold gsimple in K. assert (0 < simple_factor s) by (destruct W; lra). nra. }
      destruct (Rlt_dec (cinv s Dt) (0.5 * nominal s)); [|lra].
      destruct (Rlt_dec D (0.5 * nominal s)); [|lra]. reflexivity.
    - assert (F : f2t_complex s D = Dt) by (rewrite <- H1; destruct (Rlt_dec (2 * nominal s) D); reflexivity).
      assert (C : cinv s Dt = D) by (rewrite <- F; apply cinv_f2tc; assumption).
      assert (G : Dt * simple_factor s = gsimple s D) by (rewrite <- F; reflexivity).
      rewrite C, G. destruct (Rlt_dec D (0.5 * nominal s)); [lra|].
      pose proof (gsimple_half s W). pose proof (gsimple_two s W).
      assert (L : transition s / 2 < gsimple s D).
      { destruct (Req_dec D (1 / 2 * transition s)) as [->|N]; [assumption|].
        eapply Rlt_trans; [eassumption|]. apply gsimple_lt; [assumption|lra|rewrite <- TN in *; lra]. }
      destruct (Rlt_dec (gsimple s D) (0.5 * nominal s)); [rewrite <- TN in *; lra|].
      destruct (Rlt_dec (2 * nominal s) D) as [X|X].
      + destruct (Rlt_dec (2 * nominal s) (gsimple s D)); unfold choose_final; rewrite M; reflexivity.
      + subst m. assert (U : gsimple s D <= 2 * transition s).
        { destruct (Req_dec D (2 * transition s)) as [->|N]; [lra|].
          assert (gsimple s D < gsimple s (2 * transition s)) by (apply gsimple_lt; [assumption|lra|rewrite <- TN in *; lra]). lra. }
        destruct (Rlt_dec (2 * nominal s) (gsimple s D)); [rewrite <- TN in *; lra|]. reflexivity. }
  rewrite R1. split; [intros [[_ X]|[X _]]; [exact X|contradiction]|intros ->; left; auto].
Qed.

Lemma solvable_window s Dt : built s ->
  1 / 100000 * transition s <= Dt * simple_factor s <= 100000 * transition s -> solvable s Dt.
Proof.
  intros B H. assert (W := built_wf s B). destruct W. unfold solvable. rewrite wf_c0.
  set (e := final_exp s) in *. set (y := Dt * simple_factor s / transition s).
  assert (Y : 1 / 100000 <= y <= 100000).
  { unfold y. split; apply Rmult_le_reg_r with (transition s); try assumption;
      unfold Rdiv; rewrite ?Rmult_assoc, ?Rinv_l, ?Rmult_1_r by lra; lra. }
  assert (T5 : Rpower 10 5 = 100000).
  { replace 5 with (INR 5) by (simpl; lra). rewrite Rpower_pow by lra. simpl. lra. }
  assert (P5 : Rpower 100000 e = Rpower 10 (5 * e)) by (rewrite <- T5 at 1; apply Rpower_mult).
  assert (M5 : Rpower (1 / 100000) e = Rpower 10 (- (5 * e))).
  { replace (1 / 100000) with (/ Rpower 10 5) by (rewrite T5; lra). unfold Rpower at 1.
    rewrite ln_inv' by apply rp_pos. unfold Rpower. rewrite ln_exp. f_equal. ring. }
  assert (TE : Rpower (1 / 10) (1 - e) = Rpower 10 (- (1 - e))).
  { replace (1 / 10) with (/ 10) by lra. unfold Rpower. rewrite ln_inv' by lra. f_equal. ring. }
  rewrite TE. split.
  - apply Rle_trans with (Rpower (1 / 100000) e); [|apply rp_le; lra]. rewrite M5.
    apply Rle_trans with (Rpower 10 (- (1 - e))).
    + pose proof (rp_pos 10 (- (1 - e))). apply Rmult_le_reg_r with 1.02; [lra|]. unfold Rdiv. rewrite Rmult_assoc, Rinv_l; nra.
    + apply Rle_Rpower; lra.
  - apply Rle_trans with (Rpower 100000 e); [apply rp_le; lra|]. rewrite P5.
    apply Rmult_le_reg_r with 1.02; [lra|]. unfold Rdiv. rewrite Rmult_assoc, Rinv_l, Rmult_1_r by lra.
    apply Rle_trans with (Rpower 10 (5 * e) * Rpower 10 (7 / 100)).
    + apply Rmult_le_compat_l; [left; apply rp_pos|].
      rewrite <- (exp_ln 1.02) by lra. unfold Rpower.
      assert (L2 : 1 / 2 <= ln 10).
      { pose proof ln_half. assert (ln 2 < ln 10) by (apply ln_increasing; lra). lra. }
      pose proof (ln_le_minus 1.02 ltac:(lra)).
      destruct (Req_dec (ln 1.02) (7 / 100 * ln 10)) as [->|N]; [lra|]. left. apply exp_increasing. lra.
    + rewrite <- Rpower_plus. apply Rle_Rpower; lra.
Qed.

(* ---------- final craters are larger than transient ones ---------- *)
Lemma final_larger s Dt u0 u1 u2 D m : deterministic s ->
  transient_to_final s Dt u0 u1 u2 (Ok (D, m)) -> Dt < D.
Proof.
  intros Det H. destruct (det_wf s Det) as (W & TN & SF). destruct Det as [B M].
  destruct (Rlt_dec 0 Dt) as [P|P]; [|inversion H; subst; lra].
  apply (t2f_char s Dt u0 u1 u2 _ W P) in H. destruct H as [[S H]|[S H]]; [|discriminate].
  unfold t2f_result in H. destruct (cinv_ok s W Dt P) as [Q1 Q2].
  assert (Q3 : 0 < Dt * simple_factor s) by (destruct W; nra).
  rewrite !(morph_det s _ _ M) in H by assumption. cbn [rbind] in H. symmetry in H. apply choose_cases in H.
  destruct H as [(-> & -> & _)|(-> & N & X)]; [destruct W; nra|].
  destruct (Rlt_dec Dt (cinv s Dt)) as [|L]; [assumption|]. exfalso.
  set (x := cinv s Dt) in *. assert (WT := wf_T s W). set (T := transition s) in *.
  set (w := x / T). assert (PW : 0 < w) by (apply Rmult_lt_0_compat; [assumption|apply Rinv_0_lt_compat; assumption]).
  assert (XW : x = w * T) by (unfold w; field; lra).
  set (e := final_exp s) in *. assert (E := wf_e s W). fold e in E.
  assert (F : Dt = x / (1 / 0.84 * 1.02) * Rpower w (- e)).
  { rewrite <- Q2. unfold f2t_complex. fold T e w. rewrite (wf_c s W), SF. reflexivity. }
  assert (A1 : 1.02 / 0.84 <= Rpower w (- e)).
  { apply Rmult_le_reg_l with x; [assumption|]. replace (x * Rpower w (- e)) with (Dt * (1 / 0.84 * 1.02)) by (rewrite F at 1; field; lra). nra. }
  assert (LW : e * ln w <= - (1 - 0.84 / 1.02)).
  { rewrite <- (exp_ln (1.02 / 0.84)) in A1 by lra. unfold Rpower in A1.
    assert (A2 : ln (1.02 / 0.84) <= - e * ln w).
    { destruct (Rle_dec (ln (1.02 / 0.84)) (- e * ln w)) as [|Y]; [assumption|].
      pose proof (exp_increasing (- e * ln w) (ln (1.02 / 0.84)) ltac:(lra)). lra. }
    pose proof (ln_le_minus (0.84 / 1.02) ltac:(lra)). replace (ln (1.02 / 0.84)) with (- ln (0.84 / 1.02)) in A2.
    - lra.
    - rewrite <- ln_inv' by lra. f_equal. field; lra. }
  (* so x is far below half of the transition, and so is the simple diameter *)
  assert (DT : 0.42 * T <= Dt).
  { destruct (Rlt_dec (Dt * simple_factor s) (0.5 * nominal s)) as [Y|Y].
    - destruct (Rlt_dec x (0.5 * nominal s)) as [Z|Z].
      + destruct X as [X|X]; contradiction.
      + rewrite SF in Y. rewrite <- TN in *. fold T in Y, Z. lra.
    - rewrite SF in Y. rewrite <- TN in Y. fold T in Y. lra. }
  assert (F2 : Dt = T * (Rpower w (1 - e) / (1 / 0.84 * 1.02))).
  { rewrite F at 1. replace (1 - e) with (1 + - e) by ring. rewrite Rpower_plus, Rpower_1 by assumption. rewrite XW. field; lra. }
  assert (A3 : 0.51 <= Rpower w (1 - e)).
  { apply Rmult_le_reg_l with T; [assumption|]. replace (T * Rpower w (1 - e)) with (Dt * (1 / 0.84 * 1.02)) by (rewrite F2 at 1; field; lra). nra. }
  assert (A4 : - (1 / 0.51 - 1) <= (1 - e) * ln w).
  { rewrite <- (exp_ln 0.51) in A3 by lra. unfold Rpower in A3.
    assert (A5 : ln 0.51 <= (1 - e) * ln w).
    { destruct (Rle_dec (ln 0.51) ((1 - e) * ln w)) as [|Y]; [assumption|].
      pose proof (exp_increasing ((1 - e) * ln w) (ln 0.51) ltac:(lra)). lra. }
    pose proof (ln_le_minus (1 / 0.51) ltac:(lra)). replace (ln (1 / 0.51)) with (- ln 0.51) in *.
    - lra.
    - rewrite <- ln_inv' by lra. f_equal. field; lra. }
  assert (LN : ln w <= 0) by (assert (0 < e) by lra; nra).
  assert (e * ln w >= 0.155 * ln w) by nra.
  assert ((1 - e) * ln w <= 0.845 * ln w) by nra.
  lra.
Qed.

(* ---------- final_to_transient is increasing ---------- *)
Lemma f2t_increasing s D D' u u' Dt Dt' m m' : deterministic s -> D < D' ->
  final_to_transient s D None u = Ok (Dt, m) -> final_to_transient s D' None u' = Ok (Dt', m') -> Dt < Dt'.
Proof.
  intros Det L H H'. destruct (det_wf s Det) as (W & TN & SF). destruct Det as [B M].
  unfold final_to_transient in *. destruct (Rle_dec D 0); [discriminate|]. destruct (Rle_dec D' 0); [discriminate|].
  rewrite (morph_det s _ _ M) in H by lra. rewrite (morph_det s _ _ M) in H' by lra. cbn [rbind] in *. injection H as <- _. injection H' as <- _.
  assert (K := wf_s s W).
  assert (SI : 0 < / simple_factor s) by (apply Rinv_0_lt_compat; lra).
  destruct (Rlt_dec D (0.5 * nominal s)) as [A|A]; destruct (Rlt_dec D' (0.5 * nominal s)) as [A'|A'].
  - unfold f2t_simple. apply Rmult_lt_compat_r; assumption.
  - assert (X : f2t_simple s D < f2t_complex s D').
    { apply Rmult_lt_reg_r with (simple_factor s); [lra|]. fold (gsimple s D').
      unfold f2t_simple. replace (D / simple_factor s * simple_factor s) with D by (field; lra).
      pose proof (gsimple_half s W). rewrite <- TN in *.
      destruct (Req_dec D' (1 / 2 * transition s)) as [->|N]; [lra|].
      pose proof (gsimple_lt s (1 / 2 * transition s) D' W ltac:(destruct W; lra) ltac:(lra)). lra. }
    destruct (Rlt_dec _ D'); exact X.
  - lra.
  - pose proof (f2tc_lt s W D D' ltac:(lra) L).
    destruct (Rlt_dec _ D); destruct (Rlt_dec _ D'); assumption.
Qed.

Lemma type_changes s : deterministic s -> exists Dt, forall u u0 u1 u2,
  final_to_transient s (2.04 * nominal s) None u = Ok (Dt, Complex) /\
  transient_to_final s Dt u0 u1 u2 (Ok (2.04 * nominal s, Transitional)).
Proof.
  intros Det. assert (Det' := Det). destruct (det_wf s Det) as (W & TN & SF). destruct Det' as [B M].
  assert (N := wf_n s W). exists (f2t_complex s (2.04 * nominal s)). intros u u0 u1 u2.
  assert (H : final_to_transient s (2.04 * nominal s) None u = Ok (f2t_complex s (2.04 * nominal s), Complex)).
  { unfold final_to_transient. destruct (Rle_dec _ 0); [lra|]. rewrite (morph_det s _ _ M) by lra. cbn [rbind].
    destruct (Rlt_dec _ _); [lra|]. destruct (Rlt_dec _ _); [|lra]. reflexivity. }
  split; [exact H|].
  assert (G : gsimple s (2.04 * nominal s) = 2 * nominal s * Rpower 2.04 (- final_exp s)).
  { rewrite <- TN. rewrite gsimple_at by (auto; lra).
    replace (2.04 * transition s / 1.02) with (2 * transition s) by lra. reflexivity. }
  assert (E := wf_e s W).
  assert (PR : / 2.04 < Rpower 2.04 (- final_exp s) < 1).
  { split.
    - rewrite Rpower_Ropp. apply Rinv_lt_contravar; [apply Rmult_lt_0_compat; [apply rp_pos|lra]|].
      rewrite <- (Rpower_1 2.04) at 2 by lra. apply Rpower_lt; lra.
    - rewrite <- (Rpower_O 2.04) by lra. apply Rpower_lt; lra. }
  apply (final_round_trip s (2.04 * nominal s) u _ Complex Det H).
  - apply solvable_window; [assumption|]. fold (gsimple s (2.04 * nominal s)). rewrite G, TN. split; nra.
  - destruct (Rlt_dec _ _); [|lra]. destruct (Rlt_dec _ _) as [X|X]; [|reflexivity].
    exfalso. fold (gsimple s (2.04 * nominal s)) in X. rewrite G in X. nra.
Qed.

(* ---------- projectile ---------- *)
Lemma ppow_nonneg x y : 0 <= ppow x y.
Proof. unfold ppow. destruct (Rle_dec x 0); [lra|left; apply rp_pos]. Qed.
Lemma ppow_lt a b y : 0 <= a -> a < b -> 0 < y -> ppow a y < ppow b y.
Proof.
  intros A B Y. unfold ppow. destruct (Rle_dec b 0); [lra|]. destruct (Rle_dec a 0); [apply rp_pos|].
  apply rp_lt; lra.
Qed.

Definition tdiam (i : impact) (d : R) : R :=
  ppow (3 * (pivol i (d / 2) * (4 / 3 * PI * (d / 2) ^ 3 * projectile_density i / target_density i)) / PI) (1 / 3) * 2.

Lemma core_increasing A B c2 r r' : 0 < A -> 0 <= B -> -3 < c2 <= 0 -> 0 < r -> r < r' ->
  Rpower (A * r + B) c2 * r ^ 3 < Rpower (A * r' + B) c2 * r' ^ 3.
Proof.
  intros HA HB C P L.
  assert (X : forall q, 0 < q -> Rpower (A * q + B) c2 * q ^ 3 = Rpower q (3 + c2) * Rpower (A + B / q) c2).
  { intros q Q. replace (A * q + B) with (q * (A + B / q)) by (field; lra).
    assert (0 < A + B / q). { assert (0 <= B / q) by (apply Rmult_le_pos; [assumption|left; apply Rinv_0_lt_compat; assumption]). lra. }
    rewrite <- Rpower_mult_distr by assumption. rewrite Rpower_plus.
    replace (Rpower q 3) with (q ^ 3); [ring|]. replace 3 with (INR 3) by (simpl; lra). rewrite Rpower_pow by assumption. reflexivity. }
  rewrite !X by lra.
  assert (I : B / r' <= B / r).
  { apply Rmult_le_compat_l; [assumption|]. apply Rinv_le_contravar; lra. }
  assert (P' : 0 < A + B / r').
  { assert (0 <= B / r') by (apply Rmult_le_pos; [assumption|left; apply Rinv_0_lt_compat; lra]). lra. }
  apply Rlt_le_trans with (Rpower r' (3 + c2) * Rpower (A + B / r) c2).
  - apply Rmult_lt_compat_r; [apply rp_pos|]. apply rp_lt; lra.
  - apply Rmult_le_compat_l; [left; apply rp_pos|]. apply rp_le_neg; lra.
Qed.

Lemma p2t_form i d : good_impact i -> 0 < d -> projectile_to_transient i d = Ok (Rmax d (tdiam i d)).
Proof.
  intros (H1 & H2 & H3 & H4 & H5 & H6 & H7) P. unfold projectile_to_transient.
  destruct (Rle_dec d 0); [lra|]. destruct (Req_EM_T _ 0); [contradiction|]. f_equal.
  fold (tdiam i d).
  change (ppow (3 * (pivol i (d / 2) * (4 / 3 * PI * (d / 2) ^ 3 * projectile_density i / target_density i)) / PI) (1 / 3) * 2) with (tdiam i d).
  unfold Rmax. destruct (Rlt_dec (tdiam i d) d); destruct (Rle_dec d (tdiam i d)); lra.
Qed.

Lemma tdiam_increasing i d d' : good_impact i -> 0 < d -> d < d' -> tdiam i d <= tdiam i d' /\ (0 < K1 i -> tdiam i d < tdiam i d').
Proof.
  intros (H1 & H2 & H3 & H4 & H5 & H6 & H7) P L.
  set (A := gravity i / vertical_velocity i ^ 2 * Rpower (target_density i / projectile_density i) (- 1 / 3)).
  set (B := ppow (Ybar i / (target_density i * vertical_velocity i ^ 2)) (1 + 0.5 * mu i)).
  set (c2 := - 3 * mu i / (2 + mu i)).
  assert (V : 0 < vertical_velocity i ^ 2) by (simpl; nra).
  assert (PA : 0 < A).
  { apply Rmult_lt_0_compat; [|apply rp_pos]. apply Rmult_lt_0_compat; [assumption|]. apply Rinv_0_lt_compat; assumption. }
  assert (PB : 0 <= B) by apply ppow_nonneg.
  assert (C2 : -3 < c2 <= 0).
  { unfold c2. assert (I : 0 < / (2 + mu i)) by (apply Rinv_0_lt_compat; lra).
    assert (E : mu i * / (2 + mu i) = 1 - 2 * / (2 + mu i)) by (field; lra).
    replace (-3 * mu i / (2 + mu i)) with (-3 * (mu i * / (2 + mu i))) by (unfold Rdiv; ring).
    assert (0 <= mu i * / (2 + mu i)) by (apply Rmult_le_pos; lra). lra. }
  set (Q := 4 * projectile_density i / target_density i).
  assert (PQ : 0 < Q) by (apply Rmult_lt_0_compat; [lra|apply Rinv_0_lt_compat; assumption]).
  assert (F : forall x, tdiam i x = ppow (K1 i * Q * (Rpower (A * (x / 2) + B) c2 * (x / 2) ^ 3)) (1 / 3) * 2).
  { intros x. unfold tdiam, pivol. fold B c2. f_equal. f_equal. unfold Q.
    replace (gravity i * (x / 2) / vertical_velocity i ^ 2 * Rpower (target_density i / projectile_density i) (- 1 / 3)) with (A * (x / 2))
      by (unfold A, Rdiv; ring).
    pose proof PI_RGT_0. field. split; lra. }
  rewrite !F. pose proof (core_increasing A B c2 (d / 2) (d' / 2) PA PB C2 ltac:(lra) ltac:(lra)) as X.
  set (X1 := Rpower (A * (d / 2) + B) c2 * (d / 2) ^ 3) in *.
  set (X2 := Rpower (A * (d' / 2) + B) c2 * (d' / 2) ^ 3) in *.
  assert (PX : 0 < X1). { apply Rmult_lt_0_compat; [apply rp_pos|apply pow_lt; lra]. }
  split.
  - destruct (Req_dec (K1 i) 0) as [->|N].
    + rewrite !Rmult_0_l. lra.
    + assert (0 < K1 i * Q) by (apply Rmult_lt_0_compat; lra).
      apply Rmult_le_compat_r; [lra|]. left. apply ppow_lt; [nra|nra|lra].
  - intros K. assert (0 < K1 i * Q) by (apply Rmult_lt_0_compat; lra).
    apply Rmult_lt_compat_r; [lra|]. apply ppow_lt; [nra|nra|lra].
Qed.

Lemma p2t_laws i : good_impact i ->
  (forall d, 0 < d -> exists x, projectile_to_transient i d = Ok x /\ d <= x) /\
  (forall d d' x x', 0 < d -> d < d' -> projectile_to_transient i d = Ok x -> projectile_to_transient i d' = Ok x' -> x < x').
Proof.
  intros G. split.
  - intros d P. exists (Rmax d (tdiam i d)). split; [apply p2t_form; assumption|apply Rmax_l].
  - intros d d' x x' P L H H'. rewrite p2t_form in H, H' by (auto; lra). injection H as <-. injection H' as <-.
    destruct (tdiam_increasing i d d' G P L) as [M _].
    destruct (Req_dec (K1 i) 0) as [Z|Z].
    + assert (T0 : forall y, tdiam i y = 0).
      { intros y. unfold tdiam, pivol. rewrite Z. rewrite !Rmult_0_l. unfold ppow.
        replace (3 * 0 / PI) with 0 by (unfold Rdiv; ring). destruct (Rle_dec 0 0); lra. }
      rewrite !T0. rewrite !Rmax_left by lra. exact L.
    + destruct G as (G1 & G2). destruct (tdiam_increasing i d d' (conj G1 G2) P L) as [_ M'].
      specialize (M' ltac:(lra)). unfold Rmax. destruct (Rle_dec d _); destruct (Rle_dec d' _); lra.
Qed.

Lemma p2t_value_ok i d : good_impact i -> 0 < d -> projectile_to_transient i d = Ok (p2t_value i d).
Proof. intros G P. unfold p2t_value. rewrite p2t_form by assumption. reflexivity. Qed.

Lemma projectile_round_trip i Dt d : good_impact i ->
  transient_to_projectile i Dt (Ok d) -> 0 < d /\ projectile_to_transient i d = Ok Dt.
Proof.
  intros G H. inversion H as [| |r P V B E]; subst. inversion B as [|x S X F]; subst.
  assert (0 < d) by lra. split; [assumption|]. rewrite p2t_value_ok by assumption. f_equal. lra.
Qed.

Lemma projectile_inverse i d Dt : good_impact i -> 0 < d -> projectile_to_transient i d = Ok Dt ->
  (1 / 100000 * Dt <= d -> forall r, transient_to_projectile i Dt r <-> r = Ok d) /\
  (d < 1 / 100000 * Dt -> forall r, transient_to_projectile i Dt r <-> r = Err ValueError).
Proof.
  intros G P H. destruct (p2t_laws i G) as [L1 L2].
  assert (DD : d <= Dt). { destruct (L1 d P) as (x & X1 & X2). rewrite H in X1. injection X1 as <-. assumption. }
  assert (V : vertical_velocity i <> 0) by apply G.
  assert (VD : p2t_value i d - Dt = 0) by (unfold p2t_value; rewrite H; lra).
  assert (INC : forall x y, 0 < x -> x < y -> p2t_value i x < p2t_value i y).
  { intros x y X Y. apply (L2 x y); try assumption; apply p2t_value_ok; auto; lra. }
  assert (TOP : Dt < p2t_value i (1.2 * Dt)).
  { destruct (L1 (1.2 * Dt) ltac:(lra)) as (x & X1 & X2). unfold p2t_value. rewrite X1. lra. }
  split; intros C r; split.
  - intros X. inversion X as [| |r' Q V' B]; subst; [lra|contradiction|].
    inversion B as [S E|x S I F E]; subst.
    + exfalso. destruct (Req_dec (1 / 100000 * Dt) d) as [Y|Y]; [rewrite Y, VD in S; lra|].
      pose proof (INC (1 / 100000 * Dt) d ltac:(lra) ltac:(lra)). nra.
    + f_equal. destruct (Rtotal_order x d) as [Y|[Y|Y]]; [|assumption|].
      * pose proof (INC x d ltac:(lra) Y). lra.
      * pose proof (INC d x ltac:(lra) Y). lra.
  - intros ->. apply t2p_solver; [lra|assumption|]. apply brentq_root; [|lra|lra].
    destruct (Req_dec (1 / 100000 * Dt) d) as [Y|Y]; [rewrite Y, VD; lra|].
    pose proof (INC (1 / 100000 * Dt) d ltac:(lra) ltac:(lra)). nra.
  - intros X. inversion X as [| |r' Q V' B]; subst; [lra|contradiction|].
    inversion B as [S E|x S I F E]; subst; [reflexivity|].
    exfalso. pose proof (INC d x P ltac:(lra)). lra.
  - intros ->. apply t2p_solver; [lra|assumption|]. apply brentq_sign.
    pose proof (INC d (1 / 100000 * Dt) P ltac:(lra)). nra.
Qed.

(* ---------- morphology ---------- *)
Lemma morphology_law s D u : built s -> 0 < D -> 0 <= u < 1 ->
  (monte_carlo s = true ->
    (get_morphology_type s D u = Ok Simple <-> u < clip01 (2 * (nominal s - D) / nominal s)) /\
    (get_morphology_type s D u = Ok Complex <-> u < clip01 ((D - nominal s) / nominal s)) /\
    (get_morphology_type s D u = Ok Transitional <->
       clip01 (2 * (nominal s - D) / nominal s) + clip01 ((D - nominal s) / nominal s) <= u)) /\
  (monte_carlo s = false ->
    (get_morphology_type s D u = Ok Simple <-> D < nominal s / 2) /\
    (get_morphology_type s D u = Ok Complex <-> 2 * nominal s < D) /\
    (get_morphology_type s D u = Ok Transitional <-> nominal s / 2 <= D <= 2 * nominal s)).
Proof.
  intros B P U. assert (W := built_wf s B). assert (N := wf_n s W). split; intros M.
  - assert (IN : 0 < / nominal s) by (apply Rinv_0_lt_compat; assumption).
    assert (EQ : forall q, q * nominal s / nominal s = q) by (intros; field; lra).
    set (a := 2 * (nominal s - D) / nominal s). set (b := (D - nominal s) / nominal s).
    assert (AD : D = nominal s * (1 - a / 2)) by (unfold a; field; lra).
    assert (BD : D = nominal s * (1 + b)) by (unfold b; field; lra).
    unfold get_morphology_type. rewrite M. destruct (Rle_dec D 0); [lra|].
    unfold choice2, clip01.
    replace ((nominal s - D) / (nominal s - 0.5 * nominal s)) with a
      by (unfold a; replace (nominal s - 0.5 * nominal s) with (nominal s / 2) by lra; field; lra).
    replace ((D - nominal s) / (2 * nominal s - nominal s)) with b
      by (unfold b; replace (2 * nominal s - nominal s) with (nominal s) by ring; reflexivity).
    clearbody a b.
    destruct (Rlt_dec D (0.5 * nominal s)) as [C1|C1].
    + assert (1 < a) by nra. assert (b < 0) by nra.
      rewrite (Rmin_left 1 a), (Rmin_right 1 b), (Rmax_right 0 1), (Rmax_left 0 b) by lra.
      repeat split; intros; try reflexivity; try discriminate; lra.
    + destruct (Rlt_dec (2 * nominal s) D) as [C2|C2].
      * assert (a < 0) by nra. assert (1 < b) by nra.
        rewrite (Rmin_right 1 a), (Rmin_left 1 b), (Rmax_left 0 a), (Rmax_right 0 1) by lra.
        repeat split; intros; try reflexivity; try discriminate; lra.
      * destruct (Rlt_dec D (nominal s)) as [C3|C3].
        -- assert (0 < a) by nra. assert (a <= 1) by nra. assert (b < 0) by nra.
           rewrite (Rmin_right 1 a), (Rmin_right 1 b), (Rmax_right 0 a), (Rmax_left 0 b) by lra.
           destruct (Rlt_dec u a); repeat split; intros; try reflexivity; try discriminate; lra.
        -- assert (a <= 0) by nra. assert (0 <= b) by nra. assert (b <= 1) by nra.
           rewrite (Rmin_right 1 a), (Rmin_right 1 b), (Rmax_left 0 a), (Rmax_right 0 b) by lra.
           destruct (Rlt_dec u b); repeat split; intros; try reflexivity; try discriminate; lra.
  - rewrite (morph_det s D u M P). destruct (Rlt_dec D _); [|destruct (Rlt_dec _ D)];
      repeat split; intros; try reflexivity; try discriminate; lra.
Qed.

Lemma morph_invalid s D u : get_morphology_type s D u = Err ValueError <-> D <= 0.
Proof.
  split; [apply morph_err|]. intros H. unfold get_morphology_type. destruct (Rle_dec D 0); [reflexivity|lra].
Qed.

(** The type reported by transient_to_final. *)
Lemma reported_type_window s : deterministic s -> exists Dt, 0 < Dt /\ forall u0 u1 u2,
  transient_to_final s Dt u0 u1 u2 (Ok (nominal s / 2, Simple)) /\
  (forall u, get_morphology_type s (nominal s / 2) u = Ok Transitional) /\
  (forall u, exists Dt', final_to_transient s (nominal s / 2) None u = Ok (Dt', Transitional) /\ Dt < Dt').
Proof.
  intros Det. destruct (det_wf s Det) as (W & TN & SF). assert (Det' := Det). destruct Det' as [B M].
  assert (N := wf_n s W). exists (0.42 * nominal s). split; [lra|]. intros u0 u1 u2.
  assert (DS : 0.42 * nominal s * simple_factor s = nominal s / 2) by (rewrite SF; lra).
  assert (G := gsimple_half s W). rewrite TN in G.
  assert (K : forall u, get_morphology_type s (nominal s / 2) u = Ok Transitional).
  { intros u. rewrite (morph_det s _ _ M) by lra. destruct (Rlt_dec _ _); [lra|]. destruct (Rlt_dec _ _); [lra|]. reflexivity. }
  assert (F : 0.42 * nominal s < f2t_complex s (nominal s / 2)).
  { unfold gsimple in G. replace (1 / 2 * nominal s) with (nominal s / 2) in G by lra. rewrite SF in G. lra. }
  split; [|split; [exact K|]].
  - apply (t2f_char s _ u0 u1 u2 _ W); [lra|]. left. split.
    + apply solvable_window; [assumption|]. rewrite DS, TN. lra.
    + unfold t2f_result. rewrite DS, K. cbn [rbind].
      destruct (cinv_ok s W (0.42 * nominal s) ltac:(lra)) as [Q1 Q2]. set (Dc := cinv s (0.42 * nominal s)) in *.
      assert (L : Dc < nominal s / 2).
      { destruct (Rlt_dec Dc (nominal s / 2)) as [|Y]; [assumption|]. exfalso.
        destruct (Req_dec Dc (nominal s / 2)) as [Z|Z]; [rewrite Z in Q2; lra|].
        pose proof (f2tc_lt s W (nominal s / 2) Dc ltac:(lra) ltac:(lra)). lra. }
      rewrite (morph_det s Dc u1 M Q1). destruct (Rlt_dec Dc _); [|lra]. cbn [rbind].
      unfold choose_final. cbn [mtype_eqb orb]. rewrite M, TN.
      destruct (Req_EM_T _ 0); [lra|]. destruct (Rlt_dec _ _) as [Y|Y]; [reflexivity|]. exfalso. apply Y.
      rewrite (Rabs_left (Dc - nominal s)) by lra. rewrite (Rabs_right (nominal s / 2 - Dc)) by lra.
      apply Rmult_lt_reg_r with (nominal s / 2 - Dc); [lra|].
      unfold Rdiv. rewrite Rmult_assoc, Rinv_l, Rmult_1_r by lra. lra.
  - intros u. exists (f2t_complex s (nominal s / 2)). split; [|assumption].
    unfold final_to_transient. destruct (Rle_dec _ 0); [lra|]. rewrite K. reflexivity.
Qed.
