From Coq Require Import Reals ZArith List Lra Lia Psatz.
From Verif Require Import Common Hires_model Hires_rings Hires_grid Arb_model Arb_spec Arb_geom Arb_grid Arb_rows Arb_cover Arb_sep.
Import ListNotations.
Open Scope R_scope.

Section G.
Variable delta : R.
Hypothesis DP : 0 < delta.
Hypothesis N8 : (8 <= number delta)%Z.
Let d := sqrt (area delta).
Let n := IZR (number delta).
Let h := dtheta delta / 2.
Let M := IZR (mtheta delta).

Lemma h_range : 0 < h /\ h <= PI / 6 /\ 2 * M * h = PI.
Proof.
  destruct (dtheta_bounds delta DP N8) as [[A B] C]. destruct (d_sq delta N8) as [_ P]. destruct (M_spec delta DP N8) as [M3 _].
  fold M in C, M3. unfold h. split; [lra|]. split; [|lra].
  apply Rmult_le_reg_r with M; [lra|]. replace (dtheta delta / 2 * M) with (PI / 2) by lra.
  pose proof PI_lo. assert (PI / 6 * 3 <= PI / 6 * M) by (apply Rmult_le_compat_l; lra). lra.
Qed.
Lemma sin_h : h - h ^ 3 / 6 <= sin h < h.
Proof.
  destruct h_range as (A & B & _). pose proof PI_hi. split; [|apply sin_lt_x; exact A].
  pose proof (pre_sin_bound h 0 ltac:(lra) ltac:(lra)) as [L _]. unfold sin_approx, sin_term in L. cbn in L. lra.
Qed.
Lemma per_ring : 2 * PI / dphi delta = n * h.
Proof.
  pose proof (M_pos delta DP N8) as MP. pose proof PI_lo. destruct (n_spec delta N8) as [_ E]. fold n in E.
  unfold dphi, area, h, dtheta. fold n. field. lra.
Qed.
Lemma mphi_near k : (k < rings delta)%nat -> Rabs (INR (mp delta k) - 2 * PI * sin (T delta k) / dphi delta) <= / 2.
Proof.
  intro K. rewrite mp_INR. unfold mphi. set (x := 2 * PI * sin (T delta k) / dphi delta).
  pose proof PI_lo as PL. pose proof PI_hi as PH.
  assert (X : / 2 <= x).
  { pose proof (sinT delta DP N8 k K) as S0. pose proof (M_pos delta DP N8) as MP. fold M in S0, MP.
    destruct (M_spec delta DP N8) as [M3 [B C]]. fold M in M3, B, C. fold d in B, C. destruct (d_sq delta N8) as [_ P]. fold d in P.
    destruct (dphi_bounds delta DP N8) as [E F]. fold d in E, F.
    assert (DPH : 0 < dphi delta) by lra.
    unfold x. apply Rmult_le_reg_r with (dphi delta); [exact DPH|]. unfold Rdiv. rewrite Rmult_assoc, Rinv_l by lra.
    assert (Q : d <= 1.203 * PI * / M). { apply Rmult_le_reg_r with M; [exact MP|]. rewrite Rmult_assoc, Rinv_l by lra. lra. }
    assert (PI * / M <= PI * sin (T delta k)) by (apply Rmult_le_compat_l; lra). lra. }
  pose proof (round_near x) as Q. unfold Rabs in Q.
  destruct (Z_lt_le_dec (round x) 1) as [L|L].
  - replace (Z.max 1 (round x)) with 1%Z by lia. assert (Z0 : (round x <= 0)%Z) by lia. apply IZR_le in Z0.
    apply Rabs_le. destruct (Rcase_abs _); lra.
  - replace (Z.max 1 (round x)) with (round x) by lia. apply Rabs_le. destruct (Rcase_abs _); lra.
Qed.
Lemma partial_count q : (q <= rings delta)%nat ->
  Rabs (INR (List.length (List.concat (map (ring delta) (seq 0 q)))) - n * h * ((1 - cos (2 * INR q * h)) / (2 * sin h))) <= INR q / 2.
Proof.
  assert (SP : 0 < sin h) by (destruct h_range as (A & B & _); pose proof PI_lo; apply sin_gt_0; lra).
  induction q as [|q IH]; intro Q.
  - cbn. rewrite Rmult_0_r, Rmult_0_l, cos_0. replace (0 - n * h * ((1 - 1) / (2 * sin h))) with 0 by (field; lra). rewrite Rabs_R0. lra.
  - specialize (IH ltac:(lia)). rewrite seq_S, map_app, concat_app, app_length. cbn [map List.concat Nat.add]. rewrite app_nil_r.
    assert (LR : List.length (ring delta q) = mp delta q) by (unfold ring; rewrite map_length, seq_length; reflexivity).
    rewrite LR, plus_INR, S_INR. pose proof (mphi_near q ltac:(lia)) as MN.
    assert (TQ : T delta q = 2 * INR q * h + h) by (rewrite (T_eq delta DP N8); unfold h; field).
    assert (E : 2 * PI * sin (T delta q) / dphi delta = n * h * ((1 - cos (2 * (INR q + 1) * h)) / (2 * sin h)) - n * h * ((1 - cos (2 * INR q * h)) / (2 * sin h))).
    { replace (2 * PI * sin (T delta q) / dphi delta) with (2 * PI / dphi delta * sin (T delta q)) by (unfold Rdiv; ring).
      rewrite per_ring, TQ. set (A := 2 * INR q * h). replace (2 * (INR q + 1) * h) with ((A + h) + h) by (unfold A; ring).
      assert (I : cos A - cos (A + h + h) = 2 * sin (A + h) * sin h).
      { replace A with ((A + h) - h) at 1 by ring. rewrite cos_minus, (cos_plus (A + h) h). ring. }
      replace (n * h * ((1 - cos (A + h + h)) / (2 * sin h)) - n * h * ((1 - cos A) / (2 * sin h))) with (n * h * ((cos A - cos (A + h + h)) / (2 * sin h))) by (field; lra).
      rewrite I. field. lra. }
    rewrite E in MN. unfold Rabs in *. repeat destruct (Rcase_abs _); lra.
Qed.
Lemma count : Rabs (INR (List.length (keys delta)) - n) <= sqrt n / 2 + 3 / 2.
Proof.
  pose proof (partial_count (rings delta) (le_n _)) as C. fold (keys delta) in C.
  pose proof (m_nat delta DP N8) as MN. fold (rings delta) in MN. fold M in MN. rewrite MN in C.
  destruct h_range as (A & B & E). rewrite E, cos_PI in C. destruct sin_h as [L U]. pose proof PI_lo as PL. pose proof PI_hi as PH.
  assert (SP : 0 < sin h) by (apply sin_gt_0; lra).
  destruct (n_spec delta N8) as [_ NB]. fold n in NB.
  set (y := n * h * ((1 - -1) / (2 * sin h))) in *. assert (YE : y * sin h = n * h) by (unfold y; field; lra).
  assert (Y1 : n <= y). { apply Rmult_le_reg_r with (sin h); [exact SP|]. rewrite YE. apply Rmult_le_compat_l; lra. }
  assert (H2 : h ^ 2 <= 0.285) by nra.
  assert (Y2 : y <= n * (1 + h ^ 2 / 4)).
  { apply Rmult_le_reg_r with (sin h); [exact SP|]. rewrite YE. rewrite Rmult_assoc. apply Rmult_le_compat_l; [lra|].
    assert (X : h <= (1 + h ^ 2 / 4) * (h - h ^ 3 / 6)) by nra. eapply Rle_trans; [exact X|]. apply Rmult_le_compat_l; nra. }
  destruct (dtheta_bounds delta DP N8) as [[A1 B1] C1]. destruct (d_sq delta N8) as [Q P]. fold d in A1, B1, Q, P.
  assert (DN : d ^ 2 * n = 4 * PI) by (rewrite Q; unfold area; fold n; field; lra).
  assert (HD : h ^ 2 <= (0.6274 * d) ^ 2) by (apply pow_incr; unfold h; lra).
  assert (Y3 : n * h ^ 2 <= 5.0388).
  { eapply Rle_trans; [apply Rmult_le_compat_l; [lra|exact HD]|]. replace (n * (0.6274 * d) ^ 2) with (0.6274 ^ 2 * (d ^ 2 * n)) by ring. rewrite DN. lra. }
  pose proof (round_near (PI / d)) as RN. fold (mtheta delta) in RN.
  assert (RN' : M <= PI / d + / 2). { change (IZR (round (PI / d))) with M in RN. unfold Rabs in RN. destruct (Rcase_abs _); lra. }
  assert (SN : 0 <= sqrt n) by apply sqrt_pos. assert (SQ : sqrt n * sqrt n = n) by (apply sqrt_sqrt; lra).
  assert (PD : PI / d <= 0.8945 * sqrt n).
  { apply Rsqr_incr_0_var; [|lra]. unfold Rsqr.
    assert (X : PI / d * (PI / d) = PI * n / 4).
    { assert (N0 : n = 4 * PI / d ^ 2) by (rewrite <- DN; field; lra). rewrite N0. field. lra. }
    rewrite X. nra. }
  assert (S2 : 2.82 <= sqrt n). { apply Rsqr_incr_0_var; [unfold Rsqr; rewrite SQ; lra|exact SN]. }
  unfold Rabs in *. repeat destruct (Rcase_abs _); lra.
Qed.
End G.
