From Coq Require Import Reals ZArith List Lra Lia Psatz.
From Verif Require Import Common Hires_model Hires_rings Hires_grid Arb_model Arb_spec Arb_geom Arb_grid Arb_rows Arb_cover.
Import ListNotations.
Open Scope R_scope.

Lemma two_over_PI : 0.625 <= 2 / PI.
Proof.
  pose proof PI_lo. pose proof PI_hi. apply Rmult_le_reg_r with PI; [lra|]. unfold Rdiv. rewrite Rmult_assoc, Rinv_l by lra. lra.
Qed.

Section G.
Variable delta : R.
Hypothesis DP : 0 < delta.
Hypothesis N8 : (8 <= number delta)%Z.
Let d := sqrt (area delta).

Lemma sin_pos k : (k < rings delta)%nat -> 0 < sin (T delta k).
Proof.
  intro K. pose proof (sinT delta DP N8 k K). pose proof (M_pos delta DP N8).
  assert (0 < / IZR (mtheta delta)) by (apply Rinv_0_lt_compat; assumption). lra.
Qed.

Lemma ring_sep k j j' : (k < rings delta)%nat -> (j < mp delta k)%nat -> (j' < mp delta k)%nat -> j <> j' ->
  0.37 * d <= dist (sph2cart (at_key delta (k, j))) (sph2cart (at_key delta (k, j'))).
Proof.
  intros K J J' NE. pose proof PI_lo. pose proof PI_hi. destruct (dphi_bounds delta DP N8) as [A _]. destruct (d_sq delta N8) as [_ P]. fold d in A, P.
  pose proof (sin_pos k K) as SP. assert (DPH : 0 < dphi delta) by lra.
  assert (M2 : (2 <= mp delta k)%nat) by lia. assert (QP : 0 < INR (mp delta k)) by (apply (lt_INR 0); lia).
  destruct (spacing (2 * PI * sin (T delta k)) (dphi delta) DPH ltac:(nra)) as (N1 & _ & E2).
  fold (mphi delta (T delta k)) in *. destruct E2 as [L _].
  { unfold mp in M2. lia. }
  rewrite <- mp_INR in L.
  set (w := 2 * PI / INR (mp delta k)) in *. assert (W : 0 < w) by (apply Rdiv_lt_0_compat; lra).
  assert (WE : w * INR (mp delta k) = 2 * PI) by (unfold w; field; lra).
  assert (FJ : forall i, F delta k i = w * INR i) by (intro i; rewrite F_eq; unfold w; field; lra).
  assert (L' : 3 / 4 * dphi delta <= w * sin (T delta k)).
  { eapply Rle_trans; [exact L|]. right. unfold w. field. lra. }
  eapply Rle_trans; [|apply (chord_ring (T delta k) (F delta k j) (F delta k j') w)].
  - pose proof two_over_PI as TP.
    assert (0.625 * (3 / 4 * (0.797 * d)) <= 2 / PI * (w * sin (T delta k))).
    { apply Rmult_le_compat; lra. }
    replace (2 / PI * w * sin (T delta k)) with (2 / PI * (w * sin (T delta k))) by ring. lra.
  - lra.
  - lra.
  - rewrite !FJ. replace (w * INR j - w * INR j') with (w * (INR j - INR j')) by ring. rewrite Rabs_mult, (Rabs_right w) by lra.
    assert (G : forall a b, (a < b)%nat -> (b < mp delta k)%nat -> 1 <= INR b - INR a <= INR (mp delta k) - 1).
    { intros a b X Y. split; [|apply lt_INR in Y; pose proof (pos_INR a)].
      - apply (lt_INR) in X as X'. assert (INR a + 1 <= INR b) by (rewrite <- S_INR; apply le_INR; lia). lra.
      - assert (INR b + 1 <= INR (mp delta k)) by (rewrite <- S_INR; apply le_INR; apply INR_lt in Y; lia). lra. }
    assert (H1 : 1 <= Rabs (INR j - INR j') <= INR (mp delta k) - 1).
    { destruct (Nat.lt_ge_cases j j') as [X|X].
      - pose proof (G j j' X J'). rewrite Rabs_left; lra.
      - pose proof (G j' j ltac:(lia) J). rewrite Rabs_right; lra. }
    split; [nra|]. rewrite <- WE. nra.
Qed.

Lemma rings_sep k k' j j' : (k < rings delta)%nat -> (k' < rings delta)%nat -> k <> k' ->
  0.37 * d <= dist (sph2cart (at_key delta (k, j))) (sph2cart (at_key delta (k', j'))).
Proof.
  intros K K' NE. destruct (dtheta_bounds delta DP N8) as [[A B] C]. destruct (d_sq delta N8) as [_ P]. fold d in A, B, P.
  pose proof two_over_PI as TP. pose proof (sin_pos k K). pose proof (sin_pos k' K').
  destruct (T_range delta DP N8 k K) as [R1 R2]. destruct (T_range delta DP N8 k' K') as [R3 R4].
  eapply Rle_trans; [|apply (chord_rings (T delta k) (F delta k j) (T delta k') (F delta k' j') (dtheta delta)); try lra].
  - nra.
  - split; [|unfold Rabs; destruct (Rcase_abs _); lra].
    rewrite !(T_eq delta DP N8). replace (dtheta delta * (INR k + / 2) - dtheta delta * (INR k' + / 2)) with (dtheta delta * (INR k - INR k')) by ring.
    rewrite Rabs_mult, (Rabs_right (dtheta delta)) by lra.
    assert (1 <= Rabs (INR k - INR k')).
    { destruct (Nat.lt_ge_cases k k') as [X|X].
      - assert (INR k + 1 <= INR k') by (rewrite <- S_INR; apply le_INR; lia). rewrite Rabs_left; lra.
      - assert (INR k' + 1 <= INR k) by (rewrite <- S_INR; apply le_INR; lia). rewrite Rabs_right; lra. }
    nra.
Qed.

Lemma placed_sep p q : In p (keys delta) -> In q (keys delta) -> p <> q -> 0.09 * delta <= dist (placed delta p) (placed delta q).
Proof.
  intros Hp Hq NE. destruct p as [k j], q as [k' j']. apply in_keys in Hp as [K J]. apply in_keys in Hq as [K' J'].
  assert (S0 : 0.37 * d <= dist (sph2cart (at_key delta (k, j))) (sph2cart (at_key delta (k', j')))).
  { destruct (Nat.eq_dec k k') as [E|E]; [|apply rings_sep; assumption]. subst k'. apply ring_sep; try assumption. congruence. }
  destruct (d_bounds delta DP N8) as (D1 & _). fold d in D1.
  pose proof (round_vec_near delta DP (mirror (sph2cart (at_key delta (k, j))))) as A.
  pose proof (round_vec_near delta DP (mirror (sph2cart (at_key delta (k', j'))))) as B.
  fold (placed delta (k, j)) in A. fold (placed delta (k', j')) in B.
  rewrite <- mirror_dist in S0.
  pose proof (dist_triangle (mirror (sph2cart (at_key delta (k, j)))) (placed delta (k, j)) (mirror (sph2cart (at_key delta (k', j'))))) as T1.
  pose proof (dist_triangle (placed delta (k, j)) (placed delta (k', j')) (mirror (sph2cart (at_key delta (k', j'))))) as T2.
  rewrite (dist_sym (mirror (sph2cart (at_key delta (k, j)))) (placed delta (k, j))) in T1. lra.
Qed.

Lemma pole_sep (b : bool) p : In p (keys delta) -> 0.09 * delta <= dist (0, 0, if b then 1 else -1) (placed delta p).
Proof.
  intros Hp. destruct p as [k j]. apply in_keys in Hp as [K J]. pose proof PI_lo as PL. pose proof PI_hi as PH.
  destruct (dtheta_bounds delta DP N8) as [[A B] C]. destruct (d_sq delta N8) as [_ P]. fold d in A, B, P.
  pose proof two_over_PI as TP. pose proof (sin_pos k K). destruct (T_range delta DP N8 k K) as [R1 R2].
  destruct (d_bounds delta DP N8) as (D1 & _). fold d in D1.
  assert (S0 : 0.2593 * d <= dist (0, 0, if b then 1 else -1) (sph2cart (at_key delta (k, j)))).
  { assert (E : (0, 0, if b then 1 else -1) = sph2cart (if b then 0 else PI, F delta k j)).
    { destruct b; unfold sph2cart; rewrite ?sin_0, ?cos_0, ?sin_PI, ?cos_PI; f_equal; f_equal; ring. }
    rewrite E. eapply Rle_trans; [|apply (chord_rings _ (F delta k j) (T delta k) (F delta k j) (dtheta delta / 2))].
    - nra.
    - destruct b; rewrite ?sin_0, ?sin_PI; lra.
    - lra.
    - lra.
    - destruct b; unfold Rabs; destruct (Rcase_abs _); lra. }
  pose proof (round_vec_near delta DP (mirror (sph2cart (at_key delta (k, j))))) as RA. fold (placed delta (k, j)) in RA.
  change (0, 0, if b then 1 else -1) with (mirror (0, 0, if b then 1 else -1)). rewrite <- mirror_dist in S0.
  pose proof (dist_triangle (mirror (0, 0, if b then 1 else -1)) (placed delta (k, j)) (mirror (sph2cart (at_key delta (k, j))))) as T1. lra.
Qed.

Lemma nth_map_ {A B} (f : A -> B) l i x y : (i < List.length l)%nat -> nth i (map f l) y = f (nth i l x).
Proof. intro H. rewrite nth_indep with (d' := f x) by (rewrite map_length; exact H). apply map_nth. Qed.

Lemma apart_points mid j0 : keys delta = ((0%nat, 0%nat) :: mid ++ [((rings delta - 1)%nat, j0)])%list ->
  apart (0.09 * delta) ((0, 0, 1) :: map (placed delta) mid ++ [(0, 0, -1)])%list.
Proof.
  intros KE i j IJ JL. cbn [List.length] in JL. rewrite app_length, map_length in JL. cbn [List.length] in JL.
  assert (MK : forall i, (i < List.length mid)%nat -> In (nth i mid (0%nat, 0%nat)) (keys delta)).
  { intros q Q. rewrite KE. right. apply in_app_iff. left. apply nth_In. exact Q. }
  assert (ND : NoDup mid).
  { pose proof (NoDup_keys delta) as N. rewrite KE in N. apply NoDup_cons_iff in N as [_ N]. apply NoDup_remove_1 in N. rewrite app_nil_r in N. exact N. }
  destruct j as [|j]; [lia|]. cbn [nth].
  assert (NJ : nth j (map (placed delta) mid ++ [(0, 0, -1)])%list (0, 0, 0) =
               if Nat.ltb j (List.length mid) then placed delta (nth j mid (0%nat, 0%nat)) else (0, 0, -1)).
  { destruct (Nat.ltb_spec j (List.length mid)) as [L|L].
    - rewrite app_nth1 by (rewrite map_length; exact L). apply nth_map_. exact L.
    - rewrite app_nth2 by (rewrite map_length; exact L). rewrite map_length. replace (j - List.length mid)%nat with 0%nat by lia. reflexivity. }
  rewrite NJ. clear NJ.
  destruct i as [|i].
  - destruct (Nat.ltb_spec j (List.length mid)) as [L|L].
    + apply (pole_sep true). apply MK. exact L.
    + destruct (d_bounds delta DP N8) as (D1 & _ & _ & D2). unfold dist.
      replace ((0 - 0) ^ 2 + (0 - 0) ^ 2 + (1 - -1) ^ 2) with (2 ^ 2) by ring. rewrite sqrt_pow2 by lra. fold d in D1, D2. lra.
  - assert (LI : (i < List.length mid)%nat) by lia.
    rewrite app_nth1 by (rewrite map_length; exact LI). rewrite (nth_map_ _ _ _ (0%nat, 0%nat)) by exact LI.
    destruct (Nat.ltb_spec j (List.length mid)) as [L|L].
    + apply placed_sep; [apply MK; exact LI|apply MK; exact L|]. intro E. apply (NoDup_nth mid (0%nat, 0%nat)) in E; try assumption. lia.
    + rewrite dist_sym. apply (pole_sep false). apply MK. exact LI.
Qed.
End G.
