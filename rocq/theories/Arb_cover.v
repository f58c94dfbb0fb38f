From Coq Require Import Reals ZArith List Lra Lia Psatz.
From Verif Require Import Common Hires_model Hires_rings Hires_grid Arb_model Arb_spec Arb_geom Arb_grid Arb_rows.
Import ListNotations.
Open Scope R_scope.

(** Spherical coordinates of a point of the sphere. *)
Lemma polar u : on_sphere u -> exists t f, 0 <= t <= PI /\ 0 <= f < 2 * PI /\ u = sph2cart (t, f).
Proof.
  destruct u as [[x y] z]. unfold on_sphere. intro H. pose proof PI_lo.
  assert (Z : -1 <= z <= 1) by (split; nra).
  exists (acos z). set (s := sin (acos z)).
  assert (S2 : s ^ 2 = x ^ 2 + y ^ 2).
  { unfold s. rewrite cs, cos_acos by exact Z. lra. }
  pose proof (acos_bound z) as AB.
  assert (S0 : 0 <= s) by (apply sin_ge_0; lra).
  destruct (Req_dec s 0) as [E|E].
  - exists 0. split; [exact AB|]. split; [lra|]. unfold sph2cart. fold s. rewrite E, (cos_acos z Z).
    assert (x = 0) by (rewrite E in S2; nra). assert (y = 0) by (rewrite E in S2; nra). subst. f_equal. f_equal; ring.
  - assert (SP : 0 < s) by lra. set (c := x / s). assert (C : x = c * s) by (unfold c; field; lra).
    assert (C1 : -1 <= c <= 1). { split; apply Rmult_le_reg_r with s; try exact SP; rewrite <- C; nra. }
    pose proof (acos_bound c) as BB.
    assert (Q : (sin (acos c) * s) ^ 2 = y ^ 2). { rewrite Rpow_mult_distr, cs, cos_acos by exact C1. rewrite C in S2. nra. }
    assert (SC : 0 <= sin (acos c)) by (apply sin_ge_0; lra).
    pose proof (Rmult_le_pos _ _ SC S0) as QP.
    destruct (Rle_dec 0 y) as [Y|Y].
    + exists (acos c). split; [exact AB|]. split; [lra|]. unfold sph2cart. fold s. rewrite !cos_acos by assumption.
      f_equal. f_equal; [lra|]. nra.
    + exists (2 * PI - acos c). split; [exact AB|]. split.
      * split; [lra|]. destruct (Req_dec (acos c) 0) as [E0|E0]; [|lra]. exfalso. rewrite E0, sin_0 in Q. nra.
      * unfold sph2cart. fold s. rewrite cos_minus, sin_minus, cos_2PI, sin_2PI, !cos_acos by assumption.
        f_equal. f_equal; [lra|]. nra.
Qed.

(** The nearest of n equal divisions. *)
Lemma division n x : (1 <= n)%nat -> 0 <= x <= INR n -> exists k, (k < n)%nat /\ Rabs (x - (INR k + / 2)) <= / 2.
Proof.
  induction n as [|n IH]; [lia|]. intros N [A B]. rewrite S_INR in B. destruct (Rle_dec (INR n) x) as [L|L].
  - exists n. split; [lia|]. apply Rabs_le. lra.
  - destruct n as [|n]; [cbn in L; lra|]. destruct (IH ltac:(lia) ltac:(lra)) as (k & K & H). exists k. split; [lia|exact H].
Qed.
Lemma nearest n x : (1 <= n)%nat -> 0 <= x < INR n -> exists j, (j < n)%nat /\ (Rabs (x - INR j) <= / 2 \/ (j = 0%nat /\ Rabs (x - INR n) <= / 2)).
Proof.
  induction n as [|n IH]; [lia|]. intros N [A B]. destruct (Rle_dec (INR n) x) as [L|L].
  - rewrite S_INR in B. destruct (Rle_dec x (INR n + / 2)) as [U|U].
    + exists n. split; [lia|]. left. apply Rabs_le. lra.
    + exists 0%nat. split; [lia|]. right. split; [reflexivity|]. rewrite S_INR. apply Rabs_le. lra.
  - destruct n as [|n]; [cbn in L; lra|]. destruct (IH ltac:(lia) ltac:(lra)) as (j & J & [H|[H H']]).
    + exists j. split; [lia|left; exact H].
    + subst j. exists (S n). split; [lia|]. left. exact H'.
Qed.

Section G.
Variable delta : R.
Hypothesis DP : 0 < delta.
Hypothesis N8 : (8 <= number delta)%Z.
Let d := sqrt (area delta).

(** Half the spacing of the points of a ring. *)
Lemma half_spacing k : sin (T delta k) * (PI / INR (mp delta k)) <= 0.75 * dphi delta \/ sin (T delta k) < 0.
Proof.
  destruct (Rlt_dec (sin (T delta k)) 0) as [S0|S0]; [right; exact S0|left]. pose proof PI_lo.
  destruct (dphi_bounds delta DP N8) as [A _]. destruct (d_sq delta N8) as [_ P].
  assert (DPH : 0 < dphi delta) by lra.
  destruct (spacing (2 * PI * sin (T delta k)) (dphi delta) DPH ltac:(nra)) as (N1 & E1 & E2).
  rewrite mp_INR. fold (mphi delta (T delta k)) in *. set (m := mphi delta (T delta k)) in *.
  assert (MP : 0 < IZR m) by (apply (IZR_lt 0); lia).
  destruct (Z.eq_dec m 1) as [E|E].
  - specialize (E1 E). rewrite E. unfold Rdiv. rewrite Rinv_1, Rmult_1_r. lra.
  - destruct (E2 ltac:(lia)) as [_ U]. replace (sin (T delta k) * (PI / IZR m)) with (2 * PI * sin (T delta k) / IZR m / 2) by (field; lra). lra.
Qed.

Lemma cover_key t f : 0 <= t <= PI -> 0 <= f < 2 * PI ->
  exists k j, (k < rings delta)%nat /\ (j < mp delta k)%nat /\ Rabs (t - T delta k) <= dtheta delta / 2 /\
    dist (sph2cart (t, f)) (sph2cart (at_key delta (k, j))) <= dtheta delta / 2 + 0.75 * dphi delta.
Proof.
  intros [T0 T1] [F0 F1]. pose proof PI_lo. destruct (dtheta_bounds delta DP N8) as [[A B] C]. destruct (d_sq delta N8) as [_ P].
  pose proof (M_pos delta DP N8) as MP. pose proof (rings_pos delta DP N8) as RP. pose proof (m_nat delta DP N8) as MN. fold (rings delta) in MN.
  fold d in A, B, P. assert (DT : 0 < dtheta delta) by lra.
  destruct (division (rings delta) (t / dtheta delta)) as (k & K & H1); [lia|rewrite MN|].
  { split; [apply Rmult_le_pos; [exact T0|apply Rlt_le, Rinv_0_lt_compat; exact DT]|].
    apply Rmult_le_reg_r with (dtheta delta); [exact DT|]. unfold Rdiv. rewrite Rmult_assoc, Rinv_l by lra. lra. }
  assert (D1 : Rabs (t - T delta k) <= dtheta delta / 2).
  { rewrite (T_eq delta DP N8). replace (t - dtheta delta * (INR k + / 2)) with (dtheta delta * (t / dtheta delta - (INR k + / 2))) by (field; lra).
    rewrite Rabs_mult, (Rabs_right (dtheta delta)) by lra. nra. }
  assert (SP : 0 <= sin (T delta k)).
  { pose proof (sinT delta DP N8 k K). assert (0 < / IZR (mtheta delta)) by (apply Rinv_0_lt_compat; exact MP). lra. }
  pose proof (mp_pos delta k) as Q1. assert (QP : 0 < INR (mp delta k)) by (apply (lt_INR 0); lia).
  set (w := 2 * PI / INR (mp delta k)). assert (W : 0 < w) by (apply Rdiv_lt_0_compat; lra).
  assert (WE : w * INR (mp delta k) = 2 * PI) by (unfold w; field; lra).
  destruct (nearest (mp delta k) (f / w) Q1) as (j & J & H2).
  { split; [apply Rmult_le_pos; [exact F0|apply Rlt_le, Rinv_0_lt_compat; exact W]|].
    apply Rmult_lt_reg_r with w; [exact W|]. unfold Rdiv. rewrite Rmult_assoc, Rinv_l by lra. lra. }
  exists k, j. split; [exact K|]. split; [exact J|]. split; [exact D1|].
  assert (HS : sin (T delta k) * (w / 2) <= 0.75 * dphi delta).
  { replace (w / 2) with (PI / INR (mp delta k)) by (unfold w; field; lra). destruct (half_spacing k); lra. }
  assert (FJ : F delta k j = w * INR j) by (rewrite F_eq; unfold w; field; lra).
  assert (Fin : forall g, sph2cart (T delta k, g) = sph2cart (at_key delta (k, j)) -> Rabs (f - g) <= w / 2 ->
    dist (sph2cart (t, f)) (sph2cart (at_key delta (k, j))) <= dtheta delta / 2 + 0.75 * dphi delta).
  { intros g <- G. eapply Rle_trans; [apply dist_step; exact SP|].
    pose proof (Rmult_le_compat_l _ _ _ SP G). lra. }
  destruct H2 as [H2|[E H2]].
  - apply (Fin (F delta k j) eq_refl). rewrite FJ. replace (f - w * INR j) with (w * (f / w - INR j)) by (field; lra).
    rewrite Rabs_mult, (Rabs_right w) by lra. nra.
  - apply (Fin (2 * PI)).
    + subst j. unfold at_key, sph2cart. cbn [fst snd]. rewrite FJ. cbn [INR]. rewrite Rmult_0_r, cos_0, sin_0, cos_2PI, sin_2PI. reflexivity.
    + rewrite <- WE. replace (f - w * INR (mp delta k)) with (w * (f / w - INR (mp delta k))) by (field; lra).
      rewrite Rabs_mult, (Rabs_right w) by lra. nra.
Qed.

Lemma dist_north t f : 0 <= t -> dist (sph2cart (t, f)) (0, 0, 1) <= t.
Proof.
  intro T0. replace (0, 0, 1) with (sph2cart (0, f)) by (unfold sph2cart; rewrite sin_0, cos_0; f_equal; f_equal; ring).
  eapply Rle_trans; [apply dist_meridian|]. rewrite Rabs_right; lra.
Qed.
Lemma dist_south t f : t <= PI -> dist (sph2cart (t, f)) (0, 0, -1) <= PI - t.
Proof.
  intro T0. replace (0, 0, -1) with (sph2cart (PI, f)) by (unfold sph2cart; rewrite sin_PI, cos_PI; f_equal; f_equal; ring).
  eapply Rle_trans; [apply dist_meridian|]. rewrite Rabs_left1; lra.
Qed.

Lemma cover_points mid j0 : keys delta = ((0%nat, 0%nat) :: mid ++ [((rings delta - 1)%nat, j0)])%list ->
  covers (1.8 * delta) ((0, 0, 1) :: map (placed delta) mid ++ [(0, 0, -1)])%list.
Proof.
  intros KE u U. assert (U' : on_sphere (mirror u)) by (destruct u as [[x y] z]; unfold on_sphere, mirror in *; lra).
  destruct (polar _ U') as (t & f & T0 & F0 & E). destruct (cover_key t f T0 F0) as (k & j & K & J & D1 & D2).
  destruct (dtheta_bounds delta DP N8) as [[A B] C]. destruct (dphi_bounds delta DP N8) as [_ G]. destruct (d_sq delta N8) as [_ P].
  pose proof (d_delta delta DP N8) as DD. fold d in A, B, G, P, DD.
  assert (MM : mirror (mirror u) = u) by (destruct u as [[x y] z]; reflexivity).
  assert (In_ : In (k, j) (keys delta)) by (apply in_keys; split; assumption).
  rewrite KE in In_. destruct In_ as [H|H]; [|apply in_app_iff in H as [H|[H|[]]]].
  - inversion H; subst k j. exists (0, 0, 1). split; [left; reflexivity|].
    rewrite <- MM. change (0, 0, 1) with (mirror (0, 0, 1)). rewrite mirror_dist, E.
    eapply Rle_trans; [apply dist_north; lra|]. rewrite (T_eq delta DP N8) in D1. cbn [INR] in D1.
    unfold Rabs in D1. destruct (Rcase_abs _); lra.
  - exists (placed delta (k, j)). split; [right; apply in_app_iff; left; apply in_map; exact H|].
    unfold placed. eapply Rle_trans; [apply (dist_triangle _ (mirror (sph2cart (at_key delta (k, j)))))|].
    rewrite (dist_sym _ (round_vec _ _)).
    pose proof (round_vec_near delta DP (mirror (sph2cart (at_key delta (k, j))))) as RN.
    rewrite <- MM at 1. rewrite mirror_dist, E. lra.
  - inversion H; subst k j. exists (0, 0, -1). split; [right; apply in_app_iff; right; left; reflexivity|].
    rewrite <- MM. change (0, 0, -1) with (mirror (0, 0, -1)). rewrite mirror_dist, E.
    eapply Rle_trans; [apply dist_south; lra|]. rewrite (T_eq delta DP N8) in D1.
    pose proof (m_nat delta DP N8) as MN. fold (rings delta) in MN. pose proof (rings_pos delta DP N8).
    rewrite minus_INR in D1 by lia. rewrite MN in D1. cbn [INR] in D1.
    replace (dtheta delta * (IZR (mtheta delta) - 1 + / 2)) with (PI - dtheta delta / 2) in D1 by (rewrite <- C; field).
    unfold Rabs in D1. destruct (Rcase_abs _); lra.
Qed.
End G.
