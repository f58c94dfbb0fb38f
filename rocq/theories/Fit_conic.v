From Coq Require Import Reals List Lra Lia.
From Verif Require Import Common Trig_model RSum Geo_proofs Fit_model Fit_spec.
Import ListNotations.
Open Scope R_scope.

Lemma double psi : cos (2 * psi) = cos psi * cos psi - sin psi * sin psi /\ sin (2 * psi) = 2 * (cos psi * sin psi).
Proof. split; [apply cos_2a | rewrite sin_2a; ring]. Qed.

Lemma cos_2PI_neg_helper : cos (PI + 2 * PI) = -1.
Proof. replace (PI + 2 * PI) with (PI + 2 * INR 1 * PI) by (cbn; lra). rewrite cos_period. apply cos_PI. Qed.
Lemma sin_2PI_neg_helper : sin (PI + 2 * PI) = 0.
Proof. replace (PI + 2 * PI) with (PI + 2 * INR 1 * PI) by (cbn; lra). rewrite sin_period. apply sin_PI. Qed.

Section Conic.
Variables a b c d f g : R.       (** b, d, f are half the coefficients *)
Let den := b * b - a * c.
Let N2 := a * f * f + c * d * d + g * b * b - 2 * b * d * f - a * c * g.
Let fac := sqrt ((a - c) * (a - c) + 4 * b * b).
Let x0 := (c * d - b * f) / den.
Let y0 := (a * f - b * d) / den.
Hypothesis Hden : den < 0.

Lemma fac_sq : fac * fac = (a - c) * (a - c) + 4 * b * b.
Proof. apply sqrt_sqrt. pose proof (Rle_0_sqr (a - c)). pose proof (Rle_0_sqr b). unfold Rsqr in *. lra. Qed.
Lemma fac_nonneg : 0 <= fac.
Proof. apply sqrt_pos. Qed.

(** The conic in the rotated frame of its centre. *)
Lemma rotated e psi x y : e = 1 \/ e = -1 -> fac * cos (2 * psi) = e * (a - c) -> fac * sin (2 * psi) = e * (2 * b) ->
  conic a (2 * b) c (2 * d) (2 * f) g x y =
  ((a + c) + e * fac) / 2 * ((x - x0) * cos psi + (y - y0) * sin psi) ^ 2 + ((a + c) - e * fac) / 2 * ((y - y0) * cos psi - (x - x0) * sin psi) ^ 2 + N2 / den.
Proof.
  intros He E1 E2. destruct (double psi) as [D1 D2]. rewrite D1 in E1. rewrite D2 in E2. pose proof (cs psi) as One.
  set (C := cos psi) in *. set (S := sin psi) in *. set (X := x - x0). set (Y := y - y0).
  assert (C0 : forall X Y, conic a (2 * b) c (2 * d) (2 * f) g (X + x0) (Y + y0) = a * X ^ 2 + 2 * b * X * Y + c * Y ^ 2 + N2 / den).
  { intros X1 Y1. unfold conic, x0, y0, N2, den. field. unfold den in Hden. lra. }
  assert (Centred : conic a (2 * b) c (2 * d) (2 * f) g x y = a * X ^ 2 + 2 * b * X * Y + c * Y ^ 2 + N2 / den).
  { rewrite <- C0. f_equal; unfold X, Y; ring. }
  rewrite Centred. clear Centred C0. clearbody X Y.
  (* e * fac in terms of the double angle *)
  assert (Ee : e * e = 1) by (destruct He; subst; ring).
  assert (F1 : e * fac * (C * C - S * S) = a - c) by (rewrite Rmult_assoc, E1, <- Rmult_assoc, Ee; ring).
  assert (F2 : e * fac * (2 * (C * S)) = 2 * b) by (rewrite Rmult_assoc, E2, <- Rmult_assoc, Ee; ring).
  set (k := e * fac) in *.
  assert (a = (a + c) / 2 + k * (C * C - S * S) / 2) as Ha by lra.
  assert (c = (a + c) / 2 - k * (C * C - S * S) / 2) as Hc by lra.
  assert (b = k * (C * S)) as Hb by lra.
  set (m := (a + c) / 2) in *.
  replace ((a + c + k) / 2) with (m + k / 2) by (unfold m; lra). replace ((a + c - k) / 2) with (m - k / 2) by (unfold m; lra).
  rewrite Ha, Hc, Hb.
  replace ((m + k / 2) * (X * C + Y * S) ^ 2 + (m - k / 2) * (Y * C - X * S) ^ 2)
    with (m * (X * X + Y * Y) * (C * C + S * S) + k / 2 * ((X * X - Y * Y) * (C * C - S * S) + 4 * (X * Y) * (C * S))) by ring.
  rewrite One. field. lra.
Qed.
Lemma rotated_circle psi x y : fac = 0 -> conic a (2 * b) c (2 * d) (2 * f) g x y =
  (a + c) / 2 * ((x - x0) * cos psi + (y - y0) * sin psi) ^ 2 + (a + c) / 2 * ((y - y0) * cos psi - (x - x0) * sin psi) ^ 2 + N2 / den.
Proof.
  intros Z. pose proof fac_sq as F. rewrite Z, Rmult_0_l in F. pose proof (Rle_0_sqr (a - c)) as Q1. pose proof (Rle_0_sqr b) as Q2.
  assert (Hb : b = 0) by (apply Rsqr_0_uniq; unfold Rsqr in *; lra). assert (Hac : a - c = 0) by (apply Rsqr_0_uniq; unfold Rsqr in *; lra).
  rewrite (rotated 1 psi x y) by (try (left; reflexivity); rewrite Z; lra). rewrite Z. lra.
Qed.

Hypothesis Hreal : (a + c) * N2 > 0.
Let Lm := ((a + c) - fac) / 2.
Let Lp := ((a + c) + fac) / 2.
Let Ap2 := 2 * N2 / (den * (fac - (a + c))).
Let Bp2 := 2 * N2 / (den * (- fac - (a + c))).
Lemma L_prod : Lm * Lp = - den.
Proof. unfold Lm, Lp, den. pose proof fac_sq. nra. Qed.
Lemma L_sign : 0 < (a + c) * Lm /\ 0 < (a + c) * Lp.
Proof.
  pose proof L_prod as P. pose proof fac_nonneg. assert (S : Lm + Lp = a + c) by (unfold Lm, Lp; lra). rewrite <- S.
  pose proof (Rle_0_sqr Lm). pose proof (Rle_0_sqr Lp). unfold Rsqr in *. split; nra.
Qed.
Lemma Lm_nz : Lm <> 0. Proof. pose proof L_sign as [A _]. intros Z. rewrite Z in A. lra. Qed.
Lemma Lp_nz : Lp <> 0. Proof. pose proof L_sign as [_ A]. intros Z. rewrite Z in A. lra. Qed.
Lemma Ap2_eq : Ap2 = - N2 / (den * Lm).
Proof. unfold Ap2. replace (fac - (a + c)) with (- 2 * Lm) by (unfold Lm; lra). field. split; [apply Lm_nz | lra]. Qed.
Lemma Bp2_eq : Bp2 = - N2 / (den * Lp).
Proof. unfold Bp2. replace (- fac - (a + c)) with (- 2 * Lp) by (unfold Lp; lra). field. split; [apply Lp_nz | lra]. Qed.
Lemma A_pos : 0 < Ap2.
Proof.
  rewrite Ap2_eq. destruct L_sign as [A _]. replace (- N2 / (den * Lm)) with ((N2 * Lm) * / (- den * (Lm * Lm))) by (field; split; [apply Lm_nz | lra]).
  assert (0 < Lm * Lm) by (pose proof Lm_nz; nra). apply Rmult_lt_0_compat; [| apply Rinv_0_lt_compat; nra].
  apply Rmult_lt_reg_l with ((a + c) * (a + c)); [nra |]. nra.
Qed.
Lemma B_pos : 0 < Bp2.
Proof.
  rewrite Bp2_eq. destruct L_sign as [_ A]. replace (- N2 / (den * Lp)) with ((N2 * Lp) * / (- den * (Lp * Lp))) by (field; split; [apply Lp_nz | lra]).
  assert (0 < Lp * Lp) by (pose proof Lp_nz; nra). apply Rmult_lt_0_compat; [| apply Rinv_0_lt_compat; nra].
  apply Rmult_lt_reg_l with ((a + c) * (a + c)); [nra |]. nra.
Qed.
Lemma AB_diff : Ap2 - Bp2 = N2 * fac / (den * den).
Proof. rewrite Ap2_eq, Bp2_eq. pose proof L_prod as P. pose proof Lm_nz. pose proof Lp_nz.
  replace (- N2 / (den * Lm) - - N2 / (den * Lp)) with (- N2 * (Lp - Lm) / (den * (Lm * Lp))) by (field; repeat split; auto; lra).
  rewrite P. replace (Lp - Lm) with fac by (unfold Lp, Lm; lra). field. lra. Qed.
Lemma zero_level L1 L2 U V A1 A2 : L1 <> 0 -> L2 <> 0 -> A1 = - N2 / (den * L1) -> A2 = - N2 / (den * L2) -> 0 < A1 -> 0 < A2 ->
  (L1 * U ^ 2 + L2 * V ^ 2 + N2 / den = 0 <-> (U / sqrt A1) ^ 2 + (V / sqrt A2) ^ 2 = 1).
Proof.
  intros N1 N2' E1 E2 P1 P2. assert (NN : N2 <> 0) by (intros Z; rewrite Z in Hreal; lra).
  assert (Q : forall w A, 0 < A -> (w / sqrt A) ^ 2 = w ^ 2 / A).
  { intros w A PA. pose proof (sqrt_lt_R0 A PA). pose proof (sqrt_sqrt A (Rlt_le _ _ PA)) as SS. replace (w ^ 2 / A) with (w ^ 2 / (sqrt A * sqrt A)) by (rewrite SS; reflexivity). field. lra. }
  rewrite !Q by assumption. rewrite E1, E2.
  assert (Eq : U ^ 2 / (- N2 / (den * L1)) + V ^ 2 / (- N2 / (den * L2)) = 1 - (den / N2) * (L1 * U ^ 2 + L2 * V ^ 2 + N2 / den)) by (field; repeat split; lra).
  rewrite Eq. split; intros H; [rewrite H; ring |].
  assert (X : den / N2 * (L1 * U ^ 2 + L2 * V ^ 2 + N2 / den) = 0) by lra. apply Rmult_integral in X. destruct X as [X | X]; [| exact X].
  exfalso. unfold Rdiv in X. apply Rmult_integral in X. destruct X as [X | X]; [lra |]. apply Rinv_neq_0_compat in NN. contradiction.
Qed.

(** Direction [psi] of the axis with eigenvalue L-: that axis has the length sqrt Ap2. *)
Lemma minus_axis psi x y : fac * cos (2 * psi) = - (a - c) -> fac * sin (2 * psi) = - (2 * b) ->
  (conic a (2 * b) c (2 * d) (2 * f) g x y = 0 <-> on_ellipse x0 y0 (sqrt Ap2) (sqrt Bp2) psi x y).
Proof.
  intros E1 E2. rewrite (rotated (-1) psi x y) by (lra || (right; reflexivity)).
  replace ((a + c + -1 * fac) / 2) with Lm by (unfold Lm; lra). replace ((a + c - -1 * fac) / 2) with Lp by (unfold Lp; lra).
  unfold on_ellipse. apply zero_level; [apply Lm_nz | apply Lp_nz | apply Ap2_eq | apply Bp2_eq | apply A_pos | apply B_pos].
Qed.
Lemma plus_axis psi x y : fac * cos (2 * psi) = a - c -> fac * sin (2 * psi) = 2 * b ->
  (conic a (2 * b) c (2 * d) (2 * f) g x y = 0 <-> on_ellipse x0 y0 (sqrt Bp2) (sqrt Ap2) psi x y).
Proof.
  intros E1 E2. rewrite (rotated 1 psi x y) by (lra || (left; reflexivity)).
  replace ((a + c + 1 * fac) / 2) with Lp by (unfold Lp; lra). replace ((a + c - 1 * fac) / 2) with Lm by (unfold Lm; lra).
  unfold on_ellipse. apply zero_level; [apply Lp_nz | apply Lm_nz | apply Bp2_eq | apply Ap2_eq | apply B_pos | apply A_pos].
Qed.
Lemma same_axes : fac = 0 -> Ap2 = Bp2.
Proof. intros Z. pose proof AB_diff as D. rewrite Z in D. unfold Rdiv in D. rewrite Rmult_0_r, Rmult_0_l in D. lra. Qed.

(** The direction phi before the reduction modulo PI. *)
Definition raw_phi : R :=
  let phi := if Rlt_dec (Rabs b) 1e-12 then (if Rlt_dec a c then 0 else PI / 2) else 0.5 * atan2 (2 * b) (a - c) in
  let phi := if Rlt_dec (Rabs c) (Rabs a) then phi + PI / 2 else phi in
  if Rle_dec (sqrt Ap2) (sqrt Bp2) then phi else phi + PI / 2.
(** (p, q): the longer and the shorter of the two lengths. *)
Definition long_short : R * R := if Rle_dec (sqrt Ap2) (sqrt Bp2) then (sqrt Bp2, sqrt Ap2) else (sqrt Ap2, sqrt Bp2).

Lemma half_turn t : cos (2 * (t + PI / 2)) = - cos (2 * t) /\ sin (2 * (t + PI / 2)) = - sin (2 * t).
Proof. replace (2 * (t + PI / 2)) with (2 * t + PI) by lra. split; [apply neg_cos | apply neg_sin]. Qed.
Lemma base_angle : 1e-12 <= Rabs b -> fac * cos (2 * (0.5 * atan2 (2 * b) (a - c))) = a - c /\ fac * sin (2 * (0.5 * atan2 (2 * b) (a - c))) = 2 * b.
Proof.
  intros _. replace (2 * (0.5 * atan2 (2 * b) (a - c))) with (atan2 (2 * b) (a - c)) by lra.
  destruct (atan2_polar (2 * b) (a - c)) as [A B].
  replace ((a - c) ^ 2 + (2 * b) ^ 2) with ((a - c) * (a - c) + 4 * b * b) in A, B by ring. split; assumption.
Qed.
Lemma ac_sign : 0 < a * c.
Proof. unfold den in Hden. pose proof (Rle_0_sqr b). unfold Rsqr in *. lra. Qed.
Lemma ac_cases : (0 < a /\ 0 < c) \/ (a < 0 /\ c < 0).
Proof.
  pose proof ac_sign as P. destruct (Rtotal_order a 0) as [A | [A | A]].
  - right. split; [exact A |]. destruct (Rlt_dec c 0) as [C | C]; [exact C |]. exfalso. assert (a * c <= 0) by nra. lra.
  - exfalso. rewrite A in P. lra.
  - left. split; [exact A |]. destruct (Rlt_dec 0 c) as [C | C]; [exact C |]. exfalso. assert (a * c <= 0) by nra. lra.
Qed.
Lemma abs_lt : Rabs c < Rabs a <-> (0 < a + c /\ c < a \/ a + c < 0 /\ a < c).
Proof.
  destruct ac_cases as [[A C] | [A C]].
  - rewrite !Rabs_right by lra. split; [intros; left; lra | intros [[] | []]; lra].
  - rewrite !Rabs_left by lra. split; [intros; right; lra | intros [[] | []]; lra].
Qed.

(** Whether the reported direction is that of the longer axis, or at right angles to it. *)
Definition along_major (psi : R) : Prop := forall x y,
  conic a (2 * b) c (2 * d) (2 * f) g x y = 0 <-> on_ellipse x0 y0 (fst long_short) (snd long_short) psi x y.

Lemma fac_pos_cases : (fac = 0) \/ (0 < fac /\ 0 < a + c /\ sqrt Bp2 < sqrt Ap2) \/ (0 < fac /\ a + c < 0 /\ sqrt Ap2 < sqrt Bp2).
Proof.
  pose proof fac_nonneg as [F | F]; [right | left; lra]. pose proof AB_diff as D. pose proof A_pos. pose proof B_pos.
  assert (DD : 0 < den * den) by nra. assert (ID : 0 < / (den * den)) by (apply Rinv_0_lt_compat; exact DD).
  destruct (Rlt_dec 0 (a + c)) as [S | S].
  - left. split; [exact F |]. split; [exact S |]. apply sqrt_lt_1; try lra. assert (0 < N2) by nra.
    assert (0 < N2 * fac / (den * den)) by (apply Rmult_lt_0_compat; nra). lra.
  - right. assert (a + c < 0) by (destruct ac_cases as [[] | []]; lra). split; [exact F |]. split; [assumption |]. apply sqrt_lt_1; try lra. assert (N2 < 0) by nra.
    assert (N2 * fac / (den * den) < 0) by (unfold Rdiv; assert (N2 * fac < 0) by nra; nra). lra.
Qed.
Lemma long_short_ok : 0 < snd long_short <= fst long_short.
Proof.
  pose proof (sqrt_lt_R0 _ A_pos). pose proof (sqrt_lt_R0 _ B_pos). unfold long_short. destruct (Rle_dec _ _); cbn; lra.
Qed.
Lemma circle_any psi : fac = 0 -> along_major psi.
Proof.
  intros Z x y. pose proof (same_axes Z) as E. unfold long_short. rewrite E. destruct (Rle_dec (sqrt Bp2) (sqrt Bp2)) as [_ | X]; [| lra]. cbn [fst snd].
  rewrite (rotated_circle psi x y Z). unfold on_ellipse.
  assert (L1 : (a + c) / 2 = Lp) by (unfold Lp; rewrite Z; lra). rewrite L1.
  apply zero_level; try apply Lp_nz; try apply Bp2_eq; apply B_pos.
Qed.
Lemma major_pos psi : 0 < fac -> 0 < a + c -> fac * cos (2 * psi) = - (a - c) -> fac * sin (2 * psi) = - (2 * b) -> along_major psi.
Proof.
  intros F S E1 E2 x y. destruct fac_pos_cases as [Z | [(_ & _ & L) | (_ & X & _)]]; try lra. unfold long_short. destruct (Rle_dec (sqrt Ap2) (sqrt Bp2)); [lra |].
  cbn [fst snd]. apply minus_axis; assumption.
Qed.
Lemma major_neg psi : 0 < fac -> a + c < 0 -> fac * cos (2 * psi) = a - c -> fac * sin (2 * psi) = 2 * b -> along_major psi.
Proof.
  intros F S E1 E2 x y. destruct fac_pos_cases as [Z | [(_ & X & _) | (_ & _ & L)]]; try lra. unfold long_short. destruct (Rle_dec (sqrt Ap2) (sqrt Bp2)); [| lra].
  cbn [fst snd]. apply plus_axis; assumption.
Qed.

(** When the direction comes out right. *)
Lemma raw_good : (1e-12 <= Rabs b /\ Rabs a <= Rabs c) \/ (b = 0 /\ Rabs c <= Rabs a) -> along_major raw_phi.
Proof.
  intros H. destruct (Req_EM_T fac 0) as [Z | NZ]; [apply circle_any; exact Z |]. pose proof fac_nonneg as FN. assert (FP : 0 < fac) by lra.
  unfold raw_phi. destruct H as [[Hb Hac] | [Hb Hac]].
  - destruct (Rlt_dec (Rabs b) 1e-12) as [X | _]; [lra |]. destruct (Rlt_dec (Rabs c) (Rabs a)) as [X | _]; [lra |].
    destruct (base_angle Hb) as [E1 E2]. destruct fac_pos_cases as [Z | [(_ & S & L) | (_ & S & L)]]; [lra | |].
    + destruct (Rle_dec (sqrt Ap2) (sqrt Bp2)); [lra |]. destruct (half_turn (0.5 * atan2 (2 * b) (a - c))) as [T1 T2].
      apply major_pos; [exact FP | exact S | rewrite T1, Ropp_mult_distr_r_reverse, E1; ring | rewrite T2, Ropp_mult_distr_r_reverse, E2; ring].
    + destruct (Rle_dec (sqrt Ap2) (sqrt Bp2)); [| lra]. apply major_neg; assumption.
  - destruct (Rlt_dec (Rabs b) 1e-12) as [_ | X]; [| rewrite Hb, Rabs_R0 in X; lra].
    pose proof fac_sq as FS. rewrite Hb in FS.
    assert (Hne : a <> c) by (intros X; rewrite X in FS; assert (fac * fac = 0) by lra; nra).
    assert (Hlt : Rabs c < Rabs a).
    { destruct Hac as [Hac | Hac]; [exact Hac |]. exfalso. apply Hne.
      destruct ac_cases as [[A C] | [A C]]; [rewrite !Rabs_right in Hac by lra; lra | rewrite !Rabs_left in Hac by lra; lra]. }
    destruct (Rlt_dec (Rabs c) (Rabs a)) as [_ | X]; [| lra]. apply abs_lt in Hlt.
    destruct fac_pos_cases as [Z | [(_ & S & L) | (_ & S & L)]]; [lra | |].
    + destruct (Rle_dec (sqrt Ap2) (sqrt Bp2)); [lra |]. destruct (Rlt_dec a c); [lra |].
      assert (Fe : fac = a - c) by (assert (c < a) by lra; nra).
      apply major_pos; [exact FP | exact S | |].
      * replace (2 * (PI / 2 + PI / 2 + PI / 2)) with (PI + 2 * PI) by lra. rewrite cos_2PI_neg_helper. lra.
      * replace (2 * (PI / 2 + PI / 2 + PI / 2)) with (PI + 2 * PI) by lra. rewrite sin_2PI_neg_helper. lra.
    + destruct (Rle_dec (sqrt Ap2) (sqrt Bp2)); [| lra]. destruct (Rlt_dec a c) as [_ | X]; [| lra].
      assert (Fe : fac = c - a) by nra. apply major_neg; [exact FP | exact S | |].
      * replace (2 * (0 + PI / 2)) with PI by lra. rewrite cos_PI. lra.
      * replace (2 * (0 + PI / 2)) with PI by lra. rewrite sin_PI. lra.
Qed.
(** ... and when it is at right angles to the longer axis. *)
Lemma raw_bad : (1e-12 <= Rabs b /\ Rabs c < Rabs a) \/ (b = 0 /\ Rabs a < Rabs c) -> along_major (raw_phi + PI / 2).
Proof.
  intros H. destruct (Req_EM_T fac 0) as [Z | NZ]; [apply circle_any; exact Z |]. pose proof fac_nonneg as FN. assert (FP : 0 < fac) by lra.
  unfold raw_phi. destruct H as [[Hb Hac] | [Hb Hac]].
  - destruct (Rlt_dec (Rabs b) 1e-12) as [X | _]; [lra |]. destruct (Rlt_dec (Rabs c) (Rabs a)) as [_ | X]; [| lra].
    destruct (base_angle Hb) as [E1 E2]. set (t := 0.5 * atan2 (2 * b) (a - c)) in *.
    destruct (half_turn t) as [T1 T2]. destruct (half_turn (t + PI / 2)) as [T3 T4]. destruct (half_turn (t + PI / 2 + PI / 2)) as [T5 T6].
    destruct fac_pos_cases as [Z | [(_ & S & L) | (_ & S & L)]]; [lra | |].
    + destruct (Rle_dec (sqrt Ap2) (sqrt Bp2)); [lra |].
      apply major_pos; [exact FP | exact S | rewrite T5, T3, T1 | rewrite T6, T4, T2]; rewrite ?Ropp_involutive, Ropp_mult_distr_r_reverse, ?E1, ?E2; ring.
    + destruct (Rle_dec (sqrt Ap2) (sqrt Bp2)); [| lra].
      apply major_neg; [exact FP | exact S | rewrite T3, T1 | rewrite T4, T2]; rewrite Ropp_involutive; assumption.
  - destruct (Rlt_dec (Rabs b) 1e-12) as [_ | X]; [| rewrite Hb, Rabs_R0 in X; lra].
    destruct (Rlt_dec (Rabs c) (Rabs a)) as [X | _]; [lra |]. pose proof fac_sq as FS. rewrite Hb in FS.
    destruct fac_pos_cases as [Z | [(_ & S & L) | (_ & S & L)]]; [lra | |].
    + assert (Hlt : a < c) by (destruct ac_cases as [[A C] | [A C]]; [rewrite !Rabs_right in Hac by lra; lra | lra]).
      destruct (Rle_dec (sqrt Ap2) (sqrt Bp2)); [lra |]. destruct (Rlt_dec a c); [| lra].
      assert (Fe : fac = c - a) by nra. apply major_pos; [exact FP | exact S | |]; replace (2 * (0 + PI / 2 + PI / 2)) with (2 * PI) by lra; rewrite ?cos_2PI, ?sin_2PI; lra.
    + assert (Hlt : c < a) by (destruct ac_cases as [[A C] | [A C]]; [lra | rewrite !Rabs_left in Hac by lra; lra]).
      destruct (Rle_dec (sqrt Ap2) (sqrt Bp2)); [| lra]. destruct (Rlt_dec a c); [lra |].
      assert (Fe : fac = a - c) by nra. apply major_neg; [exact FP | exact S | |]; replace (2 * (PI / 2 + PI / 2)) with (2 * PI) by lra; rewrite ?cos_2PI, ?sin_2PI; lra.
Qed.
Lemma params_eq : conic_parameters a (2 * b) c (2 * d) (2 * f) g = Ok (x0, y0, fst long_short, snd long_short, rust_rem raw_phi PI).
Proof.
  unfold conic_parameters. replace (2 * b / 2) with b by lra. replace (2 * d / 2) with d by lra. replace (2 * f / 2) with f by lra.
  cbn zeta. fold den. destruct (Rlt_dec 0 den); [lra |]. destruct (Req_EM_T den 0); [lra |]. fold N2 fac. fold Ap2 Bp2.
  unfold long_short, raw_phi. destruct (Rle_dec (sqrt Ap2) (sqrt Bp2)); reflexivity.
Qed.
End Conic.

(** A whole number of half turns does not change an ellipse. *)
Lemma cos_sin_Z k x : exists s, (s = 1 \/ s = -1) /\ cos (x + IZR k * PI) = s * cos x /\ sin (x + IZR k * PI) = s * sin x.
Proof.
  assert (P : forall n, exists s, (s = 1 \/ s = -1) /\ forall y, cos (y + INR n * PI) = s * cos y /\ sin (y + INR n * PI) = s * sin y).
  { induction n as [| n (s & Hs & IH)].
    - exists 1. split; [left; reflexivity |]. intros y. cbn [INR]. replace (y + 0 * PI) with y by lra. split; ring.
    - exists (- s). split; [destruct Hs; subst; [right | left]; lra |]. intros y. rewrite S_INR. replace (y + (INR n + 1) * PI) with ((y + INR n * PI) + PI) by lra.
      rewrite neg_cos, neg_sin. destruct (IH y) as [-> ->]. split; ring. }
  destruct (Z_le_gt_dec 0 k) as [K | K].
  - destruct (P (Z.to_nat k)) as (s & Hs & E). exists s. split; [exact Hs |]. specialize (E x). rewrite INR_IZR_INZ, Z2Nat.id in E by exact K. exact E.
  - destruct (P (Z.to_nat (- k))) as (s & Hs & E). exists s. split; [exact Hs |]. specialize (E (x + IZR k * PI)).
    rewrite INR_IZR_INZ, Z2Nat.id, opp_IZR in E by lia. replace (x + IZR k * PI + - IZR k * PI) with x in E by lra. destruct E as [E1 E2].
    rewrite E1, E2. destruct Hs; subst; split; ring.
Qed.
Lemma on_ellipse_Z k x0 y0 ap bp psi x y : on_ellipse x0 y0 ap bp (psi + IZR k * PI) x y <-> on_ellipse x0 y0 ap bp psi x y.
Proof.
  unfold on_ellipse. destruct (cos_sin_Z k psi) as (s & Hs & -> & ->).
  assert (E : forall u v w z, ((u * (s * w) + v * (s * z)) / ap) ^ 2 = ((u * w + v * z) / ap) ^ 2) by (intros; destruct Hs; subst; unfold Rdiv; ring).
  assert (E' : forall u v w z, ((v * (s * w) - u * (s * z)) / bp) ^ 2 = ((v * w - u * z) / bp) ^ 2) by (intros; destruct Hs; subst; unfold Rdiv; ring).
  rewrite E, E'. reflexivity.
Qed.
Lemma rem_Z x : exists k, rust_rem x PI = x + IZR k * PI.
Proof. exists (- trunc (x / PI))%Z. unfold rust_rem. rewrite opp_IZR. ring. Qed.

Lemma real_halves a b c d f g : real_ellipse a b c d f g ->
  (b / 2) * (b / 2) - a * c < 0 /\ (a + c) * (a * (f / 2) * (f / 2) + c * (d / 2) * (d / 2) + g * (b / 2) * (b / 2) - 2 * (b / 2) * (d / 2) * (f / 2) - a * c * g) > 0.
Proof. unfold real_ellipse. intros [A B]. split; [lra |]. lra. Qed.

Lemma conic_common a b c d f g : real_ellipse a b c d f g -> exists x0 y0 ap bp o, conic_parameters a b c d f g = Ok (x0, y0, ap, bp, o) /\ 0 < bp <= ap /\ - PI < o < PI /\
  ((1e-12 <= Rabs (b / 2) /\ Rabs a <= Rabs c) \/ (b = 0 /\ Rabs c <= Rabs a) -> forall x y, conic a b c d f g x y = 0 <-> on_ellipse x0 y0 ap bp o x y) /\
  ((1e-12 <= Rabs (b / 2) /\ Rabs c < Rabs a) \/ (b = 0 /\ Rabs a < Rabs c) -> forall x y, conic a b c d f g x y = 0 <-> on_ellipse x0 y0 ap bp (o + PI / 2) x y).
Proof.
  intros H. destruct (real_halves _ _ _ _ _ _ H) as [D N]. clear H.
  replace b with (2 * (b / 2)) by lra. replace d with (2 * (d / 2)) by lra. replace f with (2 * (f / 2)) by lra.
  replace (2 * (b / 2) / 2) with (b / 2) by lra.
  assert (Hb0 : 2 * (b / 2) = 0 <-> b / 2 = 0) by lra. set (b' := b / 2) in *. set (d' := d / 2) in *. set (f' := f / 2) in *. clearbody b' d' f'. clear b d f.
  rewrite (params_eq a b' c d' f' g D). do 5 eexists. split; [reflexivity |]. split; [apply long_short_ok; assumption |].
  destruct (rem_Z (raw_phi a b' c d' f' g)) as [k Ek]. split.
  { pose proof PI_RGT_0. destruct (Rle_dec 0 (raw_phi a b' c d' f' g)) as [P | P].
    - pose proof (rem_pos (raw_phi a b' c d' f' g) PI ltac:(lra) P). lra.
    - pose proof (rem_neg (raw_phi a b' c d' f' g) PI ltac:(lra) ltac:(lra)). lra. }
  split; intros Hc x y.
  - rewrite Ek, on_ellipse_Z. apply (raw_good a b' c d' f' g D N). tauto.
  - rewrite Ek. replace (raw_phi a b' c d' f' g + IZR k * PI + PI / 2) with (raw_phi a b' c d' f' g + PI / 2 + IZR k * PI) by lra. rewrite on_ellipse_Z.
    apply (raw_bad a b' c d' f' g D N). tauto.
Qed.
(** A quarter turn from the major axis describes another ellipse. *)
Lemma quarter_wrong x0 y0 ap bp o : 0 < bp < ap -> exists x y, on_ellipse x0 y0 ap bp (o + PI / 2) x y /\ ~ on_ellipse x0 y0 ap bp o x y.
Proof.
  intros H. exists (x0 + ap * cos (o + PI / 2)), (y0 + ap * sin (o + PI / 2)). unfold on_ellipse.
  assert (Hc : cos (o + PI / 2) = - sin o) by (rewrite cos_plus, cos_PI2, sin_PI2; ring).
  assert (Hs : sin (o + PI / 2) = cos o) by (rewrite sin_plus, cos_PI2, sin_PI2; ring).
  rewrite !Hc, !Hs. pose proof (cs o) as One. set (C := cos o) in *. set (S := sin o) in *. split.
  - replace ((x0 + ap * - S - x0) * - S + (y0 + ap * C - y0) * C) with (ap * (C * C + S * S)) by ring.
    replace ((y0 + ap * C - y0) * - S - (x0 + ap * - S - x0) * C) with 0 by ring. rewrite One. field. lra.
  - replace ((x0 + ap * - S - x0) * C + (y0 + ap * C - y0) * S) with 0 by ring.
    replace ((y0 + ap * C - y0) * C - (x0 + ap * - S - x0) * S) with (ap * (C * C + S * S)) by ring. rewrite One. intros E.
    assert (Q : 1 < ap / bp). { apply Rmult_lt_reg_r with bp; [lra |]. unfold Rdiv. rewrite Rmult_assoc, Rinv_l by lra. lra. }
    assert (E2 : (ap / bp) ^ 2 = 1). { rewrite <- E. unfold Rdiv. ring. } nra.
Qed.
Lemma conic_wrong a b c d f g : real_ellipse a b c d f g ->
  (1e-12 <= Rabs (b / 2) /\ Rabs c < Rabs a) \/ (b = 0 /\ Rabs a < Rabs c) ->
  forall x0 y0 ap bp o, conic_parameters a b c d f g = Ok (x0, y0, ap, bp, o) -> bp < ap ->
  exists x y, conic a b c d f g x y = 0 /\ ~ on_ellipse x0 y0 ap bp o x y.
Proof.
  intros H Hc x0 y0 ap bp o E L. destruct (conic_common a b c d f g H) as (x1 & y1 & ap1 & bp1 & o1 & E1 & P & _ & _ & B).
  rewrite E in E1. assert (x1 = x0 /\ y1 = y0 /\ ap1 = ap /\ bp1 = bp /\ o1 = o) as (-> & -> & -> & -> & ->) by (repeat split; congruence).
  destruct (quarter_wrong x0 y0 ap bp o ltac:(lra)) as (x & y & On & Off). exists x, y. split; [apply (B Hc); exact On | exact Off].
Qed.
Lemma conic_reject a b c d f g : 4 * a * c <= b ^ 2 -> forall r, conic_parameters a b c d f g <> Ok r.
Proof.
  intros H r. unfold conic_parameters. cbn zeta. set (den := b / 2 * (b / 2) - a * c). assert (0 <= den) by (unfold den; lra).
  destruct (Rlt_dec 0 den); [discriminate |]. destruct (Req_EM_T den 0); [discriminate | lra].
Qed.
Lemma Int_part_0 r : 0 <= r < 1 -> Int_part r = 0%Z.
Proof.
  intros H. destruct (base_Int_part r) as [A B]. assert (-1 < Int_part r)%Z by (apply lt_IZR; lra). assert (Int_part r < 1)%Z by (apply lt_IZR; lra). lia.
Qed.
(** x^2/4 + y^2 = 1. *)
Lemma ex_real : real_ellipse (1/4) 0 1 0 0 (-1).
Proof. unfold real_ellipse. split; lra. Qed.
Lemma ex_params : exists o, conic_parameters (1/4) 0 1 0 0 (-1) = Ok (0, 0, 2, 1, o) /\ o = PI / 2.
Proof.
  unfold conic_parameters. cbn zeta. set (den := 0 / 2 * (0 / 2) - 1 / 4 * 1). assert (D : den = -(1/4)) by (unfold den; lra). rewrite D. clear D den.
  destruct (Rlt_dec 0 (-(1/4))); [lra |]. destruct (Req_EM_T (-(1/4)) 0); [lra |].
  assert (F : sqrt ((1 / 4 - 1) * (1 / 4 - 1) + 4 * (0 / 2) * (0 / 2)) = 3/4).
  { replace ((1 / 4 - 1) * (1 / 4 - 1) + 4 * (0 / 2) * (0 / 2)) with ((3/4) * (3/4)) by lra. apply sqrt_square. lra. }
  rewrite F. clear F.
  set (A := sqrt (_ / (_ * (3 / 4 - _)))). set (B := sqrt (_ / (_ * (- (3 / 4) - _)))).
  assert (HA : A = 2). { unfold A. match goal with |- sqrt ?t = _ => replace t with (2 * 2) by (field; lra) end. apply sqrt_square. lra. }
  assert (HB : B = 1). { unfold B. match goal with |- sqrt ?t = _ => replace t with 1 by (field; lra) end. apply sqrt_1. }
  rewrite HA, HB. destruct (Rle_dec 2 1); [lra |]. destruct (Rlt_dec (Rabs (0 / 2)) 1e-12) as [_ | X].
  2: { exfalso. apply X. replace (0 / 2) with 0 by lra. rewrite Rabs_R0. lra. }
  destruct (Rlt_dec (1/4) 1); [| lra]. destruct (Rlt_dec (Rabs 1) (Rabs (1/4))) as [X | _]; [rewrite !Rabs_right in X by lra; lra |].
  eexists. split; [f_equal; f_equal; f_equal; f_equal; f_equal; lra |]. unfold rust_rem, trunc. pose proof PI_RGT_0.
  replace ((0 + PI / 2) / PI) with (1/2) by (field; lra). destruct (Rle_dec 0 (1/2)); [| lra].
  assert (Int_part (1/2) = 0%Z) as ->; [| lra]. apply Int_part_0. lra.
Qed.
(** -x^2 - x y - 2 y^2 = -1: the direction is reported as -PI/8. *)
Lemma ex_negative : exists x0 y0 ap bp o, conic_parameters (-1) (-1) (-2) 0 0 1 = Ok (x0, y0, ap, bp, o) /\ o < 0.
Proof.
  assert (H : real_ellipse (-1) (-1) (-2) 0 0 1) by (unfold real_ellipse; split; lra). destruct (real_halves _ _ _ _ _ _ H) as [D N].
  pose proof (params_eq (-1) (-1/2) (-2) (0/2) (0/2) 1 D) as E. replace (2 * (-1/2)) with (-1) in E by lra. replace (2 * (0/2)) with 0 in E by lra.
  rewrite E. do 5 eexists. split; [reflexivity |]. unfold raw_phi.
  destruct (Rlt_dec (Rabs (-1/2)) 1e-12) as [X | _]; [rewrite Rabs_left in X by lra; lra |].
  destruct (Rlt_dec (Rabs (-2)) (Rabs (-1))) as [X | _]; [rewrite !Rabs_left in X by lra; lra |].
  destruct (fac_pos_cases _ _ _ _ _ _ D N) as [Z | [(_ & S & _) | (_ & _ & L)]].
  - exfalso. pose proof (fac_sq (-1) (-1/2) (-2)) as F. rewrite Z in F. lra.
  - lra.
  - destruct (Rle_dec _ _) as [_ | X]; [| lra]. assert (A : atan2 (2 * (-1 / 2)) (-1 - -2) = - (PI / 4)).
    { unfold atan2. destruct (Rlt_dec 0 (-1 - -2)); [| lra]. assert (Q : 2 * (-1 / 2) / (-1 - -2) = - (1)) by (replace (-1 - -2) with 1 by lra; lra). rewrite Q. rewrite atan_opp, atan_1. reflexivity. }
    rewrite A. pose proof PI_RGT_0. unfold rust_rem, trunc. assert (Q8 : 0.5 * - (PI / 4) / PI = - (1/8)) by (apply Rmult_eq_reg_r with PI; [unfold Rdiv at 1; rewrite Rmult_assoc, Rinv_l by lra; lra | lra]). rewrite Q8.
    destruct (Rle_dec 0 (- (1/8))); [lra |]. assert (Int_part (- - (1/8)) = 0%Z) as ->; [| cbn; lra]. apply Int_part_0. lra.
Qed.
