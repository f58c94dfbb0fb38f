(** The rings outside the local region, and the whole distribution. *)
From Coq Require Import Reals Lra Lia ZArith.
From Verif Require Import Common Hires_model Hires_spec Hires_sizes Hires_grid.
Open Scope R_scope.

Lemma round_near x : Rabs (x - IZR (round x)) <= 1 / 2.
Proof.
  unfold round. destruct (base_Int_part x) as [A B]. destruct (Rlt_dec _ _) as [C|C]; [apply Rabs_le; lra|]. destruct (Rlt_dec _ _) as [D|D]; [rewrite plus_IZR; apply Rabs_le; lra|].
  destruct (Z.even _); [|rewrite plus_IZR]; apply Rabs_le; lra.
Qed.
Lemma exterior_ends radius size pix : 0 < radius -> 0 < pix -> (forall r, pix <= size r) -> forall n theta, PI - theta <= INR n * (pix / radius) -> exists l, exterior n radius size theta = Some l.
Proof.
  intros P X S. induction n as [|n IH]; intros theta H; cbn [exterior]; destruct (Rlt_dec theta PI) as [A|A]; try (eexists; reflexivity).
  - cbn in H. lra.
  - destruct (exterior_step radius size theta) as [g t] eqn:E. destruct (IH t) as [l ->]; [|eexists; reflexivity].
    unfold exterior_step in E. assert (D : 0 < / radius) by (apply Rinv_0_lt_compat; exact P). destruct (Rlt_dec _ _); injection E as <- <-.
    + assert (0 <= INR n * (pix / radius)); [|lra]. apply Rmult_le_pos; [apply pos_INR|]. apply Rmult_le_pos; lra.
    + rewrite S_INR in H. assert (pix / radius <= size (radius * theta) / radius); [|lra]. apply Rmult_le_compat_r; [lra|apply S].
Qed.
Lemma exterior_spec radius size : 0 < radius -> (forall r, 0 < size r) -> forall fuel theta l, exterior fuel radius size theta = Some l ->
  successive radius size theta l /\
  (forall t n, In (t, n) l -> theta <= t /\ radius * t + size (radius * t) <= PI * radius /\ n = Z.max 1 (round (2 * PI * radius * sin t / size (radius * t)))) /\
  (l <> [] -> forall r, radius * theta <= r <= PI * radius -> exists t n, In (t, n) l /\ radius * t <= r < radius * t + size (radius * t) + size (radius * t + size (radius * t))).
Proof.
  intros P S. induction fuel as [|fuel IH]; intros theta l; cbn [exterior]; destruct (Rlt_dec theta PI) as [A|A]; try discriminate; try (intros [= <-]; split; [exact I|]; split; [intros ? ? []|intros H; contradiction]).
  unfold exterior_step. destruct (Rlt_dec (PI * radius - radius * theta) (size (radius * theta))) as [B|B].
  - assert (E : exterior fuel radius size PI = Some []) by (destruct fuel; cbn [exterior]; (destruct (Rlt_dec PI PI); [lra|reflexivity])). rewrite E. cbn [option_map].
    intros [= <-]. split; [exact I|]. split; [intros ? ? []|intros H; contradiction].
  - destruct (exterior fuel radius size (theta + size (radius * theta) / radius)) as [l'|] eqn:E; [|discriminate]. cbn [option_map]. intros [= <-].
    destruct (IH _ _ E) as (I1 & I2 & I3). pose proof (S (radius * theta)) as Z.
    assert (D : 0 < size (radius * theta) / radius) by (apply Rmult_lt_0_compat; [exact Z|apply Rinv_0_lt_compat; exact P]).
    assert (M : radius * (theta + size (radius * theta) / radius) = radius * theta + size (radius * theta)) by (field; lra). split; [split; [reflexivity|exact I1]|]. split.
    + intros t n [[= <- <-]|J]; [repeat split; lra|]. destruct (I2 t n J) as (J1 & J2 & J3). repeat split; [lra|exact J2|exact J3].
    + intros _ r [R1 R2]. rewrite M in I3. destruct (Rlt_dec r (radius * theta + size (radius * theta))) as [Q|Q].
      * exists theta. eexists. split; [left; reflexivity|]. pose proof (S (radius * theta + size (radius * theta))). lra.
      * destruct l' as [|[t1 n1] l1].
        { exists theta. eexists. split; [left; reflexivity|]. split; [lra|]. pose proof (S (radius * theta + size (radius * theta))) as Y.
          destruct fuel as [|fuel]; cbn [exterior] in E; destruct (Rlt_dec (theta + size (radius * theta) / radius) PI) as [F|F]; try discriminate.
          - assert (PI * radius <= radius * theta + size (radius * theta)); [|lra]. rewrite <- M, Rmult_comm. apply Rmult_le_compat_l; lra.
          - unfold exterior_step in E. rewrite M in E. destruct (Rlt_dec _ _) as [G|G]; [lra|]. destruct (exterior fuel _ _ _); discriminate.
          - assert (PI * radius <= radius * theta + size (radius * theta)); [|lra]. rewrite <- M, Rmult_comm. apply Rmult_le_compat_l; lra. }
        { destruct (I3 ltac:(discriminate) r ltac:(lra)) as (t & n & J & K). exists t, n. split; [right; exact J|exact K]. }
Qed.
Lemma spacing c s : 0 < s -> 0 <= c -> let n := Z.max 1 (round (c / s)) in
  (1 <= n)%Z /\ (n = 1%Z -> c <= 3 / 2 * s) /\ ((2 <= n)%Z -> 3 / 4 * s <= c / IZR n <= 5 / 4 * s).
Proof.
  intros P C. cbn zeta. assert (A : - (1 / 2) <= c / s - IZR (round (c / s)) <= 1 / 2) by (pose proof (round_near (c / s)) as A; unfold Rabs in A; destruct (Rcase_abs _); lra). set (x := c / s) in *. set (z := round x) in *. assert (E : c = x * s) by (unfold x; field; lra).
  split; [lia|]. split.
  - intros N. assert (z <= 1)%Z by lia. apply IZR_le in H. rewrite E. apply Rmult_le_compat_r; lra.
  - intros N. replace (Z.max 1 z) with z in * by lia. apply IZR_le in N. assert (I : 0 < IZR z) by lra. rewrite E.
    replace (x * s / IZR z) with (x / IZR z * s) by (field; lra). assert (3 / 4 <= x / IZR z <= 5 / 4).
    { split; apply Rmult_le_reg_r with (IZR z); try exact I; unfold Rdiv at 2; try (unfold Rdiv at 1); rewrite ?Rmult_assoc, ?Rinv_l by lra; lra. }
    split; apply Rmult_le_compat_r; lra.
Qed.
Lemma archimed_nat x : exists n, x < INR n.
Proof.
  destruct (archimed x) as [A _]. exists (Z.to_nat (up x)). rewrite INR_IZR_INZ. destruct (Z_le_gt_dec 0 (up x)) as [L|L]; [rewrite Z2Nat.id by exact L; lra|].
  replace (Z.to_nat (up x)) with 0%nat by lia. assert (IZR (up x) < 0) by (apply IZR_lt; lia). cbn. lra.
Qed.
Lemma generate_all radius pix loc f h k size : 0 < radius -> make radius pix loc f = Ok h -> 2 * loc < PI * radius -> faces_across pix loc k -> (forall r, has_size h r (size r)) ->
  exists enough, forall fuel, (enough <= fuel)%nat -> exists pts rings, generate fuel h = Some (Ok (pts, rings)) /\
    NoDup pts /\ (forall p, In p pts <-> lattice (pix / radius) k p) /\ successive radius size (INR (S k) * (pix / radius)) rings /\
    (forall t n, In (t, n) rings -> INR (S k) * (pix / radius) <= t /\ radius * t + size (radius * t) <= PI * radius /\ (1 <= n)%Z /\
      (n = 1%Z -> 2 * PI * radius * sin t <= 3 / 2 * size (radius * t)) /\ ((2 <= n)%Z -> 3 / 4 * size (radius * t) <= 2 * PI * radius * sin t / IZR n <= 5 / 4 * size (radius * t))) /\
    (rings <> [] -> forall r, INR (S k) * pix <= r <= PI * radius -> exists t n, In (t, n) rings /\ radius * t <= r < radius * t + size (radius * t) + size (radius * t + size (radius * t))).
Proof.
  intros P M D K Z. apply make_ok in M as (-> & A & B & C). assert (N : PI * radius - 2 * loc <> 0) by lra.
  assert (SZ : forall r, size r = lin radius pix loc f r) by (intros r; apply (proj1 (sizes_fresh radius pix loc f r (size r) N)), Z).
  assert (GE : forall r, pix <= lin radius pix loc f r) by (intros r; apply lin_ge; lra).
  assert (DD : 0 < pix / radius) by (apply Rmult_lt_0_compat; [exact A|apply Rinv_0_lt_compat; exact P]).
  destruct (archimed_nat (PI / (pix / radius))) as [m Hm]. exists (k + 1 + m)%nat. intros fuel F.
  destruct (interior_all radius pix loc k P A (proj1 B) K ltac:(lra) fuel ltac:(lia)) as (pts & E & ND & IN). unfold generate. cbn [h_radius h_pix h_local]. rewrite E.
  assert (T : INR (S k) * (pix / radius) < PI).
  { apply Rmult_lt_reg_r with radius; [exact P|]. replace (INR (S k) * (pix / radius) * radius) with (INR (S k) * pix) by (field; lra). rewrite S_INR. destruct K. lra. }
  destruct (Rlt_dec (INR (S k) * (pix / radius)) PI) as [_|]; [|lra]. rewrite slope_fresh by exact N. unfold exponent. cbn [h_exp h_radius h_pix h_local h_factor h_slope].
  set (sz := size_of _ _ _). assert (SZ2 : forall r, sz r = lin radius pix loc f r) by (intros r; unfold sz; apply size_lin; [exact N|reflexivity..]).
  destruct (exterior_ends radius sz pix P A ltac:(intros r; rewrite SZ2; apply GE) fuel (INR (S k) * (pix / radius))) as [rings X].
  { assert (PI <= INR fuel * (pix / radius)); [|pose proof (Rmult_le_pos _ _ (pos_INR (S k)) (Rlt_le _ _ DD)); lra]. apply Rle_trans with (INR m * (pix / radius)).
    - apply Rmult_le_reg_r with (/ (pix / radius)); [apply Rinv_0_lt_compat; exact DD|]. rewrite Rmult_assoc, Rinv_r by lra. unfold Rdiv in Hm at 1. lra.
    - apply Rmult_le_compat_r; [lra|apply le_INR; lia]. }
  rewrite X. cbn [option_map]. exists pts, rings. split; [reflexivity|]. split; [exact ND|]. split; [exact IN|].
  destruct (exterior_spec radius sz P ltac:(intros r; rewrite SZ2; pose proof (GE r); lra) fuel _ rings X) as (S1 & S2 & S3).
  assert (EX : forall r, sz r = size r) by (intros r; rewrite SZ2, SZ; reflexivity). split.
  { clear -S1 EX. revert S1. generalize (INR (S k) * (pix / radius)). induction rings as [|[t n] l IH]; intros th H; [exact I|]. cbn in *. rewrite EX in H. split; [apply H|apply IH, H]. }
  split.
  - intros t n J. destruct (S2 t n J) as (J1 & J2 & J3). rewrite EX in J2, J3. split; [exact J1|]. split; [exact J2|].
    assert (0 < size (radius * t)) by (rewrite SZ; pose proof (GE (radius * t)); lra).
    assert (T1 : 0 <= 2 * PI * radius * sin t).
    { pose proof PI_RGT_0. apply Rmult_le_pos; [apply Rmult_le_pos; lra|]. apply sin_ge_0; [pose proof (Rmult_le_pos _ _ (pos_INR (S k)) (Rlt_le _ _ DD)); lra|].
      apply Rmult_le_reg_r with radius; [exact P|]. lra. }
    pose proof (spacing (2 * PI * radius * sin t) (size (radius * t)) H T1) as S. cbn zeta in S. rewrite <- J3 in S. exact S.
  - intros NE r [R1 R2]. destruct (S3 NE r) as (t & n & J & Q); [replace (radius * (INR (S k) * (pix / radius))) with (INR (S k) * pix) by (field; lra); lra|]. exists t, n. split; [exact J|]. rewrite <- !EX. exact Q.
Qed.
(* ------------------------------ endless loops ------------------------------ *)
Lemma antipode_endless radius pix f h : 0 < radius -> make radius pix (PI * radius) f = Ok h -> forall fuel, generate fuel h = None.
Proof.
  intros P M fuel. apply make_ok in M as (-> & A & B & C). unfold generate. cbn [h_radius h_pix h_local].
  assert (DD : 0 < pix / radius) by (apply Rmult_lt_0_compat; [exact A|apply Rinv_0_lt_compat; exact P]).
  assert (G : forall fuel theta, theta <= PI -> theta = 0 \/ pix / radius <= theta -> interior fuel radius pix (PI * radius) theta = None).
  { clear fuel. replace (PI * radius) with (PI * radius) by reflexivity. induction fuel as [|fuel IH]; intros theta T S; cbn [interior]; replace (PI * radius / radius) with PI by (field; lra); destruct (Rle_dec theta PI); try lra; [reflexivity|].
    assert (L : pix / radius <= PI) by (apply Rmult_le_reg_r with radius; [exact P|]; replace (pix / radius * radius) with pix by (field; lra); lra).
    unfold interior_step. destruct (Rlt_dec (radius * theta) pix) as [X|X].
    - rewrite IH; [reflexivity| |].
      + destruct S as [->|S]; [lra|]. exfalso. apply (Rmult_le_compat_l radius) in S; [|lra]. replace (radius * (pix / radius)) with pix in S by (field; lra). lra.
      + right. destruct S; lra.
    - destruct (Rlt_dec _ _) as [Y|Y].
      + rewrite IH; [reflexivity|lra|right; exact L].
      + cbn zeta. rewrite IH; [reflexivity| |right; destruct S; lra]. apply Rmult_le_reg_r with radius; [exact P|]. rewrite Rmult_plus_distr_r. replace (pix / radius * radius) with pix by (field; lra). lra. }
  rewrite G; [reflexivity|pose proof PI_RGT_0; lra|left; reflexivity].
Qed.
Lemma wide_endless radius pix loc f h : 0 < radius -> make radius pix loc f = Ok h -> loc + pix <= PI * radius -> (f - 1) * pix < 2 * loc - PI * radius < (f - 1) * (PI * radius - loc) -> forall fuel, generate fuel h = None.
Proof.
  intros P M O [H1 H2] fuel. apply make_ok in M as (-> & A & B & C). destruct (faces_exist pix loc A ltac:(lra)) as [k K]. unfold generate. cbn [h_radius h_pix h_local].
  assert (W : 0 < 2 * loc - PI * radius). { assert (0 <= (f - 1) * pix) by (apply Rmult_le_pos; lra). lra. } assert (N : PI * radius - 2 * loc <> 0) by lra.
  assert (F1 : 0 < f - 1). { destruct (Req_dec (f - 1) 0) as [E|]; [rewrite E in H2; lra|lra]. }
  destruct (interior fuel radius pix loc 0) as [[pts theta]|] eqn:E; [|reflexivity].
  assert (TH : theta = INR (S k) * (pix / radius)).
  { assert (MO : forall n m t r, interior n radius pix loc t = Some r -> (n <= m)%nat -> interior m radius pix loc t = Some r).
    { clear. induction n as [|n IH]; intros m t r; [destruct m; cbn [interior]; destruct (Rle_dec t (loc / radius)); try discriminate; auto|]. intros I L. destruct m as [|m]; [lia|]. cbn [interior] in *. destruct (Rle_dec t (loc / radius)); [|exact I].
      destruct (interior_step radius pix t) as [p u]. destruct (interior n radius pix loc u) as [q|] eqn:Q; [|discriminate]. rewrite (IH m u q Q) by lia. exact I. }
    destruct (interior_all radius pix loc k P A (proj1 B) K O (fuel + (k + 1)) ltac:(lia)) as (l & E2 & _). rewrite (MO _ (fuel + (k + 1))%nat _ _ E ltac:(lia)) in E2. injection E2 as _ ->. reflexivity. }
  assert (T : radius * theta <= loc + pix). { rewrite TH. replace (radius * (INR (S k) * (pix / radius))) with (INR (S k) * pix) by (field; lra). rewrite S_INR. destruct K. lra. }
  assert (T0 : loc <= radius * theta). { rewrite TH. replace (radius * (INR (S k) * (pix / radius))) with (INR (S k) * pix) by (field; lra). rewrite S_INR. destruct K. lra. }
  destruct (Rlt_dec theta PI) as [L|L].
  2: { exfalso. apply L. apply Rmult_lt_reg_l with radius; [exact P|]. assert (pix < PI * radius - loc); [|lra]. apply Rmult_lt_reg_l with (f - 1); [exact F1|lra]. }
  rewrite slope_fresh by exact N. unfold exponent. cbn [h_exp h_radius h_pix h_local h_factor h_slope]. set (sz := size_of _ _ _).
  set (a := pix * (f - 1) / (2 * loc - PI * radius)). set (z := loc + (2 * loc - PI * radius) / (f - 1)).
  assert (A0 : 0 < a). { apply Rmult_lt_0_compat; [apply Rmult_lt_0_compat; lra|apply Rinv_0_lt_compat; exact W]. }
  assert (A1 : a < 1). { apply Rmult_lt_reg_r with (2 * loc - PI * radius); [exact W|]. unfold a. replace (pix * (f - 1) / (2 * loc - PI * radius) * (2 * loc - PI * radius)) with (pix * (f - 1)) by (field; lra). lra. }
  assert (ZP : z < PI * radius). { unfold z. assert ((2 * loc - PI * radius) / (f - 1) < PI * radius - loc); [|lra]. apply Rmult_lt_reg_r with (f - 1); [exact F1|]. replace ((2 * loc - PI * radius) / (f - 1) * (f - 1)) with (2 * loc - PI * radius) by (field; lra). lra. }
  assert (SZ : forall r, loc <= r -> sz r = a * (z - r)).
  { intros r Lr. unfold sz. rewrite (size_lin radius pix loc f) by (try exact N; reflexivity). unfold lin. destruct (Rlt_dec r loc); [lra|]. unfold a, z. field. split; lra. }
  assert (Z0 : radius * theta < z).
  { apply Rle_lt_trans with (loc + pix); [exact T|]. unfold z. assert (pix < (2 * loc - PI * radius) / (f - 1)); [|lra]. apply Rmult_lt_reg_r with (f - 1); [exact F1|]. replace ((2 * loc - PI * radius) / (f - 1) * (f - 1)) with (2 * loc - PI * radius) by (field; lra). lra. }
  assert (G : forall n theta, loc <= radius * theta < z -> exterior n radius sz theta = None).
  { clear - P A0 A1 ZP SZ. induction n as [|n IH]; intros theta [T1 T2]; cbn [exterior].
    - destruct (Rlt_dec theta PI) as [|X]; [reflexivity|]. exfalso. apply X. apply Rmult_lt_reg_l with radius; [exact P|lra].
    - destruct (Rlt_dec theta PI) as [_|X]; [|exfalso; apply X; apply Rmult_lt_reg_l with radius; [exact P|lra]].
      unfold exterior_step. assert (Q : 0 < sz (radius * theta) < z - radius * theta).
      { rewrite SZ by exact T1. split; [apply Rmult_lt_0_compat; lra|]. rewrite <- (Rmult_1_l (z - radius * theta)) at 2. apply Rmult_lt_compat_r; lra. }
      destruct (Rlt_dec _ _) as [Y|Y]; [lra|]. rewrite IH; [reflexivity|]. replace (radius * (theta + sz (radius * theta) / radius)) with (radius * theta + sz (radius * theta)) by (field; lra). lra. }
  rewrite G; [reflexivity|lra].
Qed.
