(** Lemmas about near and far points, turns, ray counts and array shapes. *)
From Coq Require Import Reals ZArith List Permutation Lra Lia.
From Verif Require Import Common Trig_model Geo_proofs Profile_model Ray_model Ray_spec Ray_proofs.
Open Scope R_scope.

Lemma sum_pos {A} (f : A -> R) l a : (forall b, In b l -> 0 <= f b) -> In a l -> 0 < f a -> 0 < sum_list (map f l).
Proof.
  induction l as [|b l IH]; intros H I P; [destruct I|]. cbn [map sum_list fold_right].
  change (0 < f b + sum_list (map f l)).
  pose proof (H b (or_introl eq_refl)). assert (N : forall x, In x l -> 0 <= f x) by (intros x X; apply H; right; exact X).
  destruct I as [I|I].
  - subst b. pose proof (sum_nonneg f l N). lra.
  - pose proof (IH N I P). lra.
Qed.

Lemma sum_zero {A} (f : A -> R) l : (forall b, In b l -> f b = 0) -> sum_list (map f l) = 0.
Proof.
  induction l as [|b l IH]; intros H; [reflexivity|]. cbn [map sum_list fold_right].
  change (f b + sum_list (map f l) = 0). rewrite (H b (or_introl eq_refl)), (IH (fun x X => H x (or_intror X))). lra.
Qed.

(** ** Near and far points *)
Lemma raw_near erf d c r t x : positive_erf erf -> drawn d -> 0 < c -> In x (numbers d) -> c <= r < (1 + x) * c ->
  0 < ray_intensity_point erf d c r t.
Proof.
  intros E [_ [L U]] C I [A B]. unfold ray_intensity_point. destruct (Rlt_dec r c); [lra|].
  destruct (In_nth _ _ 0 I) as [j [J N]]. rewrite L in J.
  apply sum_pos with j.
  - intros k _. apply term_nonneg. exact E.
  - apply in_seq. unfold NPATT. lia.
  - unfold pattern_term. cbv zeta. rewrite N. apply Rmult_lt_0_compat; [apply reduction_pos|].
    assert (1 <= r / c < 1 + x).
    { split; [apply Rmult_le_reg_r with c|apply Rmult_lt_reg_r with c]; try exact C; unfold Rdiv; rewrite Rmult_assoc, Rinv_l by lra; lra. }
    pose proof (U x I). unfold ray_intensity_func, ray_rmax.
    destruct (Rle_dec _ 0); [lra|]. destruct (Rlt_dec 100 _); [lra|]. destruct (Rlt_dec _ 1); lra.
Qed.

Lemma raw_far erf d c r t : drawn d -> 0 < c -> 101 * c < r -> ray_intensity_point erf d c r t = 0.
Proof.
  intros [_ [L U]] C F. unfold ray_intensity_point. destruct (Rlt_dec r c); [reflexivity|].
  apply sum_zero. intros j J. apply in_seq in J. unfold pattern_term. cbv zeta.
  assert (X : 0 <= nth j (numbers d) 0 < 1).
  { apply U. apply nth_In. rewrite L. unfold NPATT in J. lia. }
  assert (101 < r / c) by (apply Rmult_lt_reg_r with c; [exact C|]; unfold Rdiv; rewrite Rmult_assoc, Rinv_l by lra; lra).
  unfold ray_intensity_func, ray_rmax. destruct (Rle_dec _ 0); [ring|]. destruct (Rlt_dec 100 _); [ring|lra].
Qed.

Theorem near erf d rs ts dm vs i r t v x : positive_erf erf -> drawn d -> sized dm -> ray_intensity erf d rs ts dm = Ok vs ->
  at_point rs ts vs i r t v -> In x (numbers d) -> dm / 2 <= r < (1 + x) * (dm / 2) -> ~ In NaN vs.
Proof.
  intros E D [S1 S2] Q A I H N. destruct (returned _ _ _ _ _ _ _ _ _ _ Q A) as [_ J].
  assert (P : 0 < max_outside erf d (dm / 2) (combine rs ts)).
  { pose proof (raw_near erf d (dm / 2) r t x E D ltac:(lra) I H).
    pose proof (max_le erf d (dm / 2) _ _ J (proj1 H)) as U. cbn [fst snd] in U. lra. }
  unfold ray_intensity in Q. destruct (Nat.eqb _ _); [|discriminate]. injection Q as <-.
  unfold ray_values in N. apply in_map_iff in N. destruct N as [p [N _]]. cbv zeta in N.
  destruct (outside _ p); [|discriminate]. unfold fdiv in N. destruct (Req_EM_T _ 0); [lra|discriminate].
Qed.

Theorem far erf d rs ts dm vs i r t v : positive_erf erf -> drawn d -> sized dm -> ray_intensity erf d rs ts dm = Ok vs ->
  at_point rs ts vs i r t v -> 101 * (dm / 2) < r -> v = Num 0 \/ v = NaN.
Proof.
  intros E D [S1 S2] Q A F. destruct (value_cases erf d rs ts dm vs i r t v E Q A) as [_ [V1 V2]].
  destruct (Req_dec (max_outside erf d (dm / 2) (combine rs ts)) 0) as [Z|Z].
  - right. apply V1; [lra|exact Z].
  - left. destruct (V2 ltac:(lra) Z) as [V [P _]]. rewrite V. f_equal. rewrite (raw_far erf d (dm / 2) r t D ltac:(lra) F).
    unfold Rdiv. ring.
Qed.

Theorem all_far erf d rs ts dm vs : positive_erf erf -> drawn d -> sized dm -> ray_intensity erf d rs ts dm = Ok vs ->
  (forall r, In r rs -> r < dm / 2 \/ 101 * (dm / 2) < r) ->
  forall i r t v, at_point rs ts vs i r t v -> dm / 2 <= r -> v = NaN.
Proof.
  intros E D [S1 S2] Q F i r t v A H. destruct (value_cases erf d rs ts dm vs i r t v E Q A) as [_ [V1 _]].
  apply V1; [exact H|]. destruct (returned _ _ _ _ _ _ _ _ _ _ Q A) as [_ J].
  destruct (max_in erf d (dm / 2) E _ _ J H) as [[r2 t2] [J2 [O2 <-]]]. cbn [fst snd] in *.
  apply in_combine_l in J2. destruct (F r2 J2); [lra|]. apply raw_far; [exact D|lra|assumption].
Qed.

(** ** Proportions *)
Theorem ratios erf d rs1 ts1 vs1 rs2 ts2 vs2 dm i1 i2 j1 j2 r t r' t' x1 x2 y1 y2 :
  positive_erf erf -> drawn d -> sized dm ->
  ray_intensity erf d rs1 ts1 dm = Ok vs1 -> ray_intensity erf d rs2 ts2 dm = Ok vs2 ->
  at_point rs1 ts1 vs1 i1 r t (Num x1) -> at_point rs2 ts2 vs2 i2 r t (Num x2) ->
  at_point rs1 ts1 vs1 j1 r' t' (Num y1) -> at_point rs2 ts2 vs2 j2 r' t' (Num y2) ->
  x1 * y2 = x2 * y1.
Proof.
  intros E D _ Q1 Q2 A1 A2 B1 B2.
  destruct (value_cases erf d rs1 ts1 dm vs1 _ _ _ _ E Q1 A1) as [a1 [b1 c1]].
  destruct (value_cases erf d rs2 ts2 dm vs2 _ _ _ _ E Q2 A2) as [a2 [b2 c2]].
  destruct (value_cases erf d rs1 ts1 dm vs1 _ _ _ _ E Q1 B1) as [a3 [b3 c3]].
  destruct (value_cases erf d rs2 ts2 dm vs2 _ _ _ _ E Q2 B2) as [a4 [b4 c4]].
  destruct (Rlt_le_dec r (dm / 2)) as [H|H].
  - specialize (a1 H). specialize (a2 H). injection a1 as ->. injection a2 as ->. ring.
  - destruct (Rlt_le_dec r' (dm / 2)) as [K|K].
    + specialize (a3 K). specialize (a4 K). injection a3 as ->. injection a4 as ->. ring.
    + destruct (Req_dec (max_outside erf d (dm / 2) (combine rs1 ts1)) 0) as [Z|Z]; [specialize (b1 H Z); discriminate|].
      destruct (Req_dec (max_outside erf d (dm / 2) (combine rs2 ts2)) 0) as [Y|Y]; [specialize (b2 H Y); discriminate|].
      destruct (c1 H Z) as [X1 _]. destruct (c2 H Y) as [X2 _]. destruct (c3 K Z) as [X3 _]. destruct (c4 K Y) as [X4 _].
      injection X1 as ->. injection X2 as ->. injection X3 as ->. injection X4 as ->. field. split; assumption.
Qed.

Theorem single erf d r t dm vs : positive_erf erf -> drawn d -> sized dm -> ray_intensity erf d [r] [t] dm = Ok vs ->
  dm / 2 <= r -> vs = [Num 1] \/ vs = [NaN].
Proof.
  intros E D S Q H. destruct (range erf d [r] [t] dm vs E D S Q) as [L [_ [N|[_ [i [r1 [t1 [[A [_ C]] _]]]]]]]].
  - right. destruct vs as [|v [|]]; try discriminate. f_equal. apply (N 0%nat r t v); [repeat split|exact H].
  - left. destruct i as [|i]; [|destruct i; discriminate]. destruct vs as [|v [|]]; try discriminate. cbn in C. congruence.
Qed.

(** ** Turns *)
Lemma rem_unique x y k : 0 <= y < TAU -> 0 <= x -> x = y + IZR k * TAU -> rust_rem x TAU = y.
Proof.
  intros Y X Q. pose proof TAU_pos as T. pose proof (rem_pos x TAU T X) as P.
  assert (M : exists z : Z, rust_rem x TAU = y + IZR z * TAU).
  { exists (k - trunc (x / TAU))%Z. unfold rust_rem at 1. rewrite minus_IZR. rewrite Q at 1. ring. }
  destruct M as [z M]. rewrite M in P |- *.
  assert (Z0 : z = 0%Z).
  { assert (-1 < IZR z < 1).
    { split; apply Rmult_lt_reg_r with TAU; lra. }
    destruct H as [A B]. apply lt_IZR in A. apply lt_IZR in B. lia. }
  subst z. lra.
Qed.

Lemma rem_small x : - TAU < x < TAU -> rust_rem x TAU = x.
Proof.
  intros H. pose proof TAU_pos as T. destruct (Rle_lt_dec 0 x) as [P|P].
  - apply (rem_unique x x 0); lra.
  - unfold rust_rem. assert (Z : trunc (x / TAU) = 0%Z); [|rewrite Z; ring].
    assert (Q : -1 < x / TAU < 0).
    { split; apply Rmult_lt_reg_r with TAU; try lra; unfold Rdiv; rewrite Rmult_assoc, Rinv_l by lra; lra. }
    unfold trunc. destruct (Rle_dec 0 (x / TAU)); [lra|].
    destruct (base_Int_part (- (x / TAU))) as [A B].
    assert (IZR (Int_part (- (x / TAU))) < 1) by lra. assert (-1 < IZR (Int_part (- (x / TAU)))) by lra.
    apply lt_IZR in H0. apply lt_IZR in H1. lia.
Qed.

(** Bearings that give the same direction: both remainders are equal, or one is negative, at least
    minus half a turn, and the other is a turn more. *)
Definition same_way (x y : R) : Prop := x = y \/ - PI <= x < 0 /\ y = x + TAU.

Lemma turned x k : - PI <= x -> same_way (rust_rem x TAU) (rust_rem (x + IZR (Z.of_nat k) * TAU) TAU).
Proof.
  intros H. pose proof TAU_pos as T. pose proof PI_RGT_0.
  assert (K : 0 <= IZR (Z.of_nat k)) by (apply (IZR_le 0); lia).
  assert (0 <= IZR (Z.of_nat k) * TAU) by (apply Rmult_le_pos; lra).
  destruct (Rle_lt_dec 0 x) as [P|P].
  - left. symmetry. apply (rem_unique _ _ (trunc (x / TAU) + Z.of_nat k)).
    + apply rem_pos; lra.
    + lra.
    + unfold rust_rem. rewrite plus_IZR. ring.
  - destruct k as [|k].
    + left. f_equal. change (Z.of_nat 0) with 0%Z. ring.
    + right. assert (x > - TAU) by (unfold TAU; lra). rewrite (rem_small x) by lra. split; [lra|].
      assert (0 <= IZR (Z.of_nat k) * TAU) by (apply Rmult_le_pos; [apply (IZR_le 0); lia|lra]).
      assert (Q : IZR (Z.of_nat (S k)) = IZR (Z.of_nat k) + 1) by (rewrite Nat2Z.inj_succ; unfold Z.succ; apply plus_IZR).
      apply (rem_unique _ _ (Z.of_nat k)); rewrite ?Q; lra.
Qed.

Lemma ray_same erf x y b r n w : same_way x y -> 0 < b <= TAU ->
  ejecta_ray_func erf x b r n w = ejecta_ray_func erf y b r n w.
Proof.
  intros [->|[X ->]] B; [reflexivity|]. unfold ejecta_ray_func. cbv zeta.
  assert (Q : Rmin (2 * PI - Rabs (x - b)) (Rabs (x - b)) ^ 2 = Rmin (2 * PI - Rabs (x + TAU - b)) (Rabs (x + TAU - b)) ^ 2).
  { unfold TAU in *. pose proof PI_RGT_0. rewrite (Rabs_left (x - b)) by lra.
    destruct (Rle_lt_dec 0 (x + 2 * PI - b)) as [P|P].
    - rewrite (Rabs_right (x + 2 * PI - b)) by lra. f_equal. unfold Rmin.
      destruct (Rle_dec _ _); destruct (Rle_dec _ _); lra.
    - rewrite (Rabs_left (x + 2 * PI - b)) by lra. rewrite Rmin_left, Rmin_right by lra. ring. }
  rewrite Q. reflexivity.
Qed.

Lemma azimuth_range d i : drawn d -> (i < 5)%nat -> 0 < nth i (azimuths d) 0 <= TAU.
Proof.
  intros [P _] I. assert (N : In (nth i (azimuths d) 0) [2 * PI / 5; 4 * PI / 5; 6 * PI / 5; 8 * PI / 5; 2 * PI]).
  { apply (Permutation_in _ P). apply nth_In. rewrite (Permutation_length P). exact I. }
  pose proof PI_RGT_0. unfold TAU. cbn in N. destruct N as [<-|[<-|[<-|[<-|[<-|[]]]]]]; lra.
Qed.

Lemma func_same erf d r x y m : drawn d -> same_way x y ->
  ray_intensity_func erf r x (azimuths d) m = ray_intensity_func erf r y (azimuths d) m.
Proof.
  intros D Q. unfold ray_intensity_func. destruct (Rle_dec r 0); [reflexivity|]. destruct (Rlt_dec _ r); [reflexivity|].
  destruct (Rlt_dec r 1); [reflexivity|]. f_equal. apply map_ext_in. intros i I. apply in_seq in I.
  unfold one_ray. cbv zeta. destruct (Rlt_dec _ r); [reflexivity|]. apply ray_same; [exact Q|].
  apply azimuth_range; [exact D|unfold NRAYMAX in I; lia].
Qed.

Lemma point_turned erf d c r t k : drawn d -> - PI <= t ->
  ray_intensity_point erf d c r (t + IZR (Z.of_nat k) * TAU) = ray_intensity_point erf d c r t.
Proof.
  intros D T. unfold ray_intensity_point. destruct (Rlt_dec r c); [reflexivity|]. f_equal. apply map_ext_in. intros j J.
  unfold pattern_term. cbv zeta. f_equal. symmetry. apply func_same; [exact D|].
  replace (t + IZR (Z.of_nat k) * TAU + nth j (numbers d) 0 * TAU) with (t + nth j (numbers d) 0 * TAU + IZR (Z.of_nat k) * TAU) by ring.
  apply turned. assert (0 <= nth j (numbers d) 0 * TAU); [|lra]. apply Rmult_le_pos; [|left; apply TAU_pos].
  destruct D as [_ [L U]]. apply in_seq in J. apply U. apply nth_In. rewrite L. unfold NPATT in J. lia.
Qed.

Lemma values_turned erf d c pts pts' : drawn d ->
  Forall2 (fun p q => fst p = fst q /\ - PI <= snd p /\ exists k, snd q = snd p + IZR (Z.of_nat k) * TAU) pts pts' ->
  ray_values erf d c pts' = ray_values erf d c pts.
Proof.
  intros D F.
  assert (G : map (fun p => ray_intensity_point erf d c (fst p) (snd p)) (filter (outside c) pts') =
              map (fun p => ray_intensity_point erf d c (fst p) (snd p)) (filter (outside c) pts)).
  { induction F as [|[r t] [r' t'] l l' [A [B [k C]]] F IH]; [reflexivity|]. cbn [fst snd] in *. subst r' t'.
    cbn [filter]. replace (outside c (r, t + IZR (Z.of_nat k) * TAU)) with (outside c (r, t)) by reflexivity.
    destruct (outside c (r, t)); [|exact IH]. cbn [map fst snd]. rewrite IH. f_equal. apply point_turned; assumption. }
  unfold ray_values, max_outside. rewrite G. cbv zeta. clear G.
  set (m := fold_left _ _ _). clearbody m.
  induction F as [|[r t] [r' t'] l l' [A [B [k C]]] F IH]; [reflexivity|]. cbn [fst snd] in *. subst r' t'.
  cbn [map fst snd]. rewrite IH. f_equal.
  replace (outside c (r, t + IZR (Z.of_nat k) * TAU)) with (outside c (r, t)) by reflexivity.
  rewrite point_turned by assumption. reflexivity.
Qed.

Theorem turns erf d dm rs s ts ts' : drawn d ->
  Forall2 (fun a b => -180 <= a /\ exists k : nat, b = a + 360 * INR k) ts ts' ->
  py_ray_intensity erf d dm (Arr s rs) (Arr s ts') = py_ray_intensity erf d dm (Arr s rs) (Arr s ts).
Proof.
  intros D F. unfold py_ray_intensity. cbn [ravel]. f_equal. unfold ray_intensity.
  rewrite !map_length. assert (L : List.length ts' = List.length ts) by (clear -F; induction F; cbn; congruence).
  rewrite L. destruct (Nat.eqb _ _); [|reflexivity]. f_equal. apply values_turned; [exact D|]. clear L.
  revert rs. induction F as [|a b l l' [A [k B]] F IH]; intros [|r rs]; cbn [map combine]; try constructor.
  - cbn [fst snd]. split; [reflexivity|]. pose proof PI_RGT_0. unfold radians. split.
    + assert (-180 * (PI / 180) <= a * (PI / 180)) by (apply Rmult_le_compat_r; lra). lra.
    + exists k. rewrite B, INR_IZR_INZ. unfold TAU. field.
  - apply IH.
Qed.

(** ** Counts *)
Lemma Rpower_10 : Rpower 10 (6 / 10) <= 10.
Proof. apply Rle_trans with (Rpower 10 1); [apply Rle_Rpower; lra|rewrite Rpower_1; lra]. Qed.

Lemma minray_small dm : sized dm -> minray_of (dm / 2) < 100.
Proof.
  intros [P U]. unfold minray_of.
  assert (B : Rpower (dm / 2) (6 / 1000) <= Rpower (10 ^ 100) (6 / 1000)).
  { apply Rle_Rpower_l; lra. }
  rewrite <- (Rpower_pow 100 10) in B by lra. rewrite Rpower_mult in B.
  replace (INR 100 * (6 / 1000)) with (6 / 10) in B by (rewrite INR_IZR_INZ; simpl (IZR (Z.of_nat 100)); lra).
  pose proof Rpower_10. lra.
Qed.

Lemma length_grows m i : 0 < m < 100 -> (i <= 2)%nat -> 100 <= ray_length m i.
Proof.
  intros M I. unfold ray_length, ray_rmax.
  assert (L : 0 < ln (100 / m)).
  { rewrite <- ln_1. apply ln_increasing; [lra|]. apply Rmult_lt_reg_r with m; [lra|]. unfold Rdiv. rewrite Rmult_assoc, Rinv_l by lra. lra. }
  assert (E : 100 = m * exp (ln (100 / m))).
  { rewrite exp_ln; [field; lra|]. apply Rdiv_lt_0_compat; lra. }
  rewrite E at 1. apply Rmult_le_compat_l; [lra|].
  assert (X : 1 <= (INR (NRAYMAX - i + 2) ^ 4 - 1) / (INR NRAYMAX ^ 4 - 1)).
  { change NRAYMAX with 5%nat. assert (5 <= INR (5 - i + 2)).
    { replace 5 with (INR 5) by (rewrite INR_IZR_INZ; reflexivity). apply le_INR. lia. }
    replace (INR 5) with 5 by (rewrite INR_IZR_INZ; reflexivity). replace (5 ^ 4 - 1) with 624 by ring.
    assert (G : 5 ^ 4 <= INR (5 - i + 2) ^ 4) by (apply pow_incr; lra). replace (5 ^ 4) with 625 in G by ring. lra. }
  set (q := (INR (NRAYMAX - i + 2) ^ 4 - 1) / (INR NRAYMAX ^ 4 - 1)) in *. assert (ln (100 / m) <= ln (100 / m) * q).
  { rewrite <- (Rmult_1_r (ln (100 / m))) at 1. apply Rmult_le_compat_l; lra. }
  destruct (Req_dec (ln (100 / m)) (ln (100 / m) * q)) as [Z|Z]; [rewrite <- Z; lra|left; apply exp_increasing; lra].
Qed.

Lemma length_short m i : 0 < m < 100 -> (3 <= i < 5)%nat -> ray_length m i < 100.
Proof.
  intros M I. unfold ray_length, ray_rmax.
  assert (L : 0 < ln (100 / m)).
  { rewrite <- ln_1. apply ln_increasing; [lra|]. apply Rmult_lt_reg_r with m; [lra|]. unfold Rdiv. rewrite Rmult_assoc, Rinv_l by lra. lra. }
  assert (E : 100 = m * exp (ln (100 / m))).
  { rewrite exp_ln; [field; lra|]. apply Rdiv_lt_0_compat; lra. }
  rewrite E at 2. apply Rmult_lt_compat_l; [lra|]. apply exp_increasing.
  assert (X : (INR (NRAYMAX - i + 2) ^ 4 - 1) / (INR NRAYMAX ^ 4 - 1) < 1).
  { change NRAYMAX with 5%nat. assert (0 <= INR (5 - i + 2) <= 4).
    { split; [apply pos_INR|]. replace 4 with (INR 4) by (rewrite INR_IZR_INZ; reflexivity). apply le_INR. lia. }
    replace (INR 5) with 5 by (rewrite INR_IZR_INZ; reflexivity). replace (5 ^ 4 - 1) with 624 by ring.
    assert (G : INR (5 - i + 2) ^ 4 <= 4 ^ 4) by (apply pow_incr; lra). replace (4 ^ 4) with 256 in G by ring. lra. }
  rewrite <- (Rmult_1_r (ln (100 / m))) at 2. apply Rmult_lt_compat_l; assumption.
Qed.

Lemma reaching_three dm r : sized dm -> r <= 100 -> (3 <= rays_reaching r (minray_of (dm / 2)))%nat.
Proof.
  intros S H. assert (M : 0 < minray_of (dm / 2) < 100) by (split; [apply minray_pos|apply minray_small; exact S]).
  unfold rays_reaching. cbn [seq filter].
  pose proof (length_grows _ 0 M ltac:(lia)). pose proof (length_grows _ 1 M ltac:(lia)). pose proof (length_grows _ 2 M ltac:(lia)).
  destruct (Rle_dec r (ray_length _ 0)); [|lra]. destruct (Rle_dec r (ray_length _ 1)); [|lra]. destruct (Rle_dec r (ray_length _ 2)); [|lra].
  destruct (Rle_dec r (ray_length _ 3)); destruct (Rle_dec r (ray_length _ 4)); cbn; lia.
Qed.

Lemma reaching_end dm : sized dm -> rays_reaching 100 (minray_of (dm / 2)) = 3%nat.
Proof.
  intros S. assert (M : 0 < minray_of (dm / 2) < 100) by (split; [apply minray_pos|apply minray_small; exact S]).
  unfold rays_reaching. cbn [seq filter].
  pose proof (length_grows _ 0 M ltac:(lia)). pose proof (length_grows _ 1 M ltac:(lia)). pose proof (length_grows _ 2 M ltac:(lia)).
  pose proof (length_short _ 3 M ltac:(lia)). pose proof (length_short _ 4 M ltac:(lia)).
  destruct (Rle_dec 100 (ray_length _ 0)); [|lra]. destruct (Rle_dec 100 (ray_length _ 1)); [|lra]. destruct (Rle_dec 100 (ray_length _ 2)); [|lra].
  destruct (Rle_dec 100 (ray_length _ 3)); [lra|]. destruct (Rle_dec 100 (ray_length _ 4)); [lra|]. reflexivity.
Qed.

Lemma counted_end dm : sized dm -> rays_counted 100 (minray_of (dm / 2)) = 1%Z.
Proof.
  intros S. assert (M : 0 < minray_of (dm / 2) < 100) by (split; [apply minray_pos|apply minray_small; exact S]).
  set (m := minray_of (dm / 2)) in *.
  assert (L : 0 < ln (100 / m)).
  { rewrite <- ln_1. apply ln_increasing; [lra|]. apply Rmult_lt_reg_r with m; [lra|]. unfold Rdiv. rewrite Rmult_assoc, Rinv_l by lra. lra. }
  unfold rays_counted, ray_rmax. cbv zeta.
  assert (T : INR NRAYMAX ^ 4 - (INR NRAYMAX ^ 4 - 1) * ln (100 / m) / ln (100 / m) = 1) by (field; lra).
  rewrite T. destruct (Rlt_dec 1 0); [lra|].
  assert (P : powf 1 (1 / 4) = 1).
  { unfold powf. destruct (Req_EM_T 1 0); [lra|]. unfold Rpower. rewrite ln_1, Rmult_0_r. apply exp_0. }
  rewrite P. assert (I : Int_part 1 = 1%Z).
  { destruct (base_Int_part 1) as [A B]. apply le_IZR in A. assert (0 < IZR (Int_part 1)) by lra. apply lt_IZR in H. lia. }
  rewrite I. reflexivity.
Qed.

Theorem counts dm : sized dm -> (forall r, r <= 100 -> (3 <= rays_reaching r (minray_of (dm / 2)))%nat) /\
  rays_reaching 100 (minray_of (dm / 2)) = 3%nat /\ rays_counted 100 (minray_of (dm / 2)) = 1%Z.
Proof.
  intros S. split; [intros r; apply reaching_three; exact S|]. split; [apply reaching_end|apply counted_end]; exact S.
Qed.

(** ** Shapes *)
Theorem shapes erf d dm ej r theta :
  (List.length (ravel r) <> List.length (ravel theta) ->
     py_ray_intensity erf d dm r theta = Err ValueError /\ py_ejecta_distribution erf d dm ej r theta = Err ValueError) /\
  (List.length (ravel r) = List.length (ravel theta) -> forall s l, r = Arr s l ->
     exists v, py_ray_intensity erf d dm r theta = Ok (mk_fa s v) /\ List.length v = List.length l).
Proof.
  split.
  - intros N. unfold py_ray_intensity, py_ejecta_distribution, ray_intensity. rewrite map_length.
    destruct (Nat.eqb _ _) eqn:Q; [apply Nat.eqb_eq in Q; congruence|]. split; [reflexivity|].
    destruct (py_ejecta_profile dm ej r). reflexivity.
  - intros L s l ->. unfold py_ray_intensity, ray_intensity. cbn [ravel] in *. rewrite map_length, L, Nat.eqb_refl.
    eexists. split; [reflexivity|]. unfold ray_values. rewrite map_length, combine_length, map_length. lia.
Qed.

Theorem plain erf d dm ej r theta : List.length (ravel r) = List.length (ravel theta) -> (forall s l, r <> Arr s l) ->
  py_ray_intensity erf d dm r theta = Err AttributeError /\ py_ejecta_distribution erf d dm ej r theta = Err AttributeError /\
  snd (py_ejecta_profile dm ej r) = map (fun x => ejecta_profile_function x (dm / 2) ej) (ravel r).
Proof.
  intros L N. unfold py_ray_intensity, py_ejecta_distribution, ray_intensity. rewrite map_length, L, Nat.eqb_refl.
  split; [|split; [|reflexivity]].
  - destruct r; [reflexivity|reflexivity|]. exfalso. eapply N. reflexivity.
  - destruct r as [x|l|s l]; [| |exfalso; eapply N; reflexivity].
    + unfold py_ejecta_profile. cbn [ravel] in *. cbn [rbind]. unfold ray_values. rewrite map_length, combine_length, map_length.
      rewrite <- L. reflexivity.
    + unfold py_ejecta_profile. cbn [ravel] in *. cbn [rbind]. unfold ray_values. rewrite map_length, combine_length, map_length.
      unfold broadcasts. cbn [last]. replace (Nat.min _ _) with (List.length l) by lia. rewrite Nat.eqb_refl. reflexivity.
Qed.

Theorem grid erf d dm ej a b l theta : List.length l = (a * b)%nat -> List.length (ravel theta) = List.length l -> (2 <= a)%nat -> (1 <= b)%nat ->
  (exists v, py_ray_intensity erf d dm (Arr [a; b] l) theta = Ok (mk_fa [a; b] v)) /\
  py_ejecta_distribution erf d dm ej (Arr [a; b] l) theta = Err ValueError.
Proof.
  intros L T A B. split.
  - destruct (proj2 (shapes erf d dm ej (Arr [a; b] l) theta) (eq_sym T) [a; b] l eq_refl) as [v [V _]]. exists v. exact V.
  - unfold py_ejecta_distribution, py_ejecta_profile, ray_intensity. cbn [ravel]. rewrite map_length, T, Nat.eqb_refl. cbn [rbind].
    unfold ray_values. rewrite map_length, combine_length, map_length.
    replace (Nat.min _ _) with (a * b)%nat by lia. unfold broadcasts. cbn [last].
    destruct (Nat.eqb b (a * b)) eqn:X; [apply Nat.eqb_eq in X; nia|]. destruct (Nat.eqb (a * b) 1) eqn:Y; [apply Nat.eqb_eq in Y; nia|].
    reflexivity.
Qed.

Lemma combine_nth2 {A B} (l : list A) (m : list B) i z : nth_error (combine l m) i = Some z ->
  nth_error l i = Some (fst z) /\ nth_error m i = Some (snd z).
Proof. destruct z as [x y]. apply nth_combine_inv. Qed.

Theorem thinned erf d dm ej rs theta th int : positive_erf erf -> drawn d -> sized dm -> 0 <= ej ->
  py_ejecta_distribution erf d dm ej (Arr [List.length rs] rs) theta = Ok (th, int) ->
  py_ray_intensity erf d dm (Arr [List.length rs] rs) theta = Ok int /\ fa_shape th = [List.length rs] /\
  forall i y, nth_error (fa_data th) i = Some (Num y) -> exists r p x, nth_error rs i = Some r /\
    nth_error (snd (py_ejecta_profile dm ej (Arr [List.length rs] rs))) i = Some p /\
    nth_error (fa_data int) i = Some (Num x) /\ y = p * x /\ 0 <= y <= p.
Proof.
  intros E D S J Q. unfold py_ejecta_distribution, py_ejecta_profile in Q. cbn [ravel shape_of rbind] in Q.
  unfold py_ray_intensity. cbn [ravel shape_of]. 
  destruct (ray_intensity erf d rs (map radians (ravel theta)) dm) as [v|e] eqn:V; [|discriminate]. cbn [rbind] in *.
  destruct (broadcasts _ _); [|discriminate]. injection Q as <- <-. split; [reflexivity|]. split; [reflexivity|].
  intros i y Y. cbn [fa_data] in *.
  destruct (nth_error (combine (ejecta_profile rs dm ej) v) i) as [[p f]|] eqn:C.
  2:{ apply nth_error_None in C. assert (nth_error (map (fun p => ftimes (fst p) (snd p)) (combine (ejecta_profile rs dm ej) v)) i = None) by (apply nth_error_None; rewrite map_length; exact C). congruence. }
  rewrite (map_nth_error _ i _ C) in Y. cbn [fst snd] in Y. destruct f as [x|]; [|discriminate]. cbn [ftimes] in Y. injection Y as <-.
  destruct (nth_combine_inv _ _ _ _ _ C) as [P F].
  assert (I : (i < List.length rs)%nat).
  { assert (i < List.length (ejecta_profile rs dm ej))%nat by (apply nth_error_Some; congruence). unfold ejecta_profile in H. rewrite map_length in H. exact H. }
  destruct (nth_error rs i) as [r|] eqn:G; [|apply nth_error_None in G; lia].
  exists r, p, x. split; [reflexivity|]. cbn [snd py_ejecta_profile ravel]. split; [exact P|]. split; [exact F|]. split; [reflexivity|].
  unfold ejecta_profile in P. rewrite (map_nth_error _ i _ G) in P. injection P as <-.
  assert (PP : 0 <= ejecta_profile_function r (dm / 2) ej).
  { unfold ejecta_profile_function. destruct (Rle_dec _ _); [|lra]. apply Rmult_le_pos; [exact J|left; apply exp_pos]. }
  destruct (range erf d rs (map radians (ravel theta)) dm v E D S V) as [_ [Z W]].
  destruct (answered _ _ _ _ _ _ _ _ V G) as [_ [t [w A]]]. assert (w = Num x) by (destruct A as [_ [_ A]]; congruence). subst w.
  assert (X : 0 <= x <= 1).
  { destruct W as [W|[W _]].
    - destruct (Rlt_le_dec r (dm / 2)) as [H|H].
      + pose proof (Z _ _ _ _ A H) as K. injection K as K. lra.
      + pose proof (W _ _ _ _ A H) as K. discriminate K.
    - destruct (W _ _ _ _ A) as [x0 [K B]]. injection K as K. lra. }
  split; [apply Rmult_le_pos; lra|]. rewrite <- (Rmult_1_r (ejecta_profile_function r (dm / 2) ej)) at 2. apply Rmult_le_compat_l; lra.
Qed.

(** ** A case *)
Definition e_draws : draws := mk_draws [2 * PI; 2 * PI / 5; 8 * PI / 5; 4 * PI / 5; 6 * PI / 5] (repeat (1 / 2) 8).
Lemma e_drawn : drawn e_draws.
Proof.
  split; [|split; [reflexivity|]].
  - cbn [azimuths e_draws]. apply perm_trans with [2 * PI / 5; 2 * PI; 8 * PI / 5; 4 * PI / 5; 6 * PI / 5]; [apply perm_swap|]. apply perm_skip.
    apply perm_trans with [2 * PI; 4 * PI / 5; 8 * PI / 5; 6 * PI / 5]; [apply perm_skip, perm_swap|].
    apply perm_trans with [4 * PI / 5; 2 * PI; 8 * PI / 5; 6 * PI / 5]; [apply perm_swap|]. apply perm_skip.
    apply perm_trans with [2 * PI; 6 * PI / 5; 8 * PI / 5]; [apply perm_skip, perm_swap|].
    apply perm_trans with [6 * PI / 5; 2 * PI; 8 * PI / 5]; [apply perm_swap|]. apply perm_skip. apply perm_swap.
  - intros x I. apply repeat_spec in I. subst x. lra.
Qed.
Lemma e_erf : positive_erf (fun x => x / (1 + x)).
Proof. intros x X. apply Rdiv_lt_0_compat; lra. Qed.
Lemma e_sized : sized 2000.
Proof.
  split; [lra|]. apply Rle_trans with (10 ^ 4); [lra|]. apply Rle_pow; [lra|lia].
Qed.
Lemma e_near erf : positive_erf erf -> exists vs, ray_intensity erf e_draws [500; 1200; 150000] [0; 1; 2] 2000 = Ok vs /\ ~ In NaN vs /\
  nth_error vs 0 = Some (Num 0) /\ nth_error vs 1 = Some (Num 1) /\ nth_error vs 2 = Some (Num 0).
Proof.
  intros E. destruct (ray_intensity erf e_draws [500; 1200; 150000] [0; 1; 2] 2000) as [vs|e] eqn:Q; [|discriminate].
  assert (L : exists a b c, vs = [a; b; c]).
  { unfold ray_intensity in Q. cbn [List.length Nat.eqb combine] in Q. unfold ray_values in Q. cbn [map] in Q. injection Q as <-. eauto. }
  destruct L as [a [b [c ->]]]. exists [a; b; c].
  assert (A1 : at_point [500; 1200; 150000] [0; 1; 2] [a; b; c] 0 500 0 a) by (repeat split).
  assert (A2 : at_point [500; 1200; 150000] [0; 1; 2] [a; b; c] 1 1200 1 b) by (repeat split).
  assert (A3 : at_point [500; 1200; 150000] [0; 1; 2] [a; b; c] 2 150000 2 c) by (repeat split).
  assert (N : ~ In NaN [a; b; c]).
  { apply (near erf e_draws _ _ _ _ _ _ _ _ (1 / 2) E e_drawn e_sized Q A2); [left; reflexivity|lra]. }
  destruct (range erf e_draws _ _ _ _ E e_drawn e_sized Q) as [_ [Z W]].
  assert (a = Num 0) by (apply (Z _ _ _ _ A1); lra). subst a.
  assert (c = Num 0).
  { destruct (far erf e_draws _ _ _ _ _ _ _ _ E e_drawn e_sized Q A3 ltac:(lra)) as [C|C]; [exact C|]. subst c. exfalso. apply N. cbn. auto. }
  subst c. split; [reflexivity|]. split; [exact N|]. cbn. split; [reflexivity|]. split; [|reflexivity].
  destruct W as [W|[_ [i [r [t [[A [_ B]] _]]]]]].
  - exfalso. apply N. right. left. apply (W _ _ _ _ A2). lra.
  - destruct i as [|[|[|i]]]; cbn in B; [injection B; lra| |injection B; lra|destruct i; discriminate]. congruence.
Qed.

(** ** Across a ray *)
Theorem across erf b r n w x y : positive_erf erf -> 0 < r -> 0 < w -> (1 <= n)%Z -> Rabs x <= Rabs y <= PI ->
  0 <= ejecta_ray_func erf (b + y) b r n w <= ejecta_ray_func erf (b + x) b r n w.
Proof.
  intros E Pr Pw N [X Y]. split; [apply ray_nonneg; assumption|].
  pose proof (ray_nonneg erf (b + x) b r n w E Pr Pw N) as NX. revert NX.
  unfold ejecta_ray_func. cbv zeta. pose proof PI_RGT_0. pose proof (Rabs_pos x).
  replace (b + x - b) with x by ring. replace (b + y - b) with y by ring. rewrite !Rmin_right by lra.
  assert (C : 0 < w / r) by (apply Rdiv_lt_0_compat; lra). set (c := w / r) in *.
  assert (K : 0 < / (2 * c ^ 2)) by (apply Rinv_0_lt_compat; assert (0 < c ^ 2) by (apply pow_lt; exact C); lra).
  assert (L : - Rabs y ^ 2 / (2 * c ^ 2) <= - Rabs x ^ 2 / (2 * c ^ 2)).
  { unfold Rdiv. apply Rmult_le_compat_r; [lra|]. assert (Rabs x ^ 2 <= Rabs y ^ 2) by (apply pow_incr; lra). lra. }
  destruct (Rlt_dec (- Rabs x ^ 2 / (2 * c ^ 2)) _) as [A|A]; destruct (Rlt_dec (- Rabs y ^ 2 / (2 * c ^ 2)) _) as [B|B]; intros NX; try lra.
  revert NX. destruct (Rle_dec _ VSMALL) as [D|D]; intros NX; [lra|].
  apply Rmult_le_compat_l.
  - left. apply Rdiv_lt_0_compat; [apply sqrt_lt_R0; lra|].
    apply Rmult_lt_0_compat; [apply Rmult_lt_0_compat; [apply (IZR_lt 0); lia|exact C]|].
    apply E. apply Rdiv_lt_0_compat; [lra|]. apply Rmult_lt_0_compat; [|exact C]. apply Rmult_lt_0_compat; [lra|apply sqrt_lt_R0; lra].
  - destruct (Req_dec (- Rabs y ^ 2 / (2 * c ^ 2)) (- Rabs x ^ 2 / (2 * c ^ 2))) as [Q|Q]; [rewrite Q; lra|left; apply exp_increasing; lra].
Qed.

(** ** Lengths *)
Lemma length_decr m i j : 0 < m < 100 -> (i < j < 5)%nat -> ray_length m j < ray_length m i.
Proof.
  intros M I. unfold ray_length, ray_rmax.
  assert (L : 0 < ln (100 / m)).
  { rewrite <- ln_1. apply ln_increasing; [lra|]. apply Rmult_lt_reg_r with m; [lra|]. unfold Rdiv. rewrite Rmult_assoc, Rinv_l by lra. lra. }
  apply Rmult_lt_compat_l; [lra|]. apply exp_increasing. apply Rmult_lt_compat_l; [exact L|].
  change NRAYMAX with 5%nat. replace (INR 5) with 5 by (rewrite INR_IZR_INZ; reflexivity). replace (5 ^ 4 - 1) with 624 by ring.
  assert (P : 0 < INR (5 - j + 2) < INR (5 - i + 2)).
  { split; [apply lt_0_INR; lia|apply lt_INR; lia]. }
  assert (Q : INR (5 - j + 2) * INR (5 - j + 2) < INR (5 - i + 2) * INR (5 - i + 2)) by (apply Rmult_gt_0_lt_compat; lra).
  assert (0 < INR (5 - j + 2) * INR (5 - j + 2)) by (apply Rmult_lt_0_compat; lra).
  assert (INR (5 - j + 2) * INR (5 - j + 2) * (INR (5 - j + 2) * INR (5 - j + 2)) < INR (5 - i + 2) * INR (5 - i + 2) * (INR (5 - i + 2) * INR (5 - i + 2))) by (apply Rmult_gt_0_lt_compat; lra).
  cbn [pow]. rewrite !Rmult_1_r. lra.
Qed.

Lemma length_min m i : 0 < m < 100 -> (i < 5)%nat -> m < ray_length m i.
Proof.
  intros M I. unfold ray_length, ray_rmax.
  assert (L : 0 < ln (100 / m)).
  { rewrite <- ln_1. apply ln_increasing; [lra|]. apply Rmult_lt_reg_r with m; [lra|]. unfold Rdiv. rewrite Rmult_assoc, Rinv_l by lra. lra. }
  change NRAYMAX with 5%nat. replace (INR 5) with 5 by (rewrite INR_IZR_INZ; reflexivity). replace (5 ^ 4 - 1) with 624 by ring.
  assert (P : 3 <= INR (5 - i + 2)) by (replace 3 with (INR 3) by (rewrite INR_IZR_INZ; reflexivity); apply le_INR; lia).
  assert (G : 3 ^ 4 <= INR (5 - i + 2) ^ 4) by (apply pow_incr; lra). replace (3 ^ 4) with 81 in G by ring.
  assert (X : 0 < ln (100 / m) * ((INR (5 - i + 2) ^ 4 - 1) / 624)) by (apply Rmult_lt_0_compat; lra).
  apply exp_increasing in X. rewrite exp_0 in X. apply (Rmult_lt_compat_l m) in X; lra.
Qed.

Lemma length_two m : 0 < m < 100 -> ray_length m 2 = 100.
Proof.
  intros M. unfold ray_length, ray_rmax. change (NRAYMAX - 2 + 2)%nat with NRAYMAX.
  replace ((INR NRAYMAX ^ 4 - 1) / (INR NRAYMAX ^ 4 - 1)) with 1.
  - rewrite Rmult_1_r, exp_ln; [field; lra|apply Rdiv_lt_0_compat; lra].
  - change NRAYMAX with 5%nat. replace (INR 5) with 5 by (rewrite INR_IZR_INZ; reflexivity). field; lra.
Qed.

Theorem lengths erf dm th : sized dm -> let m := minray_of (dm / 2) in
  (forall i j, (i < j < 5)%nat -> m < ray_length m j < ray_length m i) /\
  ray_length m 2 = 100 /\
  forall i r t, ray_length m i < r -> one_ray erf r t m th i = 0.
Proof.
  intros S m. assert (M : 0 < m < 100) by (split; [apply minray_pos|apply minray_small; exact S]).
  split; [intros i j I; split; [apply length_min; [exact M|lia]|apply length_decr; assumption]|].
  split; [apply length_two; exact M|]. intros i r t H. unfold one_ray. cbv zeta. destruct (Rlt_dec _ r); [reflexivity|lra].
Qed.
