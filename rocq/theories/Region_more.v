(** Proofs about noise, face bins and the small samples of Region_spec. *)
From Coq Require Import Reals List Arith Lia Lra ZArith Permutation.
From Verif Require Import Common RSum Sorting Mesh_model Mesh_proofs Region_model Region_spec Region_proofs.
Import ListNotations.
Open Scope R_scope.

(* --------------------------------- noise --------------------------------- *)
Lemma add_data_frame m v s name d face ow fill pos n : n <> name -> fst (add_data m v s name d face ow fill pos) n = s n.
Proof.
  intros H. unfold add_data. destruct (if Nat.eqb _ _ then _ else _) as [[b idx] |]; [| reflexivity].
  destruct (s name) as [old |] eqn:E; [rewrite E | rewrite set_var_same];
    destruct (assign _ idx _); [| try reflexivity; cbn [fst]; apply set_var_other; exact H | | try reflexivity; cbn [fst]; apply set_var_other; exact H].
  - destruct pos; [| cbn [fst]; apply set_var_other; exact H]. destruct (assign _ idx _); cbn [fst]; rewrite !set_var_other by exact H; reflexivity.
  - destruct pos; [| cbn [fst]; rewrite !set_var_other by exact H; reflexivity]. destruct (assign _ idx _); cbn [fst]; rewrite !set_var_other by exact H; reflexivity.
Qed.
Lemma volume_added areas F F' : forall idx d, List.length d = List.length idx ->
  (forall k i x, nth_error idx k = Some i -> nth_error d k = Some x -> nth_error F' i = Some (nth i F 0 + x)) ->
  lsum (fun f => nth f F' 0 * nth f areas 0) idx = lsum (fun f => nth f F 0 * nth f areas 0) idx + lsum (fun p => fst p * snd p) (combine d (take areas idx)).
Proof.
  induction idx as [| i idx IH]; intros [| x d] L H; try discriminate L; [cbn; ring |].
  unfold take. cbn [map combine]. fold (take areas idx). rewrite !lsum_cons. cbn [fst snd]. rewrite (IH d).
  - rewrite (nth_error_nth _ _ _ (H 0%nat i x eq_refl eq_refl)). ring.
  - cbn in L. lia.
  - intros k j y A B. apply (H (S k)); assumption.
Qed.
Lemma sum_shift (c : R) : forall d a, List.length d = List.length a ->
  lsum (fun p => fst p * snd p) (combine (map (fun x => x - c) d) a) = lsum (fun p => fst p * snd p) (combine d a) - c * lsum (fun x => x) a.
Proof. induction d as [| x d IH]; intros [| y a] L; try discriminate L; [cbn; ring |]. cbn [map combine]. rewrite !lsum_cons. cbn [fst snd]. rewrite IH by (cbn in L; lia). ring. Qed.
Lemma noise_volume m areas v s F noise : NoDup (v_faces v) -> (forall f, In f (v_faces v) -> (f < List.length F)%nat) -> s "face_elevation"%string = Some F ->
  v_faces v <> [] -> v_nodes v <> [] -> List.length noise = (List.length (v_faces v) + List.length (v_nodes v))%nat ->
  lsum (fun f => nth f areas 0) (v_faces v) <> 0 ->
  exists F', fst (apply_noise m areas v s noise) "face_elevation"%string = Some F' /\ List.length F' = List.length F /\ volume areas v F' = volume areas v F.
Proof.
  intros ND RF EF N1 N2 L A0. unfold apply_noise. cbv zeta.
  set (mean := _ / _). set (new := map (fun x => x - mean) noise).
  assert (P1 : (1 <= List.length (v_faces v))%nat) by (destruct (v_faces v); [contradiction | cbn; lia]). assert (P2 : (1 <= List.length (v_nodes v))%nat) by (destruct (v_nodes v); [contradiction | cbn; lia]).
  assert (Ln : List.length new = (List.length (v_faces v) + List.length (v_nodes v))%nat) by (unfold new; rewrite map_length; exact L).
  unfold update_elevation. cbv zeta. rewrite Ln.
  destruct (Nat.eqb_spec (List.length (v_faces v) + List.length (v_nodes v)) 1); [lia |]. destruct (Nat.eqb_spec (List.length (v_faces v) + List.length (v_nodes v)) (List.length (v_faces v))); [lia |].
  destruct (Nat.eqb_spec (List.length (v_faces v) + List.length (v_nodes v)) (List.length (v_nodes v))); [lia |]. rewrite Nat.eqb_refl.
  assert (Lf : List.length (firstn (List.length (v_faces v)) new) = List.length (v_faces v)) by (rewrite firstn_length; lia).
  destruct (add_data_ok m v s "face_elevation" (firstn (List.length (v_faces v)) new) true false 0 F (v_faces v) EF ND RF) as (F' & s1 & A & B & C & D); [left; split; [exact Lf | reflexivity] |].
  rewrite A. cbn [sbind]. exists F'. rewrite add_data_frame by discriminate. split; [exact B |]. destruct C as (C1 & C2 & _). split; [exact C1 |].
  unfold volume. rewrite (volume_added areas F F' (v_faces v) _ Lf C2).
  unfold new. rewrite firstn_map, sum_shift by (unfold take; rewrite map_length, firstn_length; lia).
  assert (E : lsum (fun a => a) (take areas (v_faces v)) = lsum (fun f => nth f areas 0) (v_faces v)).
  { unfold take. clear. induction (v_faces v) as [| x l IH]; [reflexivity |]. cbn [map]. rewrite !lsum_cons, IH. reflexivity. }
  unfold mean. rewrite E. field. exact A0.
Qed.
Lemma volume_code areas v F : compute_volume areas v (take F (v_faces v)) = Ok (volume areas v F).
Proof.
  unfold compute_volume. rewrite take_length, Nat.eqb_refl. f_equal. unfold volume, take. induction (v_faces v) as [| x l IH]; [reflexivity |]. cbn [map combine]. rewrite !lsum_cons, IH. reflexivity.
Qed.

(** Amplitude. *)
Lemma octaves_bound simplex n : (forall i, -1 <= simplex i <= 1) ->
  let '(s, norm) := octaves simplex n in Rabs s <= 2 - 2 * (1 / 2) ^ n /\ norm = 3 / 2 - (1 / 2) ^ n.
Proof.
  intros H. induction n as [| n IH].
  - cbn [octaves pow]. rewrite Rabs_R0. split; lra.
  - cbn [octaves]. destruct (octaves simplex n) as [s norm]. destruct IH as [A B]. pose proof (pow_le (1 / 2) n ltac:(lra)) as P. set (e := (1 / 2) ^ n) in *.
    cbn [pow]. fold e. split; [| rewrite B; lra]. eapply Rle_trans; [apply Rabs_triang |].
    assert (Rabs (simplex n * e) <= e); [| lra]. rewrite Rabs_mult, (Rabs_right e) by lra. specialize (H n). assert (Rabs (simplex n) <= 1) by (apply Rabs_le; lra).
    pose proof (Rmult_le_compat_r e _ _ P H0). lra.
Qed.
Lemma turbulence_bound simplex n h : (forall i, -1 <= simplex i <= 1) -> 0 <= h -> Rabs (turbulence simplex n h) <= 4 / 3 * h.
Proof.
  intros H Hh. unfold turbulence. pose proof (octaves_bound simplex n H) as B. destruct (octaves simplex n) as [s norm]. destruct B as [A B].
  assert (E : 0 <= (1 / 2) ^ n <= 1) by (split; [apply pow_le; lra | pose proof (pow_incr (1 / 2) 1 n ltac:(lra)) as X; rewrite pow1 in X; exact X]). set (e := (1 / 2) ^ n) in *.
  assert (Pn : 0 < norm) by lra. unfold Rdiv at 1. rewrite <- Rmult_assoc, !Rabs_mult, (Rabs_right h) by lra. rewrite (Rabs_right (/ norm)) by (apply Rle_ge, Rlt_le, Rinv_0_lt_compat; exact Pn).
  apply (Rmult_le_reg_r norm); [exact Pn |]. replace (Rabs s * h * / norm * norm) with (Rabs s * h) by (field; lra).
  replace (4 / 3 * h * norm) with (4 / 3 * norm * h) by ring. apply Rmult_le_compat_r; [exact Hh |]. rewrite B. lra.
Qed.
Lemma mean_bound c : forall (d a : list R), List.length d = List.length a -> (forall x, In x d -> Rabs x <= c) -> (forall x, In x a -> 0 <= x) ->
  Rabs (lsum (fun p => fst p * snd p) (combine d a)) <= c * lsum (fun x => x) a.
Proof.
  induction d as [| x d IH]; intros [| y a] L D A; try discriminate L; [cbn; rewrite Rabs_R0; lra |]. cbn [combine]. rewrite !lsum_cons. cbn [fst snd].
  eapply Rle_trans; [apply Rabs_triang |]. rewrite Rabs_mult, (Rabs_right y) by (apply Rle_ge, A; left; reflexivity).
  assert (Rabs x * y <= c * y) by (apply Rmult_le_compat_r; [apply A; left; reflexivity | apply D; left; reflexivity]).
  specialize (IH a ltac:(cbn in L; lia) (fun z Hz => D z (or_intror Hz)) (fun z Hz => A z (or_intror Hz))). lra.
Qed.
Lemma noise_small m areas v s F N noise c : fits m v s F N -> List.length (v_nodes v) <> List.length (v_faces v) -> v_faces v <> [] -> v_nodes v <> [] ->
  List.length noise = (List.length (v_faces v) + List.length (v_nodes v))%nat -> (forall f, 0 < nth f areas 0 \/ ~ In f (v_faces v)) ->
  (forall x, In x noise -> Rabs x <= c) ->
  exists s' F' N', apply_noise m areas v s noise = (s', Ok tt) /\ fits m v s' F' N' /\ (forall i, Rabs (nth i F' 0 - nth i F 0) <= 2 * c) /\ (forall i, Rabs (nth i N' 0 - nth i N 0) <= 2 * c).
Proof.
  intros Fit Dif N1 N2 L PA B. unfold apply_noise. cbv zeta. set (mean := _ / _).
  set (nf := List.length (v_faces v)) in *.
  assert (C0 : 0 <= c). { destruct noise as [| x ?]; [cbn in L; destruct (v_faces v); [contradiction | cbn in nf; unfold nf in L; cbn in L; lia] |]. eapply Rle_trans; [apply Rabs_pos | apply (B x); left; reflexivity]. }
  assert (M : Rabs mean <= c).
  { unfold mean. assert (T : 0 < lsum (fun a => a) (take areas (v_faces v))).
    { unfold take. assert (G : forall l : list nat, l <> [] -> (forall x, In x l -> 0 < nth x areas 0) -> 0 < lsum (fun a => a) (map (fun i => nth i areas 0) l)).
      { clear. induction l as [| x l IH]; intros N H; [contradiction |]. cbn [map]. rewrite lsum_cons. destruct l as [| y l]; [cbn; specialize (H x (or_introl eq_refl)); lra |].
        specialize (IH ltac:(discriminate) (fun z Hz => H z (or_intror Hz))). specialize (H x (or_introl eq_refl)). lra. }
      apply G; [exact N1 |]. intros x Hx. destruct (PA x); [assumption | contradiction]. }
    unfold Rdiv. rewrite Rabs_mult, (Rabs_right (/ _)) by (apply Rle_ge, Rlt_le, Rinv_0_lt_compat; exact T).
    apply (Rmult_le_reg_r (lsum (fun a => a) (take areas (v_faces v)))); [exact T |]. rewrite Rmult_assoc, Rinv_l by lra. rewrite Rmult_1_r.
    apply mean_bound; [rewrite firstn_length, take_length; fold nf; lia | |].
    - intros x Hx. apply B. rewrite <- (firstn_skipn nf noise). apply in_or_app. left. exact Hx.
    - intros x Hx. unfold take in Hx. apply in_map_iff in Hx. destruct Hx as (i & <- & Hi). destruct (PA i); [lra | contradiction]. }
  assert (EQ : map (fun x => x - mean) noise = (map (fun x => x - mean) (firstn nf noise) ++ map (fun x => x - mean) (skipn nf noise))%list) by (rewrite <- map_app, firstn_skipn; reflexivity).
  rewrite EQ. assert (L1 : List.length (map (fun x => x - mean) (firstn nf noise)) = nf) by (rewrite map_length, firstn_length; lia).
  assert (L2 : List.length (map (fun x => x - mean) (skipn nf noise)) = List.length (v_nodes v)) by (rewrite map_length, skipn_length; lia).
  destruct (update_both m areas v s F N false Fit Dif _ _ L1 L2) as (s' & F' & N' & A & G & _ & UF & UN).
  - intros E. rewrite E in L1. cbn in L1. destruct (v_faces v); [contradiction | unfold nf in L1; cbn in L1; lia].
  - intros E. rewrite E in L2. cbn in L2. destruct (v_nodes v); [contradiction | cbn in L2; lia].
  - exists s', F', N'. split; [exact A |]. split; [exact G |].
    assert (K : forall old new idx d, updated old new idx d false -> List.length d = List.length idx -> (forall x, In x d -> Rabs x <= 2 * c) -> forall i, Rabs (nth i new 0 - nth i old 0) <= 2 * c).
    { intros old new idx d (U1 & U2 & U3) Ld Hd i. destruct (in_dec Nat.eq_dec i idx) as [I | I].
      - apply In_nth_error in I. destruct I as [k Hk]. destruct (nth_error d k) as [x |] eqn:Ex.
        + rewrite (nth_error_nth _ _ _ (U2 k i x Hk Ex)). replace (nth i old 0 + x - nth i old 0) with x by ring. apply Hd. apply nth_error_In in Ex. exact Ex.
        + apply nth_error_None in Ex. assert (k < List.length idx)%nat by (apply nth_error_Some; congruence). lia.
      - specialize (U3 i I). assert (nth i new 0 = nth i old 0) as ->; [| rewrite Rminus_diag_eq, Rabs_R0 by reflexivity; lra].
        destruct (nth_error old i) as [y |] eqn:Ey; [rewrite (nth_error_nth _ _ _ U3), (nth_error_nth _ _ _ Ey); reflexivity |].
        apply nth_error_None in U3. apply nth_error_None in Ey. rewrite !nth_overflow by assumption. reflexivity. }
    assert (Hd : forall l, (forall x, In x l -> In x noise) -> forall x, In x (map (fun x => x - mean) l) -> Rabs x <= 2 * c).
    { intros l Hl x Hx. apply in_map_iff in Hx. destruct Hx as (y & <- & Hy). eapply Rle_trans; [apply (Rabs_triang y (- mean)) |]. rewrite Rabs_Ropp. specialize (B y (Hl y Hy)). lra. }
    split.
    + apply (K F F' (v_faces v) _ UF L1). apply Hd. intros x Hx. rewrite <- (firstn_skipn nf noise). apply in_or_app. left. exact Hx.
    + apply (K N N' (v_nodes v) _ UN L2). apply Hd. intros x Hx. rewrite <- (firstn_skipn nf noise). apply in_or_app. right. exact Hx.
Qed.

(* -------------------------------- face bins -------------------------------- *)
Lemma rmin_spec l : forall a, smallest (a :: l) (rmin a l).
Proof.
  induction l as [| y r IH]; intros a; [split; [left; reflexivity | intros z [<- | []]; apply Rle_refl] |]. cbn [rmin].
  destruct (IH (Rmin a y)) as [[A | A] B].
  - split; [rewrite <- A; unfold Rmin; destruct (Rle_dec a y); [left; reflexivity | right; left; reflexivity] |].
    intros z [Hz | [Hz | Hz]]; subst; [eapply Rle_trans; [apply B; left; reflexivity | apply Rmin_l] | eapply Rle_trans; [apply B; left; reflexivity | apply Rmin_r] | apply B; right; exact Hz].
  - split; [right; right; exact A |].
    intros z [Hz | [Hz | Hz]]; subst; [eapply Rle_trans; [apply B; left; reflexivity | apply Rmin_l] | eapply Rle_trans; [apply B; left; reflexivity | apply Rmin_r] | apply B; right; exact Hz].
Qed.
Lemma rmax_spec l : forall a, largest (a :: l) (rmax a l).
Proof.
  induction l as [| y r IH]; intros a; [split; [left; reflexivity | intros z [<- | []]; apply Rle_refl] |]. cbn [rmax].
  destruct (IH (Rmax a y)) as [[A | A] B].
  - split; [rewrite <- A; unfold Rmax; destruct (Rle_dec a y); [right; left; reflexivity | left; reflexivity] |].
    intros z [Hz | [Hz | Hz]]; subst; [eapply Rle_trans; [apply Rmax_l | apply B; left; reflexivity] | eapply Rle_trans; [apply Rmax_r | apply B; left; reflexivity] | apply B; right; exact Hz].
  - split; [right; right; exact A |].
    intros z [Hz | [Hz | Hz]]; subst; [eapply Rle_trans; [apply Rmax_l | apply B; left; reflexivity] | eapply Rle_trans; [apply Rmax_r | apply B; left; reflexivity] | apply B; right; exact Hz].
Qed.
Lemma smallest_eq l x y : smallest l x -> smallest l y -> x = y.
Proof. intros [A B] [C D]. apply Rle_antisym; [apply B, C | apply D, A]. Qed.
Lemma largest_eq l x y : largest l x -> largest l y -> x = y.
Proof. intros [A B] [C D]. apply Rle_antisym; [apply D, A | apply B, C]. Qed.

Definition kof (lo a : R) : nat := Z.to_nat (Int_part (log2 (a / lo))).
Lemma ln2_pos : 0 < ln 2. Proof. rewrite <- ln_1. apply ln_increasing; lra. Qed.
Lemma log2_nonneg lo a : 0 < lo -> lo <= a -> 0 <= log2 (a / lo).
Proof.
  intros H L. unfold log2. pose proof ln2_pos. apply Rmult_le_pos; [| apply Rlt_le, Rinv_0_lt_compat; assumption].
  assert (1 <= a / lo). { apply (Rmult_le_reg_r lo); [exact H |]. unfold Rdiv. rewrite Rmult_assoc, Rinv_l by lra. lra. }
  destruct H1 as [H1 | <-]; [rewrite <- ln_1; left; apply ln_increasing; lra | rewrite ln_1; lra].
Qed.
Lemma Int_part_bounds x : IZR (Int_part x) <= x < IZR (Int_part x) + 1.
Proof. destruct (base_Int_part x). lra. Qed.
Lemma pow2_log (k : nat) : ln (2 ^ k) = INR k * ln 2.
Proof. rewrite <- Rpower_pow by lra. unfold Rpower. rewrite ln_exp. reflexivity. Qed.
Lemma kof_bounds lo a : 0 < lo -> lo <= a -> lo * 2 ^ kof lo a <= a < lo * 2 ^ S (kof lo a).
Proof.
  intros H L. unfold kof. set (x := log2 (a / lo)). pose proof (log2_nonneg lo a H L) as P. fold x in P. pose proof (Int_part_bounds x) as [B1 B2].
  assert (Z0 : (0 <= Int_part x)%Z). { assert (- 1 < Int_part x)%Z; [apply lt_IZR; change (IZR (- 1)) with (- 1)%R; lra | lia]. }
  set (k := Z.to_nat (Int_part x)). assert (K : INR k = IZR (Int_part x)) by (unfold k; rewrite INR_IZR_INZ, Z2Nat.id by exact Z0; reflexivity).
  pose proof ln2_pos as L2. assert (X : x * ln 2 = ln (a / lo)) by (unfold x, log2; field; lra).
  assert (D : 0 < a / lo) by (apply Rdiv_lt_0_compat; lra).
  assert (E : a = lo * (a / lo)) by (field; lra). rewrite E. split.
  - apply Rmult_le_compat_l; [lra |]. apply Rnot_lt_le. intros C. assert (Q := ln_increasing _ _ D C). rewrite pow2_log, <- X, K in Q.
    assert (IZR (Int_part x) * ln 2 <= x * ln 2) by (apply Rmult_le_compat_r; lra). lra.
  - apply Rmult_lt_compat_l; [lra |]. apply Rnot_le_lt. intros C. assert (Q : ln (2 ^ S k) <= ln (a / lo)). { destruct C as [C | <-]; [left; apply ln_increasing; [apply pow_lt; lra | exact C] | right; reflexivity]. }
    rewrite pow2_log, <- X, S_INR, K in Q. apply Rmult_le_reg_r in Q; lra.
Qed.
Lemma kof_mono lo a b : 0 < lo -> lo <= a -> a <= b -> (kof lo a <= kof lo b)%nat.
Proof.
  intros H L1 L2. destruct (kof_bounds lo a H L1) as [A _]. destruct (kof_bounds lo b H ltac:(lra)) as [_ B].
  destruct (le_lt_dec (kof lo a) (kof lo b)); [assumption |]. exfalso. assert (2 ^ S (kof lo b) <= 2 ^ kof lo a) by (apply Rle_pow; [lra | lia]).
  assert (lo * 2 ^ S (kof lo b) <= lo * 2 ^ kof lo a) by (apply Rmult_le_compat_l; lra). lra.
Qed.
Definition nbins (lo hi : R) : nat := Z.to_nat (ceil (log2 (hi / lo))).
Lemma nbins_exact lo (k : nat) : 0 < lo -> nbins lo (lo * 2 ^ k) = k.
Proof.
  intros H. unfold nbins. assert (log2 (lo * 2 ^ k / lo) = INR k) as ->. { unfold log2. replace (lo * 2 ^ k / lo) with (2 ^ k) by (field; lra). rewrite pow2_log. field. pose proof ln2_pos. lra. }
  unfold ceil. rewrite INR_IZR_INZ, <- opp_IZR. assert (Int_part (IZR (- Z.of_nat k)) = - Z.of_nat k)%Z as ->; [| lia].
  pose proof (Int_part_bounds (IZR (- Z.of_nat k))) as [A B]. apply le_IZR in A. rewrite <- plus_IZR in B. apply lt_IZR in B. lia.
Qed.
Lemma kof_exact lo (k : nat) : 0 < lo -> kof lo (lo * 2 ^ k) = k.
Proof.
  intros H. assert (1 <= 2 ^ k) by (apply pow_R1_Rle; lra). assert (L : lo <= lo * 2 ^ k) by (rewrite <- (Rmult_1_r lo) at 1; apply Rmult_le_compat_l; lra).
  destruct (kof_bounds lo _ H L) as [A B]. apply Rmult_le_reg_l in A; [| exact H]. apply Rmult_lt_reg_l in B; [| exact H].
  assert (M : forall i j : nat, 2 ^ i < 2 ^ j -> (i < j)%nat). { intros i j C. destruct (lt_dec i j); [assumption |]. exfalso. assert (2 ^ j <= 2 ^ i) by (apply Rle_pow; [lra | lia]). lra. }
  apply M in B. assert (~ (k < kof lo (lo * 2 ^ k))%nat); [| lia]. intros C. assert (2 ^ S k <= 2 ^ kof lo (lo * 2 ^ k)) by (apply Rle_pow; [lra | lia]). cbn [pow] in H1. lra.
Qed.
Lemma kof_nbins lo hi : 0 < lo -> lo <= hi -> (forall k : nat, hi <> lo * 2 ^ k) -> (kof lo hi < nbins lo hi)%nat.
Proof.
  intros H L N. pose proof (kof_bounds lo hi H L) as [A _]. destruct A as [A | A]; [| exfalso; apply (N (kof lo hi)); symmetry; exact A].
  pose proof (ceil_ge (log2 (hi / lo))) as C. unfold nbins. set (c := ceil (log2 (hi / lo))) in *. pose proof (log2_nonneg lo hi H L) as P.
  assert (Z0 : (0 <= c)%Z) by (apply le_IZR; change (IZR 0) with 0; lra).
  apply INR_lt. rewrite (INR_IZR_INZ (Z.to_nat c)), Z2Nat.id by exact Z0. eapply Rlt_le_trans; [| exact C].
  unfold log2. apply (Rmult_lt_reg_r (ln 2)); [apply ln2_pos |]. unfold Rdiv at 1. rewrite Rmult_assoc, Rinv_l by (pose proof ln2_pos; lra). rewrite Rmult_1_r, <- pow2_log.
  apply ln_increasing; [apply pow_lt; lra |]. apply (Rmult_lt_reg_l lo); [exact H |]. replace (lo * (hi / lo)) with hi by (field; lra). exact A.
Qed.

Lemma append_length bins : forall k f, List.length (append_at bins k f) = List.length bins.
Proof. induction bins as [| b r IH]; intros [| k] f; cbn; [reflexivity | reflexivity | reflexivity | rewrite IH; reflexivity]. Qed.
Lemma append_nth bins : forall k f j x, (k < List.length bins)%nat -> (In x (nth j (append_at bins k f) []) <-> In x (nth j bins []) \/ j = k /\ x = f).
Proof.
  induction bins as [| b r IH]; intros [| k] f [| j] x H; cbn [append_at nth] in *; cbn in H; try lia.
  - rewrite in_app_iff. cbn. split; [intros [A | [-> | []]]; tauto | intros [A | [_ ->]]; tauto].
  - split; [left; assumption | intros [A | [A _]]; [exact A | discriminate]].
  - split; [left; assumption | intros [A | [A _]]; [exact A | discriminate]].
  - rewrite IH by lia. split; intros [A | [A B]]; [tauto | right; split; [congruence | exact B] | tauto | right; split; [congruence | exact B]].
Qed.
Lemma append_concat bins : forall k f, (k < List.length bins)%nat -> Permutation (List.concat (append_at bins k f)) (f :: List.concat bins).
Proof.
  induction bins as [| b r IH]; intros [| k] f H; cbn in H; try lia; cbn [append_at List.concat].
  - rewrite <- app_assoc. cbn. symmetry. apply Permutation_middle.
  - rewrite (IH k f) by lia. symmetry. apply Permutation_middle.
Qed.
Lemma fill_ok lo areas : forall face bins, (forall a, In a areas -> (kof lo a < List.length bins)%nat) ->
  exists out, fill_bins lo areas face bins = Ok out /\ List.length out = List.length bins /\ Permutation (List.concat out) (List.concat bins ++ seq face (List.length areas)) /\
   (forall j x, In x (nth j out []) -> In x (nth j bins []) \/ exists i a, nth_error areas i = Some a /\ x = (face + i)%nat /\ kof lo a = j).
Proof.
  induction areas as [| a r IH]; intros face bins H; cbn [fill_bins].
  - exists bins. split; [reflexivity |]. split; [reflexivity |]. split; [cbn; rewrite app_nil_r; reflexivity | intros; left; assumption].
  - assert (K : (kof lo a < List.length bins)%nat) by (apply H; left; reflexivity). fold (kof lo a). apply Nat.ltb_lt in K. rewrite K. apply Nat.ltb_lt in K.
    destruct (IH (S face) (append_at bins (kof lo a) face)) as (out & A & B & C & D); [intros b Hb; rewrite append_length; apply H; right; exact Hb |].
    exists out. split; [exact A |]. rewrite append_length in B. split; [exact B |]. split.
    + rewrite C, append_concat by exact K. cbn [List.length seq]. apply (Permutation_middle (List.concat bins) (seq (S face) (List.length r)) face).
    + intros j x Hx. destruct (D j x Hx) as [E | (i & b & E1 & E2 & E3)].
      * apply append_nth in E; [| exact K]. destruct E as [E | [E1 E2]]; [left; exact E |]. right. exists 0%nat, a. split; [reflexivity |]. split; [lia | symmetry; exact E1].
      * right. exists (S i), b. split; [exact E1 |]. split; [lia | exact E3].
Qed.
Lemma fill_err lo areas : forall face bins, (exists a, In a areas /\ (List.length bins <= kof lo a)%nat) -> fill_bins lo areas face bins = Err IndexError.
Proof.
  induction areas as [| a r IH]; intros face bins (x & Hx & L); [destruct Hx |]. cbn [fill_bins]. fold (kof lo a).
  destruct (Nat.ltb_spec (kof lo a) (List.length bins)); [| reflexivity]. apply IH. destruct Hx as [-> | Hx]; [lia |]. exists x. rewrite append_length. split; assumption.
Qed.
Lemma concat_filter (l : list (list nat)) : List.concat (filter (fun b => negb (Nat.eqb (List.length b) 0)) l) = List.concat l.
Proof. induction l as [| [| x b] r IH]; [reflexivity | exact IH |]. cbn [filter List.length Nat.eqb negb List.concat]. rewrite IH. reflexivity. Qed.
Lemma concat_repeat_nil n : List.concat (repeat ([] : list nat) n) = [].
Proof. induction n; [reflexivity | exact IHn]. Qed.
Lemma bins_ok areas lo hi : smallest areas lo -> largest areas hi -> 0 < lo -> (forall k : nat, hi <> lo * 2 ^ k) ->
  exists bins, face_bins areas = Ok bins /\ Permutation (List.concat bins) (seq 0 (List.length areas)) /\ (forall b, In b bins -> b <> []) /\
   (forall b i j, In b bins -> In i b -> In j b -> nth i areas 0 < 2 * nth j areas 0).
Proof.
  intros S1 L1 P NE. destruct areas as [| a r]; [destruct S1 as [[] _] |]. unfold face_bins.
  rewrite (smallest_eq _ _ _ (rmin_spec r a) S1), (largest_eq _ _ _ (rmax_spec r a) L1). cbv zeta. fold (nbins lo hi).
  destruct (fill_ok lo (a :: r) 0 (repeat [] (nbins lo hi))) as (out & A & B & C & D).
  { intros x Hx. rewrite repeat_length. apply Nat.le_lt_trans with (kof lo hi); [apply kof_mono; [exact P | apply S1; exact Hx | apply L1; exact Hx] |]. apply kof_nbins; [exact P | apply S1, L1 | exact NE]. }
  rewrite A. cbn [rbind]. eexists. split; [reflexivity |]. split; [rewrite concat_filter, C, concat_repeat_nil; reflexivity |]. split.
  - intros b Hb. apply filter_In in Hb. destruct Hb as [_ Hb]. intros ->. discriminate Hb.
  - intros b i j Hb Hi Hj. apply filter_In in Hb. destruct Hb as [Hb _]. apply (In_nth _ _ []) in Hb. destruct Hb as (k & _ & Ek).
    assert (G : forall x, In x b -> In (nth x (a :: r) 0) (a :: r) /\ kof lo (nth x (a :: r) 0) = k).
    { intros x Hx. rewrite <- Ek in Hx. destruct (D k x Hx) as [E | (y & c & E1 & E2 & E3)]; [exfalso; clear - E; revert k E; induction (nbins lo hi) as [| n IH]; intros [| k] E; cbn in E; try contradiction; exact (IH _ E) |].
      cbn [Nat.add] in E2. subst y. rewrite (nth_error_nth _ _ _ E1). split; [apply nth_error_In in E1; exact E1 | exact E3]. }
    destruct (G i Hi) as [I1 I2]. destruct (G j Hj) as [J1 J2]. pose proof (kof_bounds lo _ P (proj2 S1 _ I1)) as [_ U]. pose proof (kof_bounds lo _ P (proj2 S1 _ J1)) as [V _].
    rewrite I2 in U. rewrite J2 in V. cbn [pow] in U. lra.
Qed.
Lemma bins_err areas lo (k : nat) : smallest areas lo -> largest areas (lo * 2 ^ k) -> 0 < lo -> face_bins areas = Err IndexError.
Proof.
  intros S1 L1 P. destruct areas as [| a r]; [destruct S1 as [[] _] |]. unfold face_bins.
  rewrite (smallest_eq _ _ _ (rmin_spec r a) S1), (largest_eq _ _ _ (rmax_spec r a) L1). cbv zeta. fold (nbins lo (lo * 2 ^ k)). rewrite nbins_exact by exact P.
  rewrite fill_err; [reflexivity |]. exists (lo * 2 ^ k). split; [apply L1 |]. rewrite repeat_length, kof_exact by exact P. lia.
Qed.
