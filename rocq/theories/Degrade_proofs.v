(** Accumulated degradation. *)
From Coq Require Import Reals Lra Lia.
From Verif Require Import Common RSum Degrade_model Degrade_spec Degrade_func.
Open Scope R_scope.

Lemma mapi_length {A B} (f : nat -> A -> B) l : forall i, List.length (mapi f i l) = List.length l.
Proof. induction l as [|x r IH]; intros i; [reflexivity|]. cbn. rewrite IH. reflexivity. Qed.
Lemma mapi_nth {A} (f : nat -> A -> A) d l : forall i j, (j < List.length l)%nat -> nth j (mapi f i l) d = f (i + j)%nat (nth j l d).
Proof.
  induction l as [|x r IH]; intros i j L; [cbn in L; lia|]. destruct j as [|j]; cbn; [rewrite Nat.add_0_r; reflexivity|].
  rewrite IH by (cbn in L; lia). f_equal. lia.
Qed.
Lemma mem_iff i l : mem i l = true <-> In i l.
Proof.
  unfold mem. rewrite existsb_exists. split; [intros (x & I & E); apply Nat.eqb_eq in E; subst; exact I|intros I; exists i; split; [exact I|apply Nat.eqb_refl]].
Qed.
Lemma max_list_ge l : forall m, m <= max_list l m /\ (forall x, In x l -> x <= max_list l m).
Proof.
  induction l as [|y r IH]; intros m; cbn [max_list]; [split; [lra|intros x []]|]. destruct (IH (Rmax m y)) as [A B]. pose proof (Rmax_l m y). pose proof (Rmax_r m y).
  split; [lra|]. intros x [<-|I]; [lra|apply B, I].
Qed.

Section Acc.
Context (quad : (R -> R) -> R -> R -> R) (number : R -> R -> R -> R) (vsmall : R).
Context (Q : integral quad) (P : produces number) (V : 0 < vsmall).
Context (u : surf) (M : mesh_ok u).
Notation n := (List.length (s_area u)).
Notation amount := (amount quad number).

Lemma subpixel_nonneg t v d : v < t -> 0 < d -> 0 <= subpixel number t v d.
Proof.
  intros L D. unfold subpixel. destruct P as [PN _]. pose proof (deg_pos d 100 D). pose proof (PN d t v D L). pose proof PI_RGT_0.
  apply Rmult_le_pos; [apply Rmult_le_pos; lra|]. apply Rmult_le_pos; [|lra]. apply Rmult_le_pos; lra.
Qed.
Lemma amount_mono t v d d' : v < t -> 1e-8 <= d -> d <= d' -> 0 <= amount t v d <= amount t v d'.
Proof. intros L D D'. unfold Degrade_spec.amount. destruct Q as [_ QM]. apply QM; [|exact D|exact D']. intros x X. apply subpixel_nonneg; lra. Qed.
Lemma amount_split t v w d : amount t w d = amount t v d + amount v w d.
Proof.
  unfold Degrade_spec.amount. destruct Q as [QA _]. apply QA. intros x X. unfold subpixel. destruct P as [_ PA]. rewrite (PA x t v w). ring.
Qed.
(** One pass over bins that hold a face at most once. *)
Lemma add_bins_spec t v : forall bins k, List.length k = n -> (forall idx d i, In (idx, d) bins -> In i idx -> (i < n)%nat) ->
  exists k', add_bins quad number t v bins k = (k', None) /\ List.length k' = n /\
  (forall i, (i < n)%nat -> (forall idx d, In (idx, d) bins -> ~ In i idx) -> nth i k' 0 = nth i k 0) /\
  (forall i l1 idx d l2, (i < n)%nat -> bins = (l1 ++ (idx, d) :: l2)%list -> In i idx -> (forall idx' d', In (idx', d') (l1 ++ l2)%list -> ~ In i idx') -> nth i k' 0 = nth i k 0 + amount t v d).
Proof.
  induction bins as [|[idx d] r IH]; intros k L B; cbn [add_bins].
  - exists k. split; [reflexivity|]. split; [exact L|]. split; [reflexivity|]. intros i [|? l1] idx d l2 _ E; discriminate.
  - unfold add_to_bin. assert (F : forallb (fun i => Nat.ltb i (List.length k)) idx = true).
    { apply forallb_forall. intros i I. apply Nat.ltb_lt. rewrite L. exact (B idx d i (or_introl eq_refl) I). }
    rewrite F. set (k1 := mapi _ 0 k). assert (L1 : List.length k1 = n) by (unfold k1; rewrite mapi_length; exact L).
    destruct (IH k1 L1) as (k' & E & L' & N1 & N2); [intros idx' d' i I; apply (B idx' d' i); right; exact I|].
    exists k'. split; [exact E|]. split; [exact L'|].
    assert (K1 : forall i, (i < n)%nat -> nth i k1 0 = if mem i idx then nth i k 0 + amount t v d else nth i k 0).
    { intros i Li. unfold k1. rewrite mapi_nth by (rewrite L; exact Li). reflexivity. }
    split.
    + intros i Li NI. rewrite N1, K1 by (try exact Li; intros idx' d' I; apply (NI idx' d'); right; exact I).
      destruct (mem i idx) eqn:Me; [|reflexivity]. apply mem_iff in Me. exfalso. exact (NI idx d (or_introl eq_refl) Me).
    + intros i l1 idx0 d0 l2 Li E0 I0 NI. destruct l1 as [|b l1]; cbn [app] in E0.
      * injection E0 as <- <- <-. rewrite N1, K1 by (try exact Li; intros idx' d' I; apply (NI idx' d'); exact I).
        rewrite (proj2 (mem_iff i idx) I0). reflexivity.
      * injection E0 as <- E0. rewrite (N2 i l1 idx0 d0 l2 Li E0 I0 ltac:(intros idx' d' I; apply (NI idx' d'); right; exact I)). rewrite K1 by exact Li.
        destruct (mem i idx) eqn:Me; [|reflexivity]. apply mem_iff in Me. exfalso. exact (NI idx d (or_introl eq_refl) Me).
Qed.
Lemma bin_here i d : (i < n)%nat -> bin_size u i d -> exists l1 idx l2, s_bins u = (l1 ++ (idx, d) :: l2)%list /\ In i idx /\ (forall idx' d', In (idx', d') (l1 ++ l2)%list -> ~ In i idx').
Proof.
  intros Li (idx & I & J). destruct M as (_ & _ & _ & _ & U). destruct (U i Li) as (l1 & idx0 & d0 & l2 & E & I0 & N). rewrite E in I. apply in_app_or in I.
  assert ((idx, d) = (idx0, d0)) as X. { destruct I as [I|[I|I]]; [|congruence|]; exfalso; apply (N idx d); try exact J; apply in_or_app; [left|right]; exact I. }
  injection X as -> ->. exists l1, idx0, l2. split; [exact E|]. split; [exact I0|exact N].
Qed.
Lemma bin_exists i : (i < n)%nat -> exists d, bin_size u i d.
Proof. intros Li. destruct M as (_ & _ & _ & _ & U). destruct (U i Li) as (l1 & idx0 & d0 & l2 & E & I0 & N). exists d0, idx0. split; [rewrite E; apply in_or_app; right; left; reflexivity|exact I0]. Qed.
Lemma bin_large i d : bin_size u i d -> 1e-8 <= d.
Proof. intros (idx & I & _). destruct M as (_ & _ & _ & D & _). exact (D idx d I). Qed.

(** The invariant: [c] calls have been made. *)
Definition inv (s : dstate) (T : R -> R) (c : nat) : Prop :=
  d_surf s = u /\
  (forall k, d_kdiff s = Some k -> List.length k = n) /\
  (forall i, (i < n)%nat -> 0 <= pending s i) /\
  (forall i d, (i < n)%nat -> bin_size u i d -> applied s i + pending s i <= T d <= applied s i + pending s i + INR c * vsmall).
Lemma zeros_nth i : nth i (zeros u) 0 = 0.
Proof. unfold zeros. generalize (s_area u). intros l. revert i. induction l as [|x r IH]; intros [|i]; cbn; try reflexivity. apply IH. Qed.
Lemma apply_inv s T c : inv s T c -> inv (fst (apply vsmall s)) T (S c) /\ snd (apply vsmall s) = None /\ (d_kdiff s <> None -> forall i, pending (fst (apply vsmall s)) i = 0) /\
  (d_kdiff s = None -> fst (apply vsmall s) = s).
Proof.
  intros (U & L & N & H). unfold apply. destruct (d_kdiff s) as [k|] eqn:K.
  - specialize (L k eq_refl). unfold diffuse. rewrite U, L, Nat.eqb_refl. cbn [negb].
    assert (X : existsb (fun x => if Rlt_dec x 0 then true else false) k = false).
    { apply not_true_is_false. intros X. apply existsb_exists in X. destruct X as (x & I & X). destruct (Rlt_dec x 0) as [Lx|]; [|discriminate].
      destruct (In_nth k x 0 I) as (i & Li & E). rewrite L in Li. specialize (N i Li). unfold pending in N. rewrite K, E in N. lra. }
    rewrite X. destruct k as [|x r]; [exfalso; destruct M as (NE & _); destruct (s_area u); [congruence|discriminate L]|].
    assert (PK : forall i, pending s i = nth i (x :: r) 0) by (intros i; unfold pending; rewrite K; reflexivity).
    destruct (Rlt_dec (Rabs (max_list r x)) vsmall) as [SM|_]; cbn [fst snd].
    + split; [|split; [reflexivity|split; [intros _ i; unfold pending; cbn [d_kdiff]; apply zeros_nth|discriminate]]].
      split; [reflexivity|]. split; [intros k E; cbn in E; injection E as <-; unfold zeros; apply map_length|].
      split; [intros i _; unfold pending; cbn [d_kdiff]; rewrite zeros_nth; lra|].
      intros i d Li Bi. specialize (H i d Li Bi). specialize (N i Li). unfold applied in *. unfold pending at 1 2. cbn [d_kdiff d_diffused]. rewrite zeros_nth. rewrite S_INR.
      assert (pending s i < vsmall); [|lra]. destruct (max_list_ge r x) as [A B]. apply Rabs_def2 in SM.
      rewrite PK. assert (In (nth i (x :: r) 0) (x :: r)) as [<-|I] by (apply nth_In; rewrite L; exact Li); [lra|]. specialize (B _ I). lra.
    + split; [|split; [reflexivity|split; [intros _ i; unfold pending; cbn [d_kdiff]; apply zeros_nth|discriminate]]].
      split; [reflexivity|]. split; [intros k E; cbn in E; injection E as <-; unfold zeros; apply map_length|].
      split; [intros i _; unfold pending; cbn [d_kdiff]; rewrite zeros_nth; lra|].
      intros i d Li Bi. specialize (H i d Li Bi). unfold applied in *. unfold pending at 1 2. cbn [d_kdiff d_diffused]. rewrite zeros_nth. rewrite S_INR, lsum_cons. rewrite PK in H. lra.
  - cbn [fst snd]. split; [|split; [reflexivity|split; [congruence|reflexivity]]]. split; [exact U|]. split; [exact (fun k E => L k (eq_trans (eq_sym K) E))|]. split; [exact N|].
    intros i d Li Bi. specialize (H i d Li Bi). rewrite S_INR. lra.
Qed.
Lemma exceeds_false k a i : exceeds k a = false -> List.length k = List.length a -> (forall x, In x a -> 0 < x) -> (i < List.length a)%nat -> nth i k 0 <= nth i a 0.
Proof.
  intros E L A Li. destruct (Rle_lt_dec (nth i k 0) (nth i a 0)) as [H|H]; [exact H|]. exfalso.
  assert (X : exceeds k a = true); [|congruence]. apply existsb_exists. exists (nth i k 0, nth i a 0). split.
  - rewrite <- combine_nth by exact L. apply nth_In. rewrite combine_length, L. lia.
  - cbn [fst snd]. destruct (Rlt_dec 1 (nth i k 0 / nth i a 0)) as [|N]; [reflexivity|]. exfalso. apply N. apply lt_div; [apply A, nth_In; exact Li|lra].
Qed.
Lemma compute_inv s T c a b : inv s T c ->
  (b < a -> inv (fst (compute quad number vsmall a b s)) (fun d => T d + amount a b d) (S c) /\ snd (compute quad number vsmall a b s) = None /\
     (forall i, (i < n)%nat -> pending (fst (compute quad number vsmall a b s)) i <= nth i (s_area u) 0)) /\
  (a <= b -> compute quad number vsmall a b s = (s, Some ValueError)).
Proof.
  intros (U & L & N & H). unfold compute. destruct (Rle_dec a b) as [C|C]; (split; [intros X|intros X; first [reflexivity|lra]]); [lra|].
  rewrite U. set (k0 := match d_kdiff s with Some k => k | None => zeros u end).
  assert (L0 : List.length k0 = n) by (unfold k0; destruct (d_kdiff s); [apply L; reflexivity|unfold zeros; apply map_length]).
  assert (P0 : forall i, nth i k0 0 = pending s i) by (intros i; unfold k0, pending; destruct (d_kdiff s); [reflexivity|apply zeros_nth]).
  destruct M as (NE & AP & BI & _). destruct (add_bins_spec a b (s_bins u) k0 L0 BI) as (k & E & Lk & _ & NK). rewrite E, Lk, Nat.eqb_refl. cbn [negb].
  set (s' := mk_d u (Some k) (d_diffused s)).
  assert (I' : inv s' (fun d => T d + amount a b d) c).
  { split; [reflexivity|]. split; [intros k' X'; injection X' as <-; exact Lk|]. split.
    - intros i Li. unfold s', pending. cbn [d_kdiff]. destruct (bin_exists i Li) as (d & B). destruct (bin_here i d Li B) as (l1 & idx & l2 & Eb & Ib & Nb).
      rewrite (NK i l1 idx d l2 Li Eb Ib Nb), P0. specialize (N i Li). pose proof (amount_mono a b d d X (bin_large i d B) (Rle_refl d)). lra.
    - intros i d Li B. unfold s', pending, applied. cbn [d_kdiff d_diffused]. destruct (bin_here i d Li B) as (l1 & idx & l2 & Eb & Ib & Nb).
      rewrite (NK i l1 idx d l2 Li Eb Ib Nb), P0. specialize (H i d Li B). unfold applied in H. lra. }
  destruct (exceeds k (s_area u)) eqn:EX.
  - destruct (apply_inv s' _ c I') as (A & B & D & _). split; [exact A|]. split; [exact B|]. intros i Li. rewrite D by discriminate. left. apply AP, nth_In, Li.
  - cbn [fst snd]. split; [|split; [reflexivity|]].
    + destruct I' as (U' & L' & N' & H'). split; [exact U'|]. split; [exact L'|]. split; [exact N'|]. intros i d Li B. specialize (H' i d Li B). rewrite S_INR. lra.
    + intros i Li. unfold s', pending. cbn [d_kdiff]. apply exceeds_false; [exact EX|exact Lk|exact AP|exact Li].
Qed.
Lemma inv_more s T c : inv s T c -> inv s T (S c).
Proof. intros (U & L & N & H). split; [exact U|]. split; [exact L|]. split; [exact N|]. intros i d Li B. specialize (H i d Li B). rewrite S_INR. lra. Qed.
Lemma run_inv l : only_degrades l -> forall s T c, inv s T c -> inv (run quad number vsmall l s) (fun d => T d + requested quad number l d) (c + List.length l).
Proof.
  induction l as [|o r IH]; intros O s T c I.
  - unfold run. cbn [fold_left List.length requested]. rewrite Nat.add_0_r. destruct I as (U & L & N & H). split; [exact U|]. split; [exact L|]. split; [exact N|]. intros i d Li B. specialize (H i d Li B). lra.
  - assert (OR : only_degrades r) by (intros x Ix; apply O; right; exact Ix). pose proof (O o (or_introl eq_refl)) as Oo.
    change (run quad number vsmall (o :: r) s) with (run quad number vsmall r (fst (step quad number vsmall o s))). cbn [List.length]. rewrite <- Nat.add_succ_comm.
    destruct o as [a b| |w|]; try contradiction; cbn [step requested].
    + destruct (compute_inv s T c a b I) as [C1 C2]. destruct (Rlt_dec b a) as [L|L].
      * destruct (C1 L) as (A & _). specialize (IH OR _ _ _ A). destruct IH as (U & L' & N & H). split; [exact U|]. split; [exact L'|]. split; [exact N|]. intros i d Li B. specialize (H i d Li B). cbn beta in H. lra.
      * rewrite (C2 ltac:(lra)). cbn [fst]. specialize (IH OR s T (S c) (inv_more _ _ _ I)). destruct IH as (U & L' & N & H). split; [exact U|]. split; [exact L'|]. split; [exact N|]. intros i d Li B. specialize (H i d Li B). cbn beta in H. lra.
    + destruct (apply_inv s T c I) as (A & _). exact (IH OR _ _ _ A).
Qed.
Lemma fresh_inv : inv (fresh u) (fun _ => 0) 0.
Proof.
  split; [reflexivity|]. split; [discriminate|]. split; [intros i _; unfold pending, fresh; cbn; lra|]. intros i d _ _. unfold applied, pending, fresh. cbn. lra.
Qed.
Lemma applied_once l i d : only_degrades l -> (i < n)%nat -> bin_size u i d ->
  let s := run quad number vsmall l (fresh u) in
  applied s i + pending s i <= requested quad number l d <= applied s i + pending s i + INR (List.length l) * vsmall.
Proof. intros O Li B s. destruct (run_inv l O _ _ _ fresh_inv) as (_ & _ & _ & H). specialize (H i d Li B). cbn beta in H. rewrite Nat.add_0_l in H. unfold s. lra. Qed.
Lemma apply_ends l i : only_degrades l -> pending (run quad number vsmall (l ++ [Apply]) (fresh u)) i = 0.
Proof.
  intros O. unfold run. rewrite fold_left_app. cbn [fold_left step]. fold (run quad number vsmall l (fresh u)). pose proof (run_inv l O _ _ _ fresh_inv) as I.
  destruct (apply_inv _ _ _ I) as (_ & _ & D & N). destruct (d_kdiff (run quad number vsmall l (fresh u))) eqn:E; [apply D; congruence|]. rewrite (N eq_refl). unfold pending. rewrite E. reflexivity.
Qed.
Lemma below_area l a b i : only_degrades l -> b < a -> (i < n)%nat ->
  let '(s, e) := compute quad number vsmall a b (run quad number vsmall l (fresh u)) in e = None /\ 0 <= pending s i <= nth i (s_area u) 0.
Proof.
  intros O L Li. pose proof (run_inv l O _ _ _ fresh_inv) as I. destruct (compute_inv _ _ _ a b I) as [C _]. destruct (C L) as ((_ & _ & N & _) & B & D).
  destruct (compute _ _ _ _ _ _) as [s e]. cbn [fst snd] in *. split; [exact B|]. split; [apply N, Li|apply D, Li].
Qed.
End Acc.
Lemma backward_refused quad number vsmall a b s : a <= b -> compute quad number vsmall a b s = (s, Some ValueError).
Proof. intros L. unfold compute. destruct (Rle_dec a b); [reflexivity|lra]. Qed.
