(** Proofs about Datasurf_model: building and resetting. *)
From Coq Require Import Reals Lra Lia List Arith Bool Sorted.
From Verif Require Import Common RSum Region_model Region_spec Region_proofs Datasurf_model Datasurf_spec Datasurf_values.
Import ListNotations.
Open Scope R_scope.

Lemma existsb_in l i : existsb (Nat.eqb i) l = true <-> In i l.
Proof.
  rewrite existsb_exists. split.
  - intros (x & H & E). apply Nat.eqb_eq in E. subst. exact H.
  - intros H. exists i. split; [exact H | apply Nat.eqb_refl].
Qed.
Lemma sorted_filter (P : nat -> bool) l : StronglySorted lt l -> StronglySorted lt (filter P l).
Proof.
  induction 1 as [| a l S IH F]; cbn [filter]; [constructor |]. destruct (P a); [| exact IH]. constructor; [exact IH |].
  rewrite Forall_forall in *. intros x H. apply filter_In in H. apply F. apply H.
Qed.
Lemma sorted_seq n : forall k, StronglySorted lt (seq k n).
Proof.
  induction n as [| n IH]; intros k; cbn [seq]; constructor; [apply IH |]. rewrite Forall_forall. intros x H. apply in_seq in H. lia.
Qed.
Lemma sorted_nodup l : StronglySorted lt l -> NoDup l.
Proof.
  induction 1 as [| a l S IH F]; constructor; [| exact IH]. intros H. rewrite Forall_forall in F. specialize (F _ H). lia.
Qed.
Lemma exterior_complement n idx : complement n idx (exterior n idx).
Proof.
  split; [apply sorted_filter, sorted_seq |]. intros i. unfold exterior. rewrite filter_In, in_seq, negb_true_iff. split.
  - intros [[_ H] E]. split; [exact H |]. intros I. apply existsb_in in I. congruence.
  - intros [H I]. split; [lia |]. destruct (existsb (Nat.eqb i) idx) eqn:E; [| reflexivity]. exfalso. apply I. apply existsb_in. exact E.
Qed.
Lemma sorted_unique a : forall b, StronglySorted lt a -> StronglySorted lt b -> (forall i, In i a <-> In i b) -> a = b.
Proof.
  induction a as [| x a IH]; intros b A B E.
  - destruct b as [| y b]; [reflexivity |]. exfalso. apply (E y). left. reflexivity.
  - destruct b as [| y b]; [exfalso; apply (E x); left; reflexivity |].
    inversion A as [| ? ? A1 A2]; subst. inversion B as [| ? ? B1 B2]; subst. rewrite Forall_forall in A2, B2.
    assert (X : x = y).
    { destruct (proj1 (E x) (or_introl eq_refl)) as [H | H]; [congruence |]. destruct (proj2 (E y) (or_introl eq_refl)) as [K | K]; [congruence |].
      specialize (B2 _ H). specialize (A2 _ K). lia. }
    subst y. f_equal. apply IH; [exact A1 | exact B1 |]. intros i. split; intros H.
    + destruct (proj1 (E i) (or_intror H)) as [K | K]; [subst; specialize (A2 _ H); lia | exact K].
    + destruct (proj2 (E i) (or_intror H)) as [K | K]; [subst; specialize (B2 _ H); lia | exact K].
Qed.
Lemma complement_unique n idx a b : complement n idx a -> complement n idx b -> a = b.
Proof. intros [A1 A2] [B1 B2]. apply sorted_unique; [exact A1 | exact B1 |]. intros i. rewrite A2, B2. reflexivity. Qed.

Lemma samples_length nd u raw : List.length (global_samples nd u raw) = List.length raw.
Proof. unfold global_samples. rewrite !map_length. reflexivity. Qed.

Lemma nth_error_ext (a b : list R) : (forall i, nth_error a i = nth_error b i) -> a = b.
Proof.
  revert b. induction a as [| x a IH]; intros [| y b] H; [reflexivity | specialize (H O); discriminate H | specialize (H O); discriminate H |].
  f_equal; [specialize (H O); cbn in H; congruence | apply IH; intros i; apply (H (S i))].
Qed.
Lemma nth_error_repeat (x : R) n i : (i < n)%nat -> nth_error (repeat x n) i = Some x.
Proof. revert i. induction n as [| n IH]; intros [| i] H; cbn; try lia; [reflexivity | apply IH; lia]. Qed.
(** Writing at all indices in turn. *)
Lemma seq_nth n k i : nth_error (seq k n) i = (if Nat.ltb i n then Some (k + i)%nat else None).
Proof.
  revert k i. induction n as [| n IH]; intros k [| i]; cbn [seq nth_error]; try reflexivity.
  - rewrite Nat.add_0_r. reflexivity.
  - rewrite IH. replace (Nat.ltb (S i) (S n)) with (Nat.ltb i n) by reflexivity. destruct (Nat.ltb i n); [f_equal; lia | reflexivity].
Qed.
Lemma updated_all old new d n : updated old new (seq 0 n) d false -> List.length old = n -> List.length d = n ->
  List.length new = n /\ forall i, (i < n)%nat -> nth_error new i = Some (nth i old 0 + nth i d 0).
Proof.
  intros (L & A & _) L1 L2. split; [congruence |]. intros i H.
  refine (A i i (nth i d 0) _ _).
  - rewrite seq_nth. apply Nat.ltb_lt in H. rewrite H. reflexivity.
  - apply nth_error_nth'. lia.
Qed.

Section Build.
Variables (m : mesh) (areas : list R) (v : view) (dem : (nat -> R) * (nat -> R)) (lola : string).
Hypothesis Reg : region m v.

Lemma full_region : region m (full m).
Proof.
  destruct Reg as (A & B & C & D & E & F & G & H). unfold region, full. cbn [v_faces v_nodes]. rewrite !seq_length.
  repeat split; try apply seq_NoDup; try assumption; intros; try (apply in_seq in H0; lia).
  - destruct (v_faces v) as [| f r]; [congruence |]. specialize (C f (or_introl eq_refl)). destruct (m_nface m); [lia | discriminate].
  - destruct (v_nodes v) as [| f r]; [congruence |]. specialize (D f (or_introl eq_refl)). destruct (m_nnode m); [lia | discriminate].
Qed.
Lemma update_ok w s F N ef en : region m w -> elevations s F N -> List.length F = m_nface m -> List.length N = m_nnode m ->
  List.length ef = List.length (v_faces w) -> List.length en = List.length (v_nodes w) ->
  exists d F' N', update m areas w (ef ++ en)%list s = (with_data d s, Ok tt) /\ elevations (with_data d s) F' N' /\
    (forall n, n <> "face_elevation"%string -> n <> "node_elevation"%string -> d n = st_data s n) /\
    updated F F' (v_faces w) ef false /\ updated N N' (v_nodes w) en false.
Proof.
  intros (A & B & C & D & E & G & H & I) [E1 E2] L1 L2 K1 K2.
  assert (Fit : fits m w (st_data s) F N) by (unfold fits; repeat split; assumption).
  assert (P1 : ef <> []) by (destruct ef; [destruct (v_faces w); [contradiction | discriminate K1] | discriminate]).
  assert (P2 : en <> []) by (destruct en; [destruct (v_nodes w); [contradiction | discriminate K2] | discriminate]).
  destruct (update_both m areas w (st_data s) F N false Fit H ef en K1 K2 P1 P2) as (d & F' & N' & U & Fit' & O & U1 & U2).
  exists d, F', N'. unfold update. rewrite U. split; [reflexivity |]. split; [split; apply Fit' |]. split; [exact O |]. split; assumption.
Qed.

(** The elevations of a file, put on zeros. *)
Lemma restore_ok s f n : st_data s = zeros m -> List.length f = m_nface m -> List.length n = m_nnode m ->
  exists d, update m areas (full m) (f ++ n)%list s = (with_data d s, Ok tt) /\ elevations (with_data d s) f n /\ nothing_else (with_data d s).
Proof.
  intros Z L1 L2. pose proof full_region as FR.
  destruct (update_ok (full m) s (repeat 0 (m_nface m)) (repeat 0 (m_nnode m)) f n FR) as (d & F' & N' & U & E & O & U1 & U2).
  - split; rewrite Z; reflexivity.
  - apply repeat_length.
  - apply repeat_length.
  - cbn [v_faces full]. rewrite seq_length. exact L1.
  - cbn [v_nodes full]. rewrite seq_length. exact L2.
  - exists d. split; [exact U |].
    assert (X : forall (k : nat) l' l, updated (repeat 0 k) l' (seq 0 k) l false -> List.length l = k -> l' = l).
    { intros k l' l Up L. destruct (updated_all _ _ _ k Up (repeat_length _ _) L) as [La Lb]. apply nth_error_ext. intros i.
      destruct (Nat.lt_ge_cases i k) as [H | H].
      - rewrite Lb by exact H. rewrite nth_repeat, Rplus_0_l. symmetry. apply nth_error_nth'. lia.
      - rewrite (proj2 (nth_error_None l' i)) by lia. symmetry. apply nth_error_None. lia. }
    cbn [v_faces v_nodes full] in U1, U2. pose proof (X _ _ _ U1 L1) as X1. pose proof (X _ _ _ U2 L2) as X2. subst F' N'. split; [exact E |].
    intros x H1 H2. cbn [st_data with_data]. rewrite O by assumption. rewrite Z. unfold zeros.
    apply String.eqb_neq in H1, H2. rewrite H1, H2. reflexivity.
Qed.

Lemma add_local_ok s : st_data s = zeros m -> st_dem s = Some dem ->
  exists d F N, add_local m areas v s = (with_dem None (with_data d s), Ok tt) /\ elevations (with_data d s) F N /\ nothing_else (with_data d s) /\
    updated (repeat 0 (m_nface m)) F (v_faces v) (map (fst dem) (v_faces v)) false /\ updated (repeat 0 (m_nnode m)) N (v_nodes v) (map (snd dem) (v_nodes v)) false.
Proof.
  intros Z D. unfold add_local. rewrite D. destruct dem as [ff fn].
  destruct (update_ok v s (repeat 0 (m_nface m)) (repeat 0 (m_nnode m)) (map ff (v_faces v)) (map fn (v_nodes v)) Reg) as (d & F' & N' & U & E & O & U1 & U2).
  - split; rewrite Z; reflexivity.
  - apply repeat_length.
  - apply repeat_length.
  - apply map_length.
  - apply map_length.
  - exists d, F', N'. rewrite U. cbn [then_]. split; [reflexivity |]. split; [exact E |]. split.
    + intros x H1 H2. cbn [st_data with_data]. rewrite O by assumption. rewrite Z. unfold zeros. apply String.eqb_neq in H1, H2. rewrite H1, H2. reflexivity.
    + split; assumption.
Qed.

(** One kind of element: the local elevations, then those of the file elsewhere. *)
Lemma compose_ok n idx (inside : nat -> R) g outside F S F' : NoDup idx -> (forall i, In i idx -> (i < n)%nat) ->
  updated (repeat 0 n) F idx (map inside idx) false ->
  updated (repeat 0 n) S (exterior n idx) (global_samples (g_nodata g) (g_units g) (map outside (exterior n idx))) true ->
  updated F F' (seq 0 n) S false -> composed n idx inside g outside F'.
Proof.
  intros ND Rg (L1 & A1 & B1) (L2 & A2 & B2) U. rewrite repeat_length in L1, L2.
  destruct (updated_all F F' S n U L1 L2) as [L3 V].
  destruct (exterior_complement n idx) as [Sor Mem].
  assert (Ins : forall i, In i idx -> nth_error F i = Some (inside i)).
  { intros i H. destruct (In_nth_error _ _ H) as [k K]. rewrite (A1 k i (inside i) K (map_nth_error inside k idx K)).
    rewrite nth_repeat, Rplus_0_l. reflexivity. }
  split; [exact L3 |]. split.
  - intros i H. pose proof (Rg i H) as Hi. rewrite (V i Hi).
    assert (S0 : nth i S 0 = 0). { apply nth_error_nth. rewrite B2; [apply nth_error_repeat; exact Hi |]. intros K. apply Mem in K. apply K. exact H. }
    rewrite S0, Rplus_0_r. f_equal. apply nth_error_nth. apply Ins. exact H.
  - exists (exterior n idx). split; [split; assumption |].
    set (samples := global_samples _ _ _) in *.
    assert (LS : List.length samples = List.length (exterior n idx)) by (unfold samples; rewrite samples_length, map_length; reflexivity).
    apply nth_error_ext. intros k. destruct (nth_error (exterior n idx) k) as [i |] eqn:K.
    + rewrite (map_nth_error (fun i => nth i F' 0) k _ K).
      assert (Kl : (k < List.length samples)%nat) by (rewrite LS; apply nth_error_Some; congruence).
      pose proof (nth_error_nth' samples 0 Kl) as Q. rewrite Q. f_equal.
      pose proof (proj1 (Mem i) (nth_error_In _ _ K)) as [Hi NI].
      pose proof (V i Hi) as VV. apply nth_error_nth with (d := 0) in VV. rewrite VV.
      assert (F0 : nth i F 0 = 0). { apply nth_error_nth. rewrite B1 by exact NI. apply nth_error_repeat. exact Hi. }
      rewrite F0, Rplus_0_l. apply nth_error_nth. rewrite (A2 k i _ K Q). reflexivity.
    + apply nth_error_None in K. rewrite (proj2 (nth_error_None _ k)) by (rewrite map_length; exact K). symmetry. apply nth_error_None. lia.
Qed.

(** The file that is used. *)
Definition chosen (s : state) : string := match st_super s with None => lola | Some f => f end.

Definition save_outcome (file : option (list R * list R)) : result unit :=
  match file with
  | None => Ok tt
  | Some (f, n) => if Nat.eqb (List.length f) (m_nface m) && Nat.eqb (List.length n) (m_nnode m) then Ok tt else Err ValueError
  end.

Lemma build_ok world g s : st_dem s = Some dem -> st_cache s = false -> usable world (chosen s) g -> fits_file m (st_file s) ->
  exists s' F N, reset m areas v lola world s = (s', Ok tt) /\ elevations s' F N /\ nothing_else s' /\ from_sources m v dem g F N /\
    st_dem s' = None /\ st_cache s' = false /\ st_ask s' = st_ask s /\ st_file s' = Some (F, N) /\ st_super s' = Some (chosen s).
Proof.
  intros D C [W Crs] FF. unfold reset.
  destruct (add_local_ok (with_data (zeros m) s) eq_refl D) as (d & F & N & AL & El & No & U1 & U2).
  change (st_dem (with_data (zeros m) s)) with (st_dem s). rewrite D, AL. cbn [then_].
  set (s1 := with_dem None (with_data d (with_data (zeros m) s))).
  unfold add_global. change (st_cache s1) with (st_cache s). rewrite C.
  set (s2 := with_cache true (with_ask false (match st_super s1 with None => with_super (Some lola) s1 | Some _ => s1 end))).
  assert (Sup : st_super s2 = Some (chosen s)) by (unfold s2, s1, chosen; cbn; destruct (st_super s) eqn:E; cbn; [exact E | reflexivity]).
  rewrite Sup, W, Crs.
  destruct Reg as (R1 & R2 & R3 & R4 & R5 & R6 & R7 & R8).
  destruct (assign_ok (repeat 0 (m_nface m)) (exterior (m_nface m) (v_faces v)) (global_samples (g_nodata g) (g_units g) (map (g_face g) (exterior (m_nface m) (v_faces v))))) as (SF & AF & UF).
  { apply sorted_nodup. apply exterior_complement. } { intros i H. rewrite repeat_length. apply (exterior_complement (m_nface m) (v_faces v)) in H. apply H. }
  destruct (assign_ok (repeat 0 (m_nnode m)) (exterior (m_nnode m) (v_nodes v)) (global_samples (g_nodata g) (g_units g) (map (g_node g) (exterior (m_nnode m) (v_nodes v))))) as (SN & AN & UN).
  { apply sorted_nodup. apply exterior_complement. } { intros i H. rewrite repeat_length. apply (exterior_complement (m_nnode m) (v_nodes v)) in H. apply H. }
  rewrite AF, AN.
  assert (L1 : List.length F = m_nface m) by (destruct U1 as [X _]; rewrite X; apply repeat_length).
  assert (L2 : List.length N = m_nnode m) by (destruct U2 as [X _]; rewrite X; apply repeat_length).
  assert (L3 : List.length SF = m_nface m) by (destruct UF as [X _]; rewrite X; apply repeat_length).
  assert (L4 : List.length SN = m_nnode m) by (destruct UN as [X _]; rewrite X; apply repeat_length).
  assert (Dat : st_data s2 = d) by (unfold s2, s1; cbn; destruct (st_super s); reflexivity).
  destruct (update_ok (full m) s2 F N SF SN full_region) as (d' & F' & N' & Up & El' & O & V1 & V2).
  { unfold elevations. rewrite Dat. exact El. } { exact L1. } { exact L2. } { cbn; rewrite seq_length; exact L3. } { cbn; rewrite seq_length; exact L4. }
  rewrite Up. cbn [then_]. unfold save_dem. destruct El' as [E1 E2]. rewrite E1, E2.
  cbn [v_faces v_nodes full] in V1, V2.
  destruct (updated_all F F' SF _ V1 L1 L3) as [M1 _]. destruct (updated_all N N' SN _ V2 L2 L4) as [M2 _].
  assert (Fil : st_file (with_data d' s2) = st_file s) by (unfold s2, s1; cbn; destruct (st_super s); reflexivity).
  assert (SV : (match st_file (with_data d' s2) with
     | Some (f0, n0) => if (Nat.eqb (List.length f0) (List.length F') && Nat.eqb (List.length n0) (List.length N'))%bool
                        then (with_file (Some (F', N')) (with_data d' s2), Ok tt) else (with_data d' s2, Err ValueError)
     | None => (with_file (Some (F', N')) (with_data d' s2), Ok tt) end) = (with_file (Some (F', N')) (with_data d' s2), Ok tt)).
  { rewrite Fil. destruct (st_file s) as [[f0 n0] |]; [| reflexivity]. cbn in FF. destruct FF as [-> ->]. rewrite M1, M2, !Nat.eqb_refl. reflexivity. }
  rewrite SV. cbn [then_].
  eexists. exists F', N'. split; [reflexivity |]. split; [split; assumption |]. split.
  { intros x H1 H2. cbn. rewrite O by assumption. rewrite Dat. apply No; assumption. }
  split. { split; [exact (compose_ok _ _ _ _ _ F SF F' R1 R3 U1 UF V1) | exact (compose_ok _ _ _ _ _ N SN N' R2 R4 U2 UN V2)]. }
  cbn [st_dem st_cache st_ask st_file st_super with_ask with_cache with_file with_data]. split; [unfold s2, s1; cbn; destruct (st_super s); reflexivity |]. split; [reflexivity |]. split; [reflexivity |]. split; [reflexivity | exact Sup].
Qed.

(** A file of another size: the new elevations cannot be saved. *)
Lemma build_resized world g s f n : st_dem s = Some dem -> st_cache s = false -> usable world (chosen s) g -> st_file s = Some (f, n) ->
  List.length f <> m_nface m \/ List.length n <> m_nnode m ->
  snd (reset m areas v lola world s) = Err ValueError.
Proof.
  intros D C [W Crs] FF Bad. unfold reset.
  destruct (add_local_ok (with_data (zeros m) s) eq_refl D) as (d & F & N & AL & El & No & U1 & U2).
  change (st_dem (with_data (zeros m) s)) with (st_dem s). rewrite D, AL. cbn [then_].
  set (s1 := with_dem None (with_data d (with_data (zeros m) s))).
  unfold add_global. change (st_cache s1) with (st_cache s). rewrite C.
  set (s2 := with_cache true (with_ask false (match st_super s1 with None => with_super (Some lola) s1 | Some _ => s1 end))).
  assert (Sup : st_super s2 = Some (chosen s)) by (unfold s2, s1, chosen; cbn; destruct (st_super s) eqn:E; cbn; [exact E | reflexivity]).
  rewrite Sup, W, Crs.
  destruct (assign_ok (repeat 0 (m_nface m)) (exterior (m_nface m) (v_faces v)) (global_samples (g_nodata g) (g_units g) (map (g_face g) (exterior (m_nface m) (v_faces v))))) as (SF & AF & UF).
  { apply sorted_nodup. apply exterior_complement. } { intros i H. rewrite repeat_length. apply (exterior_complement (m_nface m) (v_faces v)) in H. apply H. }
  destruct (assign_ok (repeat 0 (m_nnode m)) (exterior (m_nnode m) (v_nodes v)) (global_samples (g_nodata g) (g_units g) (map (g_node g) (exterior (m_nnode m) (v_nodes v))))) as (SN & AN & UN).
  { apply sorted_nodup. apply exterior_complement. } { intros i H. rewrite repeat_length. apply (exterior_complement (m_nnode m) (v_nodes v)) in H. apply H. }
  rewrite AF, AN.
  assert (L1 : List.length F = m_nface m) by (destruct U1 as [X _]; rewrite X; apply repeat_length).
  assert (L2 : List.length N = m_nnode m) by (destruct U2 as [X _]; rewrite X; apply repeat_length).
  assert (L3 : List.length SF = m_nface m) by (destruct UF as [X _]; rewrite X; apply repeat_length).
  assert (L4 : List.length SN = m_nnode m) by (destruct UN as [X _]; rewrite X; apply repeat_length).
  assert (Dat : st_data s2 = d) by (unfold s2, s1; cbn; destruct (st_super s); reflexivity).
  destruct (update_ok (full m) s2 F N SF SN full_region) as (d' & F' & N' & Up & El' & O & V1 & V2).
  { unfold elevations. rewrite Dat. exact El. } { exact L1. } { exact L2. } { cbn; rewrite seq_length; exact L3. } { cbn; rewrite seq_length; exact L4. }
  rewrite Up. cbn [then_]. unfold save_dem. destruct El' as [E1 E2]. rewrite E1, E2.
  cbn [v_faces v_nodes full] in V1, V2.
  destruct (updated_all F F' SF _ V1 L1 L3) as [M1 _]. destruct (updated_all N N' SN _ V2 L2 L4) as [M2 _].
  assert (Fil : st_file (with_data d' s2) = st_file s) by (unfold s2, s1; cbn; destruct (st_super s); reflexivity).
  rewrite Fil, FF, M1, M2.
  assert (X : (Nat.eqb (List.length f) (m_nface m) && Nat.eqb (List.length n) (m_nnode m))%bool = false).
  { apply andb_false_iff. destruct Bad as [B | B]; [left | right]; apply Nat.eqb_neq; exact B. }
  rewrite X. reflexivity.
Qed.

(** Resetting a surface that has its file. *)
Lemma reset_ok world s f n : st_dem s = None -> st_file s = Some (f, n) -> List.length f = m_nface m -> List.length n = m_nnode m ->
  exists d, reset m areas v lola world s = (with_data d s, Ok tt) /\ elevations (with_data d s) f n /\ nothing_else (with_data d s).
Proof.
  intros D Fi L1 L2. unfold reset. change (st_dem (with_data (zeros m) s)) with (st_dem s). change (st_file (with_data (zeros m) s)) with (st_file s). rewrite D, Fi.
  exact (restore_ok (with_data (zeros m) s) f n eq_refl L1 L2).
Qed.

(** The file cannot be opened, or has no coordinates: the marks of the attempt stay. *)
Lemma build_fails world s : st_dem s = Some dem -> st_cache s = false -> (forall g, ~ usable world (chosen s) g) ->
  exists s' e, reset m areas v lola world s = (s', Err e) /\ st_dem s' = None /\ st_cache s' = true /\ st_ask s' = false /\ st_file s' = st_file s /\ st_super s' = Some (chosen s).
Proof.
  intros D C W. unfold reset.
  destruct (add_local_ok (with_data (zeros m) s) eq_refl D) as (d & F & N & AL & El & No & U1 & U2).
  change (st_dem (with_data (zeros m) s)) with (st_dem s). rewrite D, AL. cbn [then_].
  set (s1 := with_dem None (with_data d (with_data (zeros m) s))).
  unfold add_global. change (st_cache s1) with (st_cache s). rewrite C.
  set (s2 := with_cache true (with_ask false (match st_super s1 with None => with_super (Some lola) s1 | Some _ => s1 end))).
  assert (Sup : st_super s2 = Some (chosen s)) by (unfold s2, s1, chosen; cbn; destruct (st_super s) eqn:E; cbn; [exact E | reflexivity]).
  assert (Q : st_dem s2 = None /\ st_cache s2 = true /\ st_ask s2 = false /\ st_file s2 = st_file s /\ st_super s2 = Some (chosen s)).
  { repeat split; try exact Sup; unfold s2, s1; cbn; destruct (st_super s); reflexivity. }
  rewrite Sup. destruct (world (chosen s)) as [g |] eqn:E.
  - destruct (g_crs g) eqn:Cr; [exfalso; exact (W g (conj E Cr)) |]. exists s2, ValueError. split; [reflexivity | exact Q].
  - exists s2, RuntimeError. split; [reflexivity | exact Q].
Qed.
(** A second attempt. *)
Lemma build_again world s : st_dem s = Some dem -> st_cache s = true -> snd (reset m areas v lola world s) = Err UnboundLocalError.
Proof.
  intros D C. unfold reset.
  destruct (add_local_ok (with_data (zeros m) s) eq_refl D) as (d & F & N & AL & _).
  change (st_dem (with_data (zeros m) s)) with (st_dem s). rewrite D, AL. cbn [then_]. unfold add_global. cbn [st_cache with_dem with_data]. rewrite C. reflexivity.
Qed.

(* ------------------------------ loading ------------------------------ *)
Lemma from_lengths g F N : from_sources m v dem g F N -> List.length F = m_nface m /\ List.length N = m_nnode m.
Proof. intros [A B]. split; [apply A | apply B]. Qed.
Lemma load_built world g force same again loaded saved s : regrid_needed force same loaded s = true -> st_cache s = false -> usable world (chosen s) g -> fits_file m (st_file s) ->
  exists s' F N, load m areas v dem lola world force same again loaded saved s = (s', Ok tt) /\ elevations s' F N /\ nothing_else s' /\ from_sources m v dem g F N /\
    st_dem s' = None /\ st_cache s' = false /\ st_ask s' = st_ask s /\ st_file s' = Some (F, N) /\ st_super s' = Some (chosen s).
Proof.
  intros G C U FF. unfold load. rewrite G, orb_true_r.
  destruct (build_ok world g (with_ask false (with_dem (Some dem) s)) eq_refl C U FF) as (s1 & F & N & B & El & No & Fr & D1 & C1 & A1 & F1 & S1).
  rewrite B. cbn [then_]. destruct again.
  - destruct (from_lengths g F N Fr) as [L1 L2].
    destruct (reset_ok world (with_ask (st_ask (with_dem (Some dem) s)) s1) F N D1 F1 L1 L2) as (d & R1 & E1 & N1).
    rewrite R1. eexists. exists F, N. split; [reflexivity |]. split; [exact E1 |]. split; [exact N1 |]. split; [exact Fr |]. cbn. repeat split; assumption.
  - eexists. exists F, N. split; [reflexivity |]. split; [exact El |]. split; [exact No |]. split; [exact Fr |]. cbn. repeat split; assumption.
Qed.
Lemma load_resized world g force same again loaded saved s f n : regrid_needed force same loaded s = true -> st_cache s = false -> usable world (chosen s) g -> st_file s = Some (f, n) ->
  List.length f <> m_nface m \/ List.length n <> m_nnode m ->
  snd (load m areas v dem lola world force same again loaded saved s) = Err ValueError.
Proof.
  intros G C U FF Bad. unfold load. rewrite G, orb_true_r.
  pose proof (build_resized world g (with_ask false (with_dem (Some dem) s)) f n eq_refl C U FF Bad) as B.
  destruct (reset m areas v lola world (with_ask false (with_dem (Some dem) s))) as [s1 r]. cbn [snd] in B. subst r. cbn [then_]. destruct again; reflexivity.
Qed.
Lemma load_fails world force same again loaded saved s : regrid_needed force same loaded s = true -> st_cache s = false -> (forall g, ~ usable world (chosen s) g) ->
  exists s' e, load m areas v dem lola world force same again loaded saved s = (s', Err e) /\ st_dem s' = None /\ st_cache s' = true /\ st_ask s' = false /\ st_file s' = st_file s.
Proof.
  intros G C U. unfold load. rewrite G, orb_true_r.
  destruct (build_fails world (with_ask false (with_dem (Some dem) s)) eq_refl C U) as (s1 & e & B & Q1 & Q2 & Q3 & Q4 & Q5).
  rewrite B. cbn [then_]. exists s1, e. split; [destruct again; reflexivity |]. repeat split; assumption.
Qed.
Lemma load_again world force same again loaded saved s : regrid_needed force same loaded s = true -> st_cache s = true ->
  snd (load m areas v dem lola world force same again loaded saved s) = Err UnboundLocalError.
Proof.
  intros G C. unfold load. rewrite G, orb_true_r.
  pose proof (build_again world (with_ask false (with_dem (Some dem) s)) eq_refl C) as B.
  destruct (reset m areas v lola world (with_ask false (with_dem (Some dem) s))) as [s1 r]. cbn [snd] in B. subst r. cbn [then_]. destruct again; reflexivity.
Qed.

Lemma construct_built world g force same again ask saved user file :
  (force = true \/ same = false \/ file = None) -> usable world lola g -> fits_file m file ->
  exists s F N, construct m areas v dem lola world force same again ask saved user file = (s, Ok tt) /\
    elevations s F N /\ nothing_else s /\ from_sources m v dem g F N /\ st_file s = Some (F, N) /\ st_ask s = ask.
Proof.
  intros G U FF. unfold construct. set (s0 := mkState _ _ _ _ _ _).
  assert (G' : regrid_needed force same None s0 = true).
  { unfold regrid_needed, s0. cbn [st_dem st_file]. destruct G as [-> | [-> | ->]]; [reflexivity | | ]; destruct force; try reflexivity; try (destruct file as [[? ?] |]); try destruct same; reflexivity. }
  destruct (load_built world g force same again None saved s0 G' eq_refl U FF) as (s' & F & N & L & El & No & Fr & _ & _ & _ & Fi & _).
  rewrite L. cbn [then_]. eexists. exists F, N. split; [reflexivity |]. split; [exact El |]. split; [exact No |]. split; [exact Fr |]. split; [exact Fi | reflexivity].
Qed.
Lemma construct_reused world ask saved user f n : List.length f = m_nface m -> List.length n = m_nnode m ->
  exists s, construct m areas v dem lola world false true true ask saved user (Some (f, n)) = (s, Ok tt) /\
    elevations s f n /\ nothing_else s /\ st_file s = Some (f, n) /\ st_ask s = ask.
Proof.
  intros L1 L2. unfold construct. set (s0 := mkState _ _ _ _ _ _). unfold load.
  change (regrid_needed false true None s0) with false. cbn [orb].
  destruct (reset_ok world s0 f n eq_refl eq_refl L1 L2) as (d & R1 & E1 & N1). rewrite R1. cbn [then_].
  destruct (reset_ok world (with_ask (st_ask s0) (with_data d s0)) f n eq_refl eq_refl L1 L2) as (d2 & R2 & E2 & N2). rewrite R2. cbn [then_].
  eexists. split; [reflexivity |]. split; [exact E2 |]. split; [exact N2 |]. split; reflexivity.
Qed.
Lemma construct_user world force same again ask saved user1 user2 file :
  let c u := construct m areas v dem lola world force same again ask saved u file in
  snd (c user1) = snd (c user2) /\ st_data (fst (c user1)) = st_data (fst (c user2)) /\ st_file (fst (c user1)) = st_file (fst (c user2)).
Proof.
  cbv zeta. unfold construct. destruct (load m areas v dem lola world force same again None saved (mkState _ None false false file None)) as [s r].
  destruct r as [[] | e]; cbn; repeat split; reflexivity.
Qed.
Lemma regrid_iff force same loaded s : regrid_needed force same loaded s = true <->
  force = true \/ same = false \/ (st_dem s = None /\ (st_file s = None \/ exists f n nf nn, st_file s = Some (f, n) /\ loaded = Some (nf, nn) /\ (List.length f <> nf \/ List.length n <> nn))).
Proof.
  unfold regrid_needed. rewrite !orb_true_iff, negb_true_iff. destruct (st_dem s) as [dd |].
  - split; [intros [[H | H] | H]; [left; exact H | discriminate H | right; left; exact H] | intros [H | [H | [H _]]]; [left; left; exact H | right; exact H | discriminate H]].
  - destruct (st_file s) as [[f n] |].
    + destruct loaded as [[nf nn] |].
      * rewrite orb_true_iff, !negb_true_iff, !Nat.eqb_neq. split.
        -- intros [[H | H] | H]; [left; exact H | | right; left; exact H]. right; right. split; [reflexivity |]. right. exists f, n, nf, nn. split; [reflexivity | split; [reflexivity | exact H]].
        -- intros [H | [H | (_ & [H | (f' & n' & nf' & nn' & E1 & E2 & H)])]]; [left; left; exact H | right; exact H | discriminate H |].
           left; right. injection E1 as -> ->. injection E2 as -> ->. exact H.
      * split; [intros [[H | H] | H]; [left; exact H | discriminate H | right; left; exact H] | intros [H | [H | (_ & [H | (f' & n' & nf' & nn' & E1 & E2 & H)])]]; [left; left; exact H | right; exact H | discriminate H | discriminate E2]].
    + split; [intros _; right; right; split; [reflexivity | left; reflexivity] | intros _; left; right; reflexivity].
Qed.
End Build.

Lemma composed_unique n idx inside g outside F F' : composed n idx inside g outside F -> composed n idx inside g outside F' -> F' = F.
Proof.
  intros (L1 & A1 & o1 & C1 & M1) (L2 & A2 & o2 & C2 & M2). pose proof (complement_unique _ _ _ _ C2 C1) as ->.
  assert (E : map (fun i => nth i F' 0) o1 = map (fun i => nth i F 0) o1) by congruence.
  apply nth_error_ext. intros i. destruct (Nat.lt_ge_cases i n) as [H | H].
  - destruct (in_dec Nat.eq_dec i idx) as [I | I]; [rewrite A1, A2 by exact I; reflexivity |].
    assert (J : In i o1) by (apply C1; split; assumption).
    assert (K : nth i F' 0 = nth i F 0) by exact (ext_in_map E i J).
    rewrite (nth_error_nth' F' 0) by lia. rewrite (nth_error_nth' F 0) by lia. congruence.
  - rewrite (proj2 (nth_error_None F' i)) by lia. symmetry. apply nth_error_None. lia.
Qed.
Lemma sources_unique m v dem g F N F' N' : region m v -> from_sources m v dem g F N -> from_sources m v dem g F' N' -> F' = F /\ N' = N.
Proof. intros _ [A B] [C D]. split; [exact (composed_unique _ _ _ _ _ _ _ A C) | exact (composed_unique _ _ _ _ _ _ _ B D)]. Qed.
Lemma load_later m areas v dem lola : region m v -> forall world g again saved ask u, usable world u g ->
  exists s F N, load m areas v dem lola world false false again None saved (deferred ask (Some u) None) = (s, Ok tt) /\
    elevations s F N /\ nothing_else s /\ from_sources m v dem g F N /\ st_file s = Some (F, N) /\ st_ask s = ask.
Proof.
  intros Rg world g again saved ask u U.
  destruct (load_built m areas v dem lola Rg world g false false again None saved (deferred ask (Some u) None) eq_refl eq_refl U I) as (s & F & N & A & B & C & D & _ & _ & E & G & _).
  exists s, F, N. split; [exact A |]. split; [exact B |]. split; [exact C |]. split; [exact D |]. split; [exact G | exact E].
Qed.
Lemma retry_fails m areas v dem lola : region m v -> forall world1 world2 again1 again2 saved ask user,
  (forall g, ~ usable world1 (match user with None => lola | Some u => u end) g) ->
  exists s e, load m areas v dem lola world1 false false again1 None saved (deferred ask user None) = (s, Err e) /\ st_ask s = false /\
    snd (load m areas v dem lola world2 false false again2 None saved s) = Err UnboundLocalError.
Proof.
  intros Rg world1 world2 again1 again2 saved ask user U.
  destruct (load_fails m areas v dem lola Rg world1 false false again1 None saved (deferred ask user None) eq_refl eq_refl U) as (s & e & A & D & C & K & F).
  exists s, e. split; [exact A |]. split; [exact K |]. apply (load_again m areas v dem lola Rg); [| exact C].
  unfold regrid_needed. rewrite D, F. reflexivity.
Qed.
Lemma sample_sources : from_sources strip strip_end plain (heights 7) [5; 5; 7; 7] [5; 5; 5; 7; 7].
Proof.
  assert (FM : 1000 * 10000 <= fmax) by exact kilometres_mark.
  assert (S7 : scaled 1 (Fin 7) = Fin 7) by (rewrite scaled_fin; [f_equal; lra | rewrite Rabs_right; lra]).
  assert (GS : global_samples (Some (Fin (-9999))) ["METER"%string] [Fin 7; Fin 7] = [7; 7]).
  { unfold global_samples. change (global_scale ["METER"%string]) with 1. cbn [map]. rewrite S7. cbn [is_finite differs andb]. destruct (Req_EM_T 7 (-9999)); [lra | reflexivity]. }
  split; (split; [reflexivity |]; split; [intros i H; cbn in H; repeat (destruct H as [<- | H]; [reflexivity |]); destruct H |]).
  - exists [2; 3]%nat. split; [exact (exterior_complement 4 [0; 1]%nat) |]. cbn [map nth heights g_nodata g_units g_face]. rewrite GS. reflexivity.
  - exists [3; 4]%nat. split; [exact (exterior_complement 5 [0; 1; 2]%nat) |]. cbn [map nth heights g_nodata g_units g_node]. rewrite GS. reflexivity.
Qed.
Lemma strip_region : region strip strip_end.
Proof.
  unfold region. cbn [strip_end strip v_faces v_nodes m_nface m_nnode List.length].
  split; [repeat constructor; cbn; intuition discriminate |]. split; [repeat constructor; cbn; intuition discriminate |].
  split; [intros f H; cbn in H; lia |]. split; [intros f H; cbn in H; lia |]. repeat split; discriminate.
Qed.

Section More.
Variables (m : mesh) (areas : list R) (v : view) (dem : (nat -> R) * (nat -> R)) (lola : string).
Lemma construct_continued world ask saved user f n :
  construct m areas v dem lola world false true false ask saved user (Some (f, n)) =
    (mkState saved None false ask (Some (f, n)) user, Ok tt).
Proof. reflexivity. Qed.
Lemma construct_keeps world force same again ask saved user file s :
  construct m areas v dem lola world force same again ask saved user file = (s, Ok tt) -> st_super s = user /\ st_ask s = ask.
Proof.
  unfold construct. destruct (load m areas v dem lola world force same again None saved _) as [s0 [[] | e]]; cbn; intros H; [|discriminate].
  injection H as <-. split; reflexivity.
Qed.
Lemma reset_flat world s : st_dem s = None -> st_file s = None ->
  exists d, reset m areas v lola world s = (with_data d s, Ok tt) /\
    elevations (with_data d s) (repeat 0 (m_nface m)) (repeat 0 (m_nnode m)) /\ nothing_else (with_data d s).
Proof.
  intros D F. exists (zeros m). unfold reset. cbn [with_data st_dem st_file]. rewrite D, F. split; [reflexivity|]. split; [split; reflexivity|].
  intros n N1 N2. cbn [with_data st_data]. unfold zeros. destruct (String.eqb_spec n "face_elevation"); [contradiction|].
  destruct (String.eqb_spec n "node_elevation"); [contradiction|]. reflexivity.
Qed.
End More.
Lemma mean_signs l : In (Inf true) l -> In (Inf false) l -> mean l = NaN.
Proof.
  intros A B. unfold mean. destruct l as [|x r]; [reflexivity|]. cbv zeta. set (L := x :: r) in *.
  destruct (existsb is_nan L); [reflexivity|].
  rewrite (proj2 (existsb_exists (fun w => match w with Inf c => Bool.eqb true c | _ => false end) L)) by (exists (Inf true); split; [exact A|reflexivity]).
  rewrite (proj2 (existsb_exists (fun w => match w with Inf c => Bool.eqb false c | _ => false end) L)) by (exists (Inf false); split; [exact B|reflexivity]).
  reflexivity.
Qed.
