From Coq Require Import Reals List Arith Lra Lia Sorted Permutation.
From Verif Require Import Common RSum Mesh_model Mesh_proofs Region_model Region_spec.
From Verif Require Import Sorting.
Import ListNotations.
Open Scope R_scope.

Lemma unique_in l x : In x (unique l) <-> In x l.
Proof.
  unfold unique. assert (P : Permutation (sort Nat.leb (nodup Nat.eq_dec l)) (nodup Nat.eq_dec l)) by apply sort_perm.
  split; intros H.
  - apply (nodup_In Nat.eq_dec). apply (Permutation_in x P H).
  - apply (Permutation_in x (Permutation_sym P)). apply nodup_In. exact H.
Qed.
Lemma unique_inc l : increasing (unique l).
Proof.
  unfold unique, increasing. assert (P : Permutation (sort Nat.leb (nodup Nat.eq_dec l)) (nodup Nat.eq_dec l)) by apply sort_perm.
  assert (N : NoDup (sort Nat.leb (nodup Nat.eq_dec l))) by (apply (Permutation_NoDup (Permutation_sym P)); apply NoDup_nodup).
  assert (S : StronglySorted (fun a b => Nat.leb a b = true) (sort Nat.leb (nodup Nat.eq_dec l))).
  { apply sort_sorted; [intros x y H; apply Nat.leb_gt in H; apply Nat.leb_le; lia | intros x y z A B; apply Nat.leb_le in A, B; apply Nat.leb_le; lia]. }
  clear P. induction S as [| a r S IH F]; [constructor |]. inversion N as [| ? ? NI ND]; subst. constructor; [apply IH; exact ND |].
  apply Forall_forall. intros b Hb. rewrite Forall_forall in F. specialize (F b Hb). apply Nat.leb_le in F. assert (a <> b) by (intros ->; contradiction). lia.
Qed.
Lemma valid_in l x : In x (valid l) <-> In (Some x) l.
Proof.
  unfold valid. rewrite in_flat_map. split.
  - intros ([y |] & H & H'); [destruct H' as [-> | []]; exact H | destruct H'].
  - intros H. exists (Some x). split; [exact H | left; reflexivity].
Qed.
Lemma ravel_in c idx o : In o (ravel c idx) <-> exists f, In f idx /\ In o (c f).
Proof. unfold ravel. rewrite in_flat_map. reflexivity. Qed.
Lemma attached_in c idx x : In x (unique (valid (ravel c idx))) <-> attached c idx x.
Proof. rewrite unique_in, valid_in, ravel_in. reflexivity. Qed.
Lemma buffer_in m core f : In f (with_buffer m core (unique (valid (ravel (face_nodes m) core))) (unique (valid (ravel (face_edges m) core)))) <-> touches m core f.
Proof.
  unfold with_buffer. rewrite unique_in, in_app_iff, valid_in, !in_app_iff, !ravel_in. unfold touches. split.
  - intros [H | [(c & C & H) | [(n & C & H) | (e & C & H)]]].
    + left. exact H.
    + right. exists c. split; [exact C | left; exact H].
    + right. apply attached_in in C. destruct C as (c & C & H'). exists c. split; [exact C | right; left; exists n; split; assumption].
    + right. apply attached_in in C. destruct C as (c & C & H'). exists c. split; [exact C | right; right; exists e; split; assumption].
  - intros [H | (c & C & [H | [(n & Hn & H) | (e & He & H)]])].
    + left. exact H.
    + right. left. exists c. split; assumption.
    + right. right. left. exists n. split; [apply attached_in; exists c; split; assumption | exact H].
    + right. right. right. exists e. split; [apply attached_in; exists c; split; assumption | exact H].
Qed.
Lemma region_contents m radius query nearest r one v : extract_region m radius query nearest r one = Some v -> r / radius * 180 / PI < 180 ->
  exists core, (core = query (r / radius * 180 / PI) \/ (query (r / radius * 180 / PI) = [] /\ one = true /\ core = [nearest])) /\ core <> [] /\
  (forall f, In f (v_faces v) <-> touches m core f) /\ (forall n, In n (v_nodes v) <-> attached (face_nodes m) (v_faces v) n) /\
  (forall e, In e (v_edges v) <-> attached (face_edges m) core e) /\ increasing (v_faces v) /\ increasing (v_nodes v) /\ increasing (v_edges v) /\ v_radius v = r.
Proof.
  unfold extract_region. set (a := r / radius * 180 / PI). intros E L. destruct (Rlt_dec a 180); [| contradiction].
  assert (G : forall core, Some (mkView (with_buffer m core (unique (valid (ravel (face_nodes m) core))) (unique (valid (ravel (face_edges m) core))))
     (unique (valid (ravel (face_nodes m) (with_buffer m core (unique (valid (ravel (face_nodes m) core))) (unique (valid (ravel (face_edges m) core)))))))
     (unique (valid (ravel (face_edges m) core))) r) = Some v ->
   (forall f, In f (v_faces v) <-> touches m core f) /\ (forall n, In n (v_nodes v) <-> attached (face_nodes m) (v_faces v) n) /\
   (forall e, In e (v_edges v) <-> attached (face_edges m) core e) /\ increasing (v_faces v) /\ increasing (v_nodes v) /\ increasing (v_edges v) /\ v_radius v = r).
  { intros core Ev. assert (Hv : v = mkView (with_buffer m core (unique (valid (ravel (face_nodes m) core))) (unique (valid (ravel (face_edges m) core))))
     (unique (valid (ravel (face_nodes m) (with_buffer m core (unique (valid (ravel (face_nodes m) core))) (unique (valid (ravel (face_edges m) core)))))))
     (unique (valid (ravel (face_edges m) core))) r) by congruence. clear Ev. subst v. cbn [v_faces v_nodes v_edges v_radius].
    split; [intros; apply buffer_in |]. split; [intros; apply attached_in |]. split; [intros; apply attached_in |]. unfold with_buffer.
    split; [apply unique_inc |]. split; [apply unique_inc |]. split; [apply unique_inc | reflexivity]. }
  destruct (query a) as [| q l] eqn:Q.
  - destruct one; [| discriminate E]. exists [nearest]. split; [right; repeat split; reflexivity |]. split; [discriminate |]. apply G. exact E.
  - exists (q :: l). split; [left; reflexivity |]. split; [discriminate |]. apply G. exact E.
Qed.
Lemma region_none m radius query nearest r one : extract_region m radius query nearest r one = None <->
  r / radius * 180 / PI < 180 /\ query (r / radius * 180 / PI) = [] /\ one = false.
Proof.
  unfold extract_region. set (a := r / radius * 180 / PI). destruct (Rlt_dec a 180) as [L | L].
  - destruct (query a) as [| q l]; [destruct one |]; split; intros H; try discriminate H; try reflexivity; try (destruct H as (_ & H & H'); discriminate).
    split; [exact L | split; reflexivity].
  - split; [discriminate | intros [H _]; contradiction].
Qed.
Lemma region_whole m radius query nearest r one : 180 <= r / radius * 180 / PI -> exists v, extract_region m radius query nearest r one = Some v /\
  (forall f, In f (v_faces v) <-> (f < m_nface m)%nat) /\ (forall n, In n (v_nodes v) <-> (n < m_nnode m)%nat) /\ (forall e, In e (v_edges v) <-> (e < m_nedge m)%nat).
Proof.
  intros L. unfold extract_region. destruct (Rlt_dec _ 180) as [X | _]; [lra |]. eexists. split; [reflexivity |]. cbn [v_faces v_nodes v_edges].
  split; [| split]; intros; rewrite in_seq; lia.
Qed.
(** Membership decides an increasing list. *)
Lemma increasing_unique l1 l2 : increasing l1 -> increasing l2 -> (forall x, In x l1 <-> In x l2) -> l1 = l2.
Proof.
  unfold increasing. intros S1. revert l2. induction S1 as [| a r S1 IH F1]; intros l2 S2 E.
  - destruct l2 as [| b l2]; [reflexivity |]. exfalso. apply (E b). left. reflexivity.
  - destruct S2 as [| b r2 S2 F2]; [exfalso; apply (E a); left; reflexivity |]. rewrite Forall_forall in F1, F2.
    assert (a = b).
    { destruct (proj1 (E a) ltac:(left; reflexivity)) as [H | H]; [auto |]. destruct (proj2 (E b) ltac:(left; reflexivity)) as [H' | H']; [auto |].
      specialize (F1 b H'). specialize (F2 a H). lia. }
    subst b. f_equal. apply IH; [exact S2 |]. intros x. split; intros H.
    + destruct (proj1 (E x) ltac:(right; exact H)) as [H' | H']; [subst; specialize (F1 x H); lia | exact H'].
    + destruct (proj2 (E x) ltac:(right; exact H)) as [H' | H']; [subst; specialize (F2 x H); lia | exact H'].
Qed.
Lemma touches_ext m c1 c2 f : (forall x, In x c1 <-> In x c2) -> touches m c1 f <-> touches m c2 f.
Proof.
  intros E. unfold touches. rewrite (E f). split; (intros [H | (c & C & H)]; [left; exact H | right; exists c; split; [apply E; exact C | exact H]]).
Qed.
Lemma attached_ext g c1 c2 x : (forall y, In y c1 <-> In y c2) -> attached g c1 x <-> attached g c2 x.
Proof. intros E. unfold attached. split; intros (f & H & H'); exists f; (split; [apply E; exact H | exact H']). Qed.
Lemma touches_range m core f : sound m -> (forall c, In c core -> (c < m_nface m)%nat) -> touches m core f -> (f < m_nface m)%nat.
Proof.
  intros (A & B & C) W [H | (c & Hc & [H | [(n & Hn & H) | (e & He & H)]])].
  - apply W. exact H.
  - exact (proj1 (A c f (W c Hc)) H).
  - apply (B n f); [exact (proj1 (proj2 (A c n (W c Hc))) Hn) | exact H].
  - apply (C e f); [exact (proj2 (proj2 (A c e (W c Hc))) He) | exact H].
Qed.
(** A smaller region cut out of a region is the region of that radius, except for nodes. *)
Lemma subregion_same m radius query nearest dist r1 r2 v v1 v2 :
  0 < radius -> sound m -> (forall r, lists_within m dist r (query (r / radius * 180 / PI))) ->
  r1 / radius * 180 / PI < 180 -> r2 < r1 ->
  extract_region m radius query nearest r1 false = Some v -> extract_subregion m dist v r2 = Some v2 -> extract_region m radius query nearest r2 false = Some v1 ->
  v_faces v2 = v_faces v1 /\ v_edges v2 = v_edges v1 /\
  (forall n, In n (v_nodes v2) <-> exists f, (f < m_nface m)%nat /\ dist f <= r2 /\ In (Some n) (face_nodes m f)) /\
  (forall f, In f (v_faces v2) -> In f (v_faces v)) /\ (forall e, In e (v_edges v2) -> In e (v_edges v)) /\ (forall n, In n (v_nodes v2) -> In n (v_nodes v)).
Proof.
  intros PR SM W L1 L12 E E2 E1.
  assert (L2 : r2 / radius * 180 / PI < 180).
  { assert (r2 / radius * 180 / PI < r1 / radius * 180 / PI); [| lra]. pose proof PI_RGT_0. unfold Rdiv. apply Rmult_lt_compat_r; [apply Rinv_0_lt_compat; assumption |].
    apply Rmult_lt_compat_r; [lra |]. apply Rmult_lt_compat_r; [apply Rinv_0_lt_compat; assumption | exact L12]. }
  destruct (region_contents _ _ _ _ _ _ _ E L1) as (core & [HC | (_ & X & _)] & _ & F & N & Ed & IF & IN & IE & RR); [| discriminate].
  destruct (region_contents _ _ _ _ _ _ _ E1 L2) as (core1 & [HC1 | (_ & X & _)] & NE1 & F1 & N1 & Ed1 & IF1 & IN1 & IE1 & RR1); [| discriminate].
  assert (WW : forall c, In c core -> (c < m_nface m)%nat) by (intros c Hc; rewrite HC in Hc; apply (W r1) in Hc; tauto).
  unfold extract_subregion in E2. rewrite RR in E2. destruct (Rlt_dec r2 r1); [| contradiction].
  set (core2 := filter _ (v_faces v)) in E2.
  assert (C2' : forall f, In f core2 <-> (f < m_nface m)%nat /\ dist f <= r2).
  { intros f. unfold core2. rewrite filter_In, F. split.
    - intros [T D]. destruct (Rle_dec (dist f) r2) as [D' | _]; [| discriminate D]. split; [exact (touches_range m core f SM WW T) | exact D'].
    - intros [B D]. split; [left; rewrite HC; apply (W r1); split; [exact B | lra] |]. destruct (Rle_dec (dist f) r2); [reflexivity | contradiction]. }
  assert (C2 : forall f, In f core2 <-> In f core1) by (intros f; rewrite C2', HC1, (W r2 f); reflexivity).
  assert (Sub : forall f, In f core2 -> In f core) by (intros f H; apply C2' in H; rewrite HC; apply (W r1); split; [tauto | lra]).
  assert (Ev : v2 = mkView (with_buffer m core2 (unique (valid (ravel (face_nodes m) core2))) (unique (valid (ravel (face_edges m) core2)))) (unique (valid (ravel (face_nodes m) core2))) (unique (valid (ravel (face_edges m) core2))) r2).
  { destruct core2; [discriminate E2 | congruence]. }
  subst v2. cbn [v_faces v_nodes v_edges]. clear E2.
  split; [apply increasing_unique; [apply unique_inc | exact IF1 | intros f; rewrite buffer_in, F1; apply touches_ext; exact C2] |].
  split; [apply increasing_unique; [apply unique_inc | exact IE1 | intros e; rewrite attached_in, Ed1; apply attached_ext; exact C2] |].
  assert (SubT : forall f, touches m core2 f -> touches m core f).
  { intros f [H | (c & Hc & H)]; [left; apply Sub; exact H | right; exists c; split; [apply Sub; exact Hc | exact H]]. }
  split; [| split; [| split]].
  - intros n. rewrite attached_in. unfold attached. split; intros (f & H & H'); exists f; [apply C2' in H; tauto | split; [apply C2'; tauto | tauto]].
  - intros f. rewrite buffer_in, F. apply SubT.
  - intros e. rewrite attached_in, Ed. intros (c & H & H'). exists c. split; [apply Sub; exact H | exact H'].
  - intros n. rewrite attached_in, N. intros (c & H & H'). exists c. split; [apply F; left; apply Sub; exact H | exact H'].
Qed.

(* --------------------------- local connectivity --------------------------- *)
Lemma local_of_some vals : forall k v j, local_of vals k v = Some j -> (k <= j)%nat /\ nth_error vals (j - k) = Some v.
Proof.
  induction vals as [| x r IH]; intros k v j E; [discriminate E |]. cbn [local_of] in E. destruct (local_of r (S k) v) as [j' |] eqn:L.
  - assert (j' = j) as -> by congruence. destruct (IH _ _ _ L) as [K N]. split; [lia |]. replace (j - k)%nat with (S (j - S k)) by lia. exact N.
  - destruct (Nat.eqb_spec x v) as [-> |]; [| discriminate E]. assert (k = j) as -> by congruence. split; [lia |]. replace (j - j)%nat with 0%nat by lia. reflexivity.
Qed.
Lemma local_of_none vals : forall k v, local_of vals k v = None <-> ~ In v vals.
Proof.
  induction vals as [| x r IH]; intros k v; [split; [intros _ [] | reflexivity] |]. cbn [local_of]. destruct (local_of r (S k) v) as [j' |] eqn:L.
  - split; [discriminate |]. intros H. exfalso. apply H. right. destruct (local_of_some _ _ _ _ L) as [_ N]. apply nth_error_In in N. exact N.
  - apply IH in L. destruct (Nat.eqb_spec x v) as [-> | NE]; split; try discriminate; try reflexivity.
    + intros H. exfalso. apply H. left. reflexivity.
    + intros _ [H | H]; contradiction.
Qed.
Lemma remap_entries c rows vals i j g : nth_error rows i = Some g ->
  exists row, nth_error (remap c rows vals) i = Some row /\ List.length row = List.length (c g) /\
  forall e, nth_error (c g) j = Some e -> exists l, nth_error row j = Some l /\
    (forall k, l = Some k -> exists x, e = Some x /\ nth_error vals k = Some x) /\
    (l = None <-> e = None \/ exists x, e = Some x /\ ~ In x vals).
Proof.
  intros H. set (f := fun e => match e with Some v => local_of vals 0 v | None => None end).
  exists (map f (c g)). split; [exact (map_nth_error (fun g => map f (c g)) i rows H) |]. split; [apply map_length |]. intros e He. exists (f e). split; [exact (map_nth_error f j (c g) He) |]. unfold f.
  destruct e as [x |].
  - split.
    + intros k E. exists x. split; [reflexivity |]. apply local_of_some in E. destruct E as [_ E]. rewrite Nat.sub_0_r in E. exact E.
    + rewrite local_of_none. split; [intros N; right; exists x; split; [reflexivity | exact N] | intros [X | (y & Y & N)]; [discriminate X | injection Y as Y; rewrite Y; exact N]].
  - split; [discriminate |]. split; [intros _; left; reflexivity | reflexivity].
Qed.

(* ------------------------------ surface data ------------------------------ *)
Lemma set_at_length l : forall i x, List.length (set_at l i x) = List.length l.
Proof. induction l as [| y r IH]; intros [| i] x; cbn; [reflexivity | reflexivity | reflexivity | rewrite IH; reflexivity]. Qed.
Lemma set_at_same l : forall i x, (i < List.length l)%nat -> nth_error (set_at l i x) i = Some x.
Proof. induction l as [| y r IH]; intros [| i] x H; cbn in *; try lia; [reflexivity | apply IH; lia]. Qed.
Lemma set_at_other l : forall i j x, i <> j -> nth_error (set_at l i x) j = nth_error l j.
Proof. induction l as [| y r IH]; intros [| i] [| j] x H; cbn; try reflexivity; [congruence | apply IH; congruence]. Qed.
Lemma fold_set idx : forall d l, NoDup idx -> (forall i, In i idx -> (i < List.length l)%nat) ->
  let new := fold_left (fun l p => set_at l (fst p) (snd p)) (combine idx d) l in
  List.length new = List.length l /\
  (forall k i x, nth_error idx k = Some i -> nth_error d k = Some x -> nth_error new i = Some x) /\
  (forall i, ~ In i idx -> nth_error new i = nth_error l i).
Proof.
  induction idx as [| a idx IH]; intros d l ND R; cbn zeta.
  - split; [reflexivity |]. split; [intros [| k] i x H; discriminate H | reflexivity].
  - destruct d as [| x d]; [cbn [combine fold_left]; split; [reflexivity |]; split; [intros [| k] i x _ H; discriminate H | reflexivity] |].
    cbn [combine fold_left fst snd]. inversion ND as [| ? ? NI ND']; subst.
    destruct (IH d (set_at l a x) ND') as (A & B & C); [intros i H; rewrite set_at_length; apply R; right; exact H |]. rewrite set_at_length in A.
    split; [exact A |]. split.
    + intros [| k] i y Hi Hy; cbn in Hi, Hy.
      * assert (a = i) as -> by congruence. assert (x = y) as -> by congruence. rewrite C by exact NI. apply set_at_same. apply R. left. reflexivity.
      * apply (B k); assumption.
    + intros i H. rewrite C by (intros Hi; apply H; right; exact Hi). apply set_at_other. intros ->. apply H. left. reflexivity.
Qed.
Lemma assign_ok l idx d : NoDup idx -> (forall i, In i idx -> (i < List.length l)%nat) ->
  exists new, assign l idx d = Ok new /\ updated l new idx d true.
Proof.
  intros ND R. unfold assign. assert (forallb (fun i => Nat.ltb i (List.length l)) idx = true) as ->.
  { apply forallb_forall. intros i H. apply Nat.ltb_lt. apply R. exact H. }
  eexists. split; [reflexivity |]. destruct (fold_set idx d l ND R) as (A & B & C). split; [exact A |]. split; [exact B | exact C].
Qed.
Lemma take_length l idx : List.length (take l idx) = List.length idx.
Proof. apply map_length. Qed.
Lemma nth_error_map_nth l idx k i : nth_error idx k = Some i -> nth_error (take l idx) k = Some (nth i l 0).
Proof. intros H. unfold take. apply (map_nth_error (fun i => nth i l 0) k idx H). Qed.
Lemma zip_nth a b k : forall x y, nth_error a k = Some x -> nth_error b k = Some y -> nth_error (zip_plus a b) k = Some (x + y).
Proof.
  revert a b. induction k as [| k IH]; intros [| p a] [| q b] x y A B; cbn in *; try discriminate; [congruence | apply IH; assumption].
Qed.
Lemma updated_add l new idx d : updated l new idx (zip_plus (take l idx) d) true -> updated l new idx d false.
Proof.
  intros (A & B & C). split; [exact A |]. split; [| exact C]. intros k i x Hi Hx. apply (B k); [exact Hi |]. apply zip_nth; [apply nth_error_map_nth; exact Hi | exact Hx].
Qed.
Lemma set_var_same s n l : set_var s n l n = Some l.
Proof. unfold set_var. rewrite String.eqb_refl. reflexivity. Qed.
Lemma set_var_other s n l n' : n' <> n -> set_var s n l n' = s n'.
Proof. intros H. unfold set_var. destruct (String.eqb_spec n' n); [contradiction | reflexivity]. Qed.

(** Arrays for an existing variable: written at the faces if the size is theirs, else at the
    nodes. *)
Lemma add_data_ok m v s name l face ow fill old idx :
  s name = Some old -> NoDup idx -> (forall i, In i idx -> (i < List.length old)%nat) ->
  (List.length l = List.length (v_faces v) /\ idx = v_faces v \/ List.length l <> List.length (v_faces v) /\ List.length l = List.length (v_nodes v) /\ idx = v_nodes v) ->
  exists new s', add_data m v s name (Arr l) face ow fill false = (s', Ok tt) /\ s' name = Some new /\ updated old new idx l ow /\ (forall n, n <> name -> s' n = s n).
Proof.
  intros Hs ND R Hi. unfold add_data.
  assert (Sel : (if Nat.eqb (List.length l) (List.length (v_faces v)) then Some (true, v_faces v) else if Nat.eqb (List.length l) (List.length (v_nodes v)) then Some (false, v_nodes v) else None) = Some (Nat.eqb (List.length l) (List.length (v_faces v)), idx)).
  { destruct Hi as [[E ->] | (E & E' & ->)].
    - rewrite E, Nat.eqb_refl. reflexivity.
    - destruct (Nat.eqb_spec (List.length l) (List.length (v_faces v))); [contradiction |]. rewrite E', Nat.eqb_refl. reflexivity. }
  rewrite Sel, Hs. rewrite Hs.
  destruct (assign_ok old idx (if ow then l else zip_plus (take old idx) l) ND R) as (new & E & U). rewrite E.
  exists new. eexists. split; [reflexivity |]. split; [apply set_var_same |]. split; [| intros n H; apply set_var_other; exact H].
  destruct ow; [exact U | apply updated_add; exact U].
Qed.
Lemma add_data_bad m v s name l face ow fill pos : List.length l <> List.length (v_faces v) -> List.length l <> List.length (v_nodes v) ->
  add_data m v s name (Arr l) face ow fill pos = (s, Err ValueError).
Proof. intros A B. unfold add_data. destruct (Nat.eqb_spec (List.length l) (List.length (v_faces v))); [contradiction |]. destruct (Nat.eqb_spec (List.length l) (List.length (v_nodes v))); [contradiction | reflexivity]. Qed.

(* ----------------------------- node averages ----------------------------- *)
Lemma row_fold elev area row : forall a b, fold_left (fun acc e => match e with Some f => (fst acc + nth f elev 0 * nth f area 0, snd acc + nth f area 0) | None => acc end) row (a, b)
  = (a + lsum (fun f => nth f elev 0 * nth f area 0) (valid row), b + lsum (fun f => nth f area 0) (valid row)).
Proof.
  induction row as [| [f |] row IH]; intros a b.
  - cbn. f_equal; ring.
  - cbn [fold_left]. cbn [fst snd]. rewrite IH. unfold valid. cbn [flat_map app]. rewrite !lsum_cons. f_equal; ring.
  - cbn [fold_left]. rewrite IH. reflexivity.
Qed.
Lemma take_local l vals k x : nth_error vals k = Some x -> nth k (take l vals) 0 = nth x l 0.
Proof. intros H. apply nth_error_nth. apply nth_error_map_nth. exact H. Qed.
Lemma local_lsum m v n (f : nat -> R) (g : nat -> R) : (forall k x, nth_error (v_faces v) k = Some x -> f k = g x) ->
  lsum f (valid (map (fun e => match e with Some x => local_of (v_faces v) 0 x | None => None end) (node_faces_of m n))) = lsum g (faces_around m v n).
Proof.
  intros H. unfold faces_around. induction (node_faces_of m n) as [| [x |] r IH]; [reflexivity | |].
  - change (valid (Some x :: r)) with (x :: valid r). cbn [map filter]. destruct (local_of (v_faces v) 0 x) as [k |] eqn:L.
    + destruct (local_of_some _ _ _ _ L) as [_ N]. rewrite Nat.sub_0_r in N. assert (existsb (Nat.eqb x) (v_faces v) = true) as ->.
      { apply existsb_exists. exists x. split; [apply nth_error_In in N; exact N | apply Nat.eqb_refl]. }
      change (valid (Some k :: ?t)) with (k :: valid t). rewrite !lsum_cons, IH, (H k x N). reflexivity.
    + apply local_of_none in L. assert (existsb (Nat.eqb x) (v_faces v) = false) as ->; [| exact IH].
      destruct (existsb (Nat.eqb x) (v_faces v)) eqn:X; [| reflexivity]. apply existsb_exists in X. destruct X as (y & Hy & E). apply Nat.eqb_eq in E. subst. contradiction.
  - exact IH.
Qed.
Lemma interpolate_mean m v F areas n : 0 < lsum (fun f => nth f areas 0) (faces_around m v n) ->
  interpolate_row (take F (v_faces v)) (take areas (v_faces v)) (map (fun e => match e with Some x => local_of (v_faces v) 0 x | None => None end) (node_faces_of m n)) = mean_over (faces_around m v n) F areas.
Proof.
  intros P. unfold interpolate_row. rewrite row_fold.
  rewrite (local_lsum m v n (fun k => nth k (take F (v_faces v)) 0 * nth k (take areas (v_faces v)) 0) (fun x => nth x F 0 * nth x areas 0)) by (intros k x H; rewrite !(take_local _ _ _ _ H); reflexivity).
  rewrite (local_lsum m v n (fun k => nth k (take areas (v_faces v)) 0) (fun x => nth x areas 0)) by (intros k x H; rewrite !(take_local _ _ _ _ H); reflexivity).
  rewrite !Rplus_0_l. destruct (Rlt_dec 0 _); [reflexivity | contradiction].
Qed.
Lemma node_ne_face : "node_elevation"%string <> "face_elevation"%string. Proof. discriminate. Qed.
Lemma interpolate_ok m areas v s F N : fits m v s F N -> List.length (v_faces v) <> List.length (v_nodes v) ->
  (forall n, In n (v_nodes v) -> 0 < lsum (fun f => nth f areas 0) (faces_around m v n)) ->
  exists s' N', interpolate_nodes m areas v s = (s', Ok tt) /\ s' "node_elevation"%string = Some N' /\
    updated N N' (v_nodes v) (map (fun n => mean_over (faces_around m v n) F areas) (v_nodes v)) true /\ (forall n, n <> "node_elevation"%string -> s' n = s n).
Proof.
  intros (NF & NN & RF & RN & EF & EN & LF & LN) NE P. unfold interpolate_nodes. rewrite EF.
  assert (E : map (interpolate_row (take F (v_faces v)) (take areas (v_faces v))) (remap (node_faces_of m) (v_nodes v) (v_faces v)) = map (fun n => mean_over (faces_around m v n) F areas) (v_nodes v)).
  { unfold remap. rewrite map_map. apply map_ext_in. intros n H. apply interpolate_mean. apply P. exact H. }
  rewrite E. destruct (add_data_ok m v s "node_elevation" (map (fun n => mean_over (faces_around m v n) F areas) (v_nodes v)) true true 0 N (v_nodes v) EN NN) as (N' & s' & A & B & C & D).
  - intros i H. rewrite LN. apply RN. exact H.
  - right. rewrite map_length. repeat split; congruence.
  - exists s', N'. repeat split; try assumption; apply C.
Qed.

(* ---------------------------- update_elevation ---------------------------- *)
Lemma faces_step m v s F N l ow : fits m v s F N -> List.length l = List.length (v_faces v) ->
  exists s' F', add_data m v s "face_elevation" (Arr l) true ow 0 false = (s', Ok tt) /\ fits m v s' F' N /\ updated F F' (v_faces v) l ow /\ others_same s s'.
Proof.
  intros (NF & NN & RF & RN & EF & EN & LF & LN) L.
  destruct (add_data_ok m v s "face_elevation" l true ow 0 F (v_faces v) EF NF) as (F' & s' & A & B & C & D).
  - intros i H. rewrite LF. apply RF. exact H.
  - left. split; [exact L | reflexivity].
  - exists s', F'. split; [exact A |]. split; [| split; [exact C | intros n H1 _; apply D; exact H1]].
    unfold fits. rewrite (D _ node_ne_face). destruct C as (C & _). rewrite C. repeat split; assumption.
Qed.
Lemma nodes_step m v s F N l ow : fits m v s F N -> List.length l = List.length (v_nodes v) -> List.length (v_nodes v) <> List.length (v_faces v) ->
  exists s' N', add_data m v s "node_elevation" (Arr l) true ow 0 false = (s', Ok tt) /\ fits m v s' F N' /\ updated N N' (v_nodes v) l ow /\ others_same s s'.
Proof.
  intros (NF & NN & RF & RN & EF & EN & LF & LN) L NE.
  destruct (add_data_ok m v s "node_elevation" l true ow 0 N (v_nodes v) EN NN) as (N' & s' & A & B & C & D).
  - intros i H. rewrite LN. apply RN. exact H.
  - right. repeat split; congruence.
  - exists s', N'. split; [exact A |]. split; [| split; [exact C | intros n _ H2; apply D; exact H2]].
    unfold fits. rewrite (D "face_elevation"%string) by discriminate. destruct C as (C & _). rewrite C. repeat split; assumption.
Qed.
Lemma others_trans s1 s2 s3 : others_same s1 s2 -> others_same s2 s3 -> others_same s1 s3.
Proof. intros A B n H1 H2. rewrite B, A by assumption. reflexivity. Qed.

Section Update.
Variables (m : mesh) (areas : list R) (v : view) (s : dataset) (F N : list R) (ow : bool).
Hypothesis Fit : fits m v s F N.
Hypothesis Dif : List.length (v_nodes v) <> List.length (v_faces v).
Lemma update_faces new : List.length new = List.length (v_faces v) -> List.length new <> 1%nat ->
  (forall n, In n (v_nodes v) -> 0 < lsum (fun f => nth f areas 0) (faces_around m v n)) ->
  exists s' F' N', update_elevation m areas v s new ow = (s', Ok tt) /\ fits m v s' F' N' /\ others_same s s' /\
   updated F F' (v_faces v) new ow /\ updated N N' (v_nodes v) (map (fun n => mean_over (faces_around m v n) F' areas) (v_nodes v)) true.
Proof.
  intros L L1 P. unfold update_elevation. destruct (Nat.eqb_spec (List.length new) 1) as [| Z1]; [contradiction |]. rewrite L, Nat.eqb_refl.
  destruct (faces_step m v s F N new ow Fit L) as (s1 & F' & A & B & C & D). rewrite A. cbn [sbind].
  destruct (interpolate_ok m areas v s1 F' N B ltac:(congruence) P) as (s2 & N' & E & G & H & I). rewrite E. exists s2, F', N'. split; [reflexivity |].
  destruct B as (NF & NN & RF & RN & EF & EN & LF & LN).
  split; [unfold fits; rewrite (I "face_elevation"%string) by discriminate; destruct H as (H & _); rewrite H; repeat split; assumption |].
  split; [apply (others_trans s s1 s2 D); intros n _ H2; apply I; exact H2 |]. split; assumption.
Qed.
Lemma update_nodes new : List.length new = List.length (v_nodes v) -> List.length new <> 1%nat ->
  exists s' N', update_elevation m areas v s new ow = (s', Ok tt) /\ fits m v s' F N' /\ others_same s s' /\ updated N N' (v_nodes v) new ow.
Proof.
  intros L L1. unfold update_elevation. destruct (Nat.eqb_spec (List.length new) 1) as [| Z1]; [contradiction |]. destruct (Nat.eqb_spec (List.length new) (List.length (v_faces v))) as [X | _]; [congruence |].
  rewrite L, Nat.eqb_refl. destruct (nodes_step m v s F N new ow Fit L Dif) as (s1 & N' & A & B & C & D). exists s1, N'. repeat split; try assumption; try apply B; apply C.
Qed.
Lemma update_both ef en : List.length ef = List.length (v_faces v) -> List.length en = List.length (v_nodes v) -> ef <> [] -> en <> [] ->
  exists s' F' N', update_elevation m areas v s (ef ++ en) ow = (s', Ok tt) /\ fits m v s' F' N' /\ others_same s s' /\ updated F F' (v_faces v) ef ow /\ updated N N' (v_nodes v) en ow.
Proof.
  intros L1 L2 N1 N2. assert (P1 : (1 <= List.length ef)%nat) by (destruct ef; [contradiction | cbn; lia]). assert (P2 : (1 <= List.length en)%nat) by (destruct en; [contradiction | cbn; lia]).
  assert (A1 : firstn (List.length (v_faces v)) (ef ++ en) = ef) by (rewrite <- L1, firstn_app, firstn_all, Nat.sub_diag, firstn_O, app_nil_r; reflexivity).
  assert (A2 : skipn (List.length (v_faces v)) (ef ++ en) = en) by (rewrite <- L1, skipn_app, skipn_all, Nat.sub_diag; reflexivity).
  unfold update_elevation. cbv zeta. rewrite A1, A2, app_length.
  destruct (Nat.eqb_spec (List.length ef + List.length en) 1); [lia |]. destruct (Nat.eqb_spec (List.length ef + List.length en) (List.length (v_faces v))); [lia |].
  destruct (Nat.eqb_spec (List.length ef + List.length en) (List.length (v_nodes v))); [lia |]. rewrite L1, L2, Nat.eqb_refl.
  destruct (faces_step m v s F N ef ow Fit L1) as (s1 & F' & A & B & C & D). rewrite A. cbn [sbind].
  destruct (nodes_step m v s1 F' N en ow B L2 Dif) as (s2 & N' & E & G & H & I). rewrite E. exists s2, F', N'. split; [reflexivity |]. split; [exact G |]. split; [exact (others_trans s s1 s2 D I) |]. split; assumption.
Qed.
Lemma update_scalar x :
  exists s' F' N', update_elevation m areas v s [x] ow = (s', Ok tt) /\ fits m v s' F' N' /\ others_same s s' /\
   updated F F' (v_faces v) (repeat x (List.length (v_faces v))) ow /\ updated N N' (v_nodes v) (repeat x (List.length (v_nodes v))) ow.
Proof.
  unfold update_elevation. cbn [List.length Nat.eqb nth].
  destruct (faces_step m v s F N (repeat x (List.length (v_faces v))) ow Fit (repeat_length _ _)) as (s1 & F' & A & B & C & D). rewrite A. cbn [sbind].
  destruct (nodes_step m v s1 F' N (repeat x (List.length (v_nodes v))) ow B (repeat_length _ _) Dif) as (s2 & N' & E & G & H & I). rewrite E. exists s2, F', N'. split; [reflexivity |]. split; [exact G |]. split; [exact (others_trans s s1 s2 D I) |]. split; assumption.
Qed.
End Update.
Lemma update_rejects m areas v s new ow : let k := List.length new in let nf := List.length (v_faces v) in let nn := List.length (v_nodes v) in
  k <> 1%nat -> k <> nf -> k <> nn -> k <> (nf + nn)%nat -> update_elevation m areas v s new ow = (s, Err ValueError).
Proof.
  cbv zeta. intros A B C D. unfold update_elevation. destruct (Nat.eqb_spec (List.length new) 1) as [| Z1]; [contradiction |]. destruct (Nat.eqb_spec (List.length new) (List.length (v_faces v))); [contradiction |].
  destruct (Nat.eqb_spec (List.length new) (List.length (v_nodes v))); [contradiction |]. destruct (Nat.eqb_spec (List.length new) (List.length (v_faces v) + List.length (v_nodes v))); [contradiction | reflexivity].
Qed.
