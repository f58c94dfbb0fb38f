(** Proofs about Overlap_model. *)
From Coq Require Import Reals List Arith NArith Lra Lia.
From Verif Require Import Common RSum Mesh_model Region_model Region_spec Region_proofs Region_more Overlap_model Overlap_spec.
From Verif Require Tags_model.
Import ListNotations.
Open Scope R_scope.

(* ------------------------------- the overlap ------------------------------- *)
Lemma mem_b x l : existsb (Nat.eqb x) l = true <-> In x l.
Proof.
  rewrite existsb_exists. split.
  - intros (y & H & E). apply Nat.eqb_eq in E. subst. exact H.
  - intros H. exists x. split; [exact H | apply Nat.eqb_refl].
Qed.
Lemma select_mask (l b : list nat) x : In x (select l (map (fun x => existsb (Nat.eqb x) b) l)) <-> In x l /\ In x b.
Proof.
  induction l as [| y l IH]; cbn; [tauto |]. destruct (existsb (Nat.eqb y) b) eqn:E.
  - apply mem_b in E. cbn. rewrite IH. split; [intros [-> | [A B]]; auto | intros [[-> | A] B]; auto].
  - assert (~ In y b) by (intros H; apply mem_b in H; congruence). rewrite IH.
    split; [intros [A B]; auto | intros [[-> | A] B]; [contradiction | auto]].
Qed.
Lemma any_mask (l b : list nat) : any (map (fun x => existsb (Nat.eqb x) b) l) = true <-> exists x, In x l /\ In x b.
Proof.
  unfold any. rewrite existsb_exists. split.
  - intros (y & H & E). apply in_map_iff in H as (x & <- & H). exists x. split; [exact H | apply mem_b; exact E].
  - intros (x & A & B). exists true. split; [| reflexivity]. apply in_map_iff. exists x. split; [apply mem_b; exact B | exact A].
Qed.
Lemma select_length {A} (l : list A) : forall mask, (List.length (select l mask) <= List.length l)%nat.
Proof. induction l as [| x l IH]; intros [| [] mask]; cbn; try lia; specialize (IH mask); lia. Qed.
Lemma select_all (l b : list nat) : List.length (select l (map (fun x => existsb (Nat.eqb x) b) l)) = List.length l <-> forall x, In x l -> In x b.
Proof.
  induction l as [| y l IH]; cbn; [split; [intros _ x [] | reflexivity] |].
  destruct (existsb (Nat.eqb y) b) eqn:E; cbn.
  - apply mem_b in E. split.
    + intros H x [<- | Hx]; [exact E |]. apply IH; [congruence | exact Hx].
    + intros H. f_equal. apply IH. intros x Hx. apply H. now right.
  - split.
    + intros H. pose proof (select_length l (map (fun x => existsb (Nat.eqb x) b) l)). lia.
    + intros H. assert (In y b) by (apply H; now left). apply mem_b in H0. congruence.
Qed.
Lemma select_full (l b : list nat) : (forall x, In x l -> In x b) -> select l (map (fun x => existsb (Nat.eqb x) b) l) = l.
Proof.
  induction l as [| y l IH]; intros H; cbn; [reflexivity |].
  assert (existsb (Nat.eqb y) b = true) as -> by (apply mem_b; apply H; now left).
  f_equal. apply IH. intros x Hx. apply H. now right.
Qed.
Lemma ids_faces m v f : In f (v_faces (plain m v)) <-> in_faces m v f.
Proof. unfold plain, in_faces, ids. cbn [v_faces]. destruct (h_faces v); [rewrite in_seq; lia | tauto]. Qed.
Lemma ids_nodes m v f : In f (v_nodes (plain m v)) <-> in_nodes m v f.
Proof. unfold plain, in_nodes, ids. cbn [v_nodes]. destruct (h_nodes v); [rewrite in_seq; lia | tauto]. Qed.
Lemma ids_edges m v f : In f (v_edges (plain m v)) <-> in_edges m v f.
Proof. unfold plain, in_edges, ids. cbn [v_edges]. destruct (h_edges v); [rewrite in_seq; lia | tauto]. Qed.

Lemma any_iff (l b : list nat) : any (map (fun x => existsb (Nat.eqb x) b) l) = false <-> forall x, In x l -> ~ In x b.
Proof.
  rewrite <- not_true_iff_false, any_mask. split.
  - intros H x A B. apply H. eauto.
  - intros H (x & A & B). exact (H x A B).
Qed.

(** When the two regions overlap, and what the overlap is. *)
Lemma overlap_spec m lo v : by_arrays lo ->
  (overlap m (Some lo) v = Ok None <->
     (forall f, in_faces m v f -> ~ in_faces m lo f) \/
     ((exists f, in_faces m v f /\ ~ in_faces m lo f) /\
      ((forall n, in_nodes m v n -> ~ in_nodes m lo n) \/ (forall e, in_edges m v e -> ~ in_edges m lo e)))) /\
  (forall fm w, overlap m (Some lo) v = Ok (Some (fm, w)) ->
     (forall f, In f (v_faces w) <-> in_faces m v f /\ in_faces m lo f) /\
     (forall n, In n (v_nodes w) <-> in_nodes m v n /\ (in_nodes m lo n \/ forall f, in_faces m v f -> in_faces m lo f)) /\
     v_faces w <> [] /\ v_faces w = select (v_faces (plain m v)) fm /\ List.length fm = List.length (v_faces (plain m v))) /\
  (forall e, overlap m (Some lo) v <> Err e).
Proof.
  intros (a & b & c & r & ->). unfold overlap. cbn [h_faces h_nodes h_edges isin rbind].
  set (F := v_faces (plain m v)). set (fm := map (fun x => existsb (Nat.eqb x) a) F).
  assert (IF : forall f, In f F <-> in_faces m v f) by (intros f; apply ids_faces).
  set (N := v_nodes (plain m v)). assert (IN : forall f, In f N <-> in_nodes m v f) by (intros f; apply ids_nodes).
  set (E := v_edges (plain m v)). assert (IE : forall f, In f E <-> in_edges m v f) by (intros f; apply ids_edges).
  assert (LF : forall f, in_faces m (mk_hv (Ids a) (Ids b) (Ids c) r) f <-> In f a) by (intros; reflexivity).
  assert (LN : forall f, in_nodes m (mk_hv (Ids a) (Ids b) (Ids c) r) f <-> In f b) by (intros; reflexivity).
  assert (LE : forall f, in_edges m (mk_hv (Ids a) (Ids b) (Ids c) r) f <-> In f c) by (intros; reflexivity).
  clearbody F N E.
  destruct (any fm) eqn:Ea; cbn [negb].
  2:{ pose proof (proj1 (any_iff F a) Ea) as H. split; [| split; [intros ? ? X; discriminate X | intros e X; discriminate X]].
      split; [| reflexivity]. intros _. left. intros f Hf. rewrite LF. apply H. apply IF. exact Hf. }
  apply any_mask in Ea as (f0 & F0 & A0).
  assert (FM : forall f, In f (select F fm) <-> in_faces m v f /\ In f a) by (intros f; unfold fm; rewrite select_mask, IF; tauto).
  assert (NE : select F fm <> []). { intros X. assert (Z : In f0 (select F fm)) by (apply FM; rewrite <- IF; auto). rewrite X in Z. exact Z. }
  destruct (Nat.eqb_spec (List.length (select F fm)) (List.length F)) as [El | El].
  - pose proof (proj1 (select_all F a) El) as El'. clear El. rename El' into El. split; [| split; [| intros e X; discriminate X]].
    + split; [discriminate |]. intros [H | [(f & A & B) _]].
      * exfalso. apply (H f0); [apply IF; exact F0 | rewrite LF; exact A0].
      * exfalso. apply B. rewrite LF. apply El. apply IF. exact A.
    + intros fm' w X. injection X as <- <-. cbn [v_faces v_nodes]. split; [intros f; rewrite LF; apply FM |]. split.
      { intros n. rewrite IN. split; [intros Hn; split; [exact Hn |]; right; intros f Hf; rewrite LF; apply El, IF, Hf | intros [Hn _]; exact Hn]. }
      split; [exact NE |]. split; [reflexivity |]. unfold fm. apply map_length.
  - assert (NS : exists f, in_faces m v f /\ ~ In f a).
    { assert (~ (forall x, In x F -> In x a)) as H by (intros H; apply El; exact (proj2 (select_all F a) H)).
      clear - H IF. induction F as [| x F IH] in IF, H |- *; [exfalso; apply H; intros ? [] |].
      destruct (in_dec Nat.eq_dec x a) as [Hx | Hx]; [| exists x; split; [apply IF; now left | exact Hx]].
      assert (exists f, In f (x :: F) /\ ~ In f a) as (f & A & B).
      { assert (K : ~ (forall x, In x F -> In x a)). { intros K. apply H. intros y [<- | Hy]; auto. }
        clear - K. induction F as [| z F IH]; [exfalso; apply K; intros ? [] |].
        destruct (in_dec Nat.eq_dec z a) as [Hz | Hz]; [| exists z; split; [right; now left | exact Hz]].
        destruct IH as (f & [<- | A] & B).
        - intros L. apply K. intros y [<- | Hy]; auto.
        - exists x. split; [now left | exact B].
        - exists f. split; [right; now right | exact B]. }
      exists f. split; [apply IF; exact A | exact B]. }
    set (nm := map (fun x => existsb (Nat.eqb x) b) N). destruct (any nm) eqn:En; cbn [negb].
    2:{ pose proof (proj1 (any_iff N b) En) as H. split; [| split; [intros ? ? X; discriminate X | intros e X; discriminate X]].
        split; [| reflexivity]. intros _. right. split; [exact NS |]. left. intros n Hn. rewrite LN. apply H. apply IN. exact Hn. }
    apply any_mask in En as (n0 & N0 & B0).
    set (em := map (fun x => existsb (Nat.eqb x) c) E). destruct (any em) eqn:Ee; cbn [negb].
    2:{ pose proof (proj1 (any_iff E c) Ee) as H. split; [| split; [intros ? ? X; discriminate X | intros e X; discriminate X]].
        split; [| reflexivity]. intros _. right. split; [exact NS |]. right. intros n Hn. rewrite LE. apply H. apply IE. exact Hn. }
    apply any_mask in Ee as (e0 & E0 & C0).
    split; [| split; [| intros e X; discriminate X]].
    + split; [discriminate |]. intros [H | [_ [H | H]]].
      * exfalso. apply (H f0); [apply IF; exact F0 | rewrite LF; exact A0].
      * exfalso. apply (H n0); [apply IN; exact N0 | rewrite LN; exact B0].
      * exfalso. apply (H e0); [apply IE; exact E0 | rewrite LE; exact C0].
    + intros fm' w X. injection X as <- <-. cbn [v_faces v_nodes]. split; [intros f; rewrite LF; apply FM |]. split.
      { intros n. unfold nm. rewrite select_mask, IN, LN. split; [tauto |]. intros [A [B | B]]; [tauto |].
        exfalso. destruct NS as (f & Y & Z). apply Z. apply (B f Y). }
      split; [exact NE |]. split; [reflexivity |]. unfold fm. apply map_length.
Qed.

Lemma overlap_rest m lo v fm w : by_arrays lo -> overlap m (Some lo) v = Ok (Some (fm, w)) ->
  (forall e, In e (v_edges w) <-> in_edges m v e /\ (in_edges m lo e \/ forall f, in_faces m v f -> in_faces m lo f)) /\
  v_radius w = h_radius v.
Proof.
  intros (a & b & c & r & ->). unfold overlap. cbn [h_faces h_nodes h_edges isin rbind].
  set (F := v_faces (plain m v)). set (fm' := map (fun x => existsb (Nat.eqb x) a) F).
  assert (IF : forall f, In f F <-> in_faces m v f) by (intros f; apply ids_faces).
  set (N := v_nodes (plain m v)).
  set (E := v_edges (plain m v)). assert (IE : forall f, In f E <-> in_edges m v f) by (intros f; apply ids_edges).
  assert (LF : forall f, in_faces m (mk_hv (Ids a) (Ids b) (Ids c) r) f <-> In f a) by (intros; reflexivity).
  assert (LE : forall f, in_edges m (mk_hv (Ids a) (Ids b) (Ids c) r) f <-> In f c) by (intros; reflexivity).
  clearbody F N E.
  destruct (any fm'); cbn [negb]; [| discriminate].
  destruct (Nat.eqb_spec (List.length (select F fm')) (List.length F)) as [El | El].
  - pose proof (proj1 (select_all F a) El) as El'. intros X. injection X as <- <-. cbn [v_edges v_radius]. split; [| reflexivity].
    intros e. rewrite IE. split; [intros He; split; [exact He |]; right; intros f Hf; rewrite LF; apply El', IF, Hf | intros [He _]; exact He].
  - destruct (any (map (fun x => existsb (Nat.eqb x) b) N)); cbn [negb]; [| discriminate].
    destruct (any (map (fun x => existsb (Nat.eqb x) c) E)); cbn [negb]; [| discriminate].
    intros X. injection X as <- <-. cbn [v_edges v_radius]. split; [| reflexivity].
    intros e. rewrite select_mask, IE, LE. split; [tauto |]. intros [A [B | B]]; [tauto |].
    exfalso. apply El. apply select_all. intros f Hf. rewrite <- LF. apply B, IF, Hf.
Qed.

(* ------------------------------- confinement ------------------------------- *)
Lemma fold_set_other idx : forall d (l : list R) i, ~ In i idx ->
  nth_error (fold_left (fun l p => set_at l (fst p) (snd p)) (combine idx d) l) i = nth_error l i.
Proof.
  induction idx as [| j idx IH]; intros [| x d] l i H; cbn; try reflexivity.
  rewrite IH by (intros K; apply H; now right). apply set_at_other. intros ->. apply H. now left.
Qed.
Lemma assign_other l idx d new i : assign l idx d = Ok new -> ~ In i idx -> nth i new 0 = nth i l 0.
Proof.
  unfold assign. destruct (forallb _ idx); [| discriminate]. intros E; injection E as <-. intros H.
  pose proof (fold_set_other idx d l i H) as G.
  destruct (nth_error l i) as [x |] eqn:N.
  - rewrite (nth_error_nth l i 0 N). apply nth_error_nth. exact G.
  - apply nth_error_None in N. apply nth_error_None in G. rewrite !nth_overflow by assumption. reflexivity.
Qed.
Lemma val_set s name l i : val (set_var s name l) name i = nth i l 0.
Proof. unfold val. rewrite set_var_same. reflexivity. Qed.
Lemma val_other s s' name i : s' name = s name -> val s' name i = val s name i.
Proof. unfold val. intros ->. reflexivity. Qed.
Lemma nth_repeat0 n i : nth i (repeat 0 n) 0 = 0.
Proof. revert i. induction n as [| n IH]; intros [| i]; cbn; auto. Qed.

(** The length of a data argument decides between faces and nodes. *)
Lemma add_data_at m v s name l face ow pos i :
  (List.length l = List.length (v_faces v) -> ~ In i (v_faces v)) ->
  (List.length l <> List.length (v_faces v) -> ~ In i (v_nodes v)) ->
  val (fst (add_data m v s name (Arr l) face ow 0 pos)) name i = val s name i.
Proof.
  intros HF HN. unfold add_data.
  assert (D : exists o, (if Nat.eqb (List.length l) (List.length (v_faces v)) then Some (true, v_faces v)
         else if Nat.eqb (List.length l) (List.length (v_nodes v)) then Some (false, v_nodes v) else None) = o /\
         match o with Some (_, idx) => ~ In i idx | None => True end).
  { eexists. split; [reflexivity |]. destruct (Nat.eqb_spec (List.length l) (List.length (v_faces v))); [auto |].
    destruct (Nat.eqb _ _); auto. }
  destruct D as (o & -> & D). destruct o as [[b idx] |]; [| reflexivity].
  assert (G : forall (s1 : dataset) old ow', s1 name = Some old -> val s1 name i = val s name i ->
    val (fst (match s1 name with
              | None => (s1, Err KeyError)
              | Some old =>
                  match assign old idx (if ow' : bool then l else zip_plus (take old idx) l) with
                  | Err e => (s1, Err e)
                  | Ok new =>
                      if pos then match assign new idx (map (Rmax 0) (take new idx)) with
                                  | Err e => (set_var s1 name new, Err e)
                                  | Ok new0 => (set_var (set_var s1 name new) name new0, Ok tt)
                                  end
                      else (set_var s1 name new, Ok tt)
                  end
              end)) name i = val s name i).
  { intros s1 old ow' E V. rewrite E. destruct (assign old idx _) as [new | e] eqn:A; [| exact V].
    assert (V1 : nth i new 0 = val s name i).
    { rewrite <- V. unfold val. rewrite E. exact (assign_other _ _ _ _ i A D). }
    destruct pos; [| cbn [fst]; rewrite val_set; exact V1].
    destruct (assign new idx _) as [new0 | e] eqn:A0; cbn [fst]; rewrite val_set; [| exact V1].
    rewrite (assign_other _ _ _ _ i A0 D). exact V1. }
  destruct (s name) as [old |] eqn:E.
  - exact (G s old ow E eq_refl).
  - refine (G _ _ true (set_var_same s name _) _). rewrite val_set, nth_repeat0. unfold val. rewrite E. reflexivity.
Qed.

Lemma add_data_faces m v s name l face ow pos i : List.length l = List.length (v_faces v) -> ~ In i (v_faces v) ->
  val (fst (add_data m v s name (Arr l) face ow 0 pos)) name i = val s name i.
Proof. intros A B. apply add_data_at; [intros _; exact B | intros C; contradiction]. Qed.

Lemma sbind_val (r : dataset * result unit) f name i x :
  val (fst r) name i = x -> (forall s, r = (s, Ok tt) -> val (fst (f s)) name i = x) -> val (fst (sbind r f)) name i = x.
Proof. destruct r as [s [[] | e]]; cbn; intros A B; [apply (B s eq_refl) | exact A]. Qed.
Lemma sbind_other (r : dataset * result unit) f name (x : option (list R)) :
  fst r name = x -> (forall s, r = (s, Ok tt) -> fst (f s) name = x) -> fst (sbind r f) name = x.
Proof. destruct r as [s [[] | e]]; cbn; intros A B; [apply (B s eq_refl) | exact A]. Qed.

Lemma interpolate_other m areas v s n : n <> "node_elevation"%string -> fst (interpolate_nodes m areas v s) n = s n.
Proof. intros H. unfold interpolate_nodes. destruct (s "face_elevation"%string); [| reflexivity]. apply add_data_frame. exact H. Qed.

(** Elevations of faces outside the view, other variables, and nodes outside it. *)
Lemma update_faces m areas v s l ow i : ~ In i (v_faces v) ->
  (List.length l = List.length (v_faces v) \/ List.length l = (List.length (v_faces v) + List.length (v_nodes v))%nat) ->
  val (fst (update_elevation m areas v s l ow)) "face_elevation" i = val s "face_elevation" i.
Proof.
  intros Hi HL. unfold update_elevation.
  assert (NN : forall s0 x, val (fst (add_data m v s0 "node_elevation" (Arr x) true ow 0 false)) "face_elevation" i = val s0 "face_elevation" i).
  { intros. apply val_other. apply add_data_frame. discriminate. }
  assert (ST : forall x k, List.length x = List.length (v_faces v) ->
     (forall s0, val (fst (k s0)) "face_elevation" i = val s0 "face_elevation" i) ->
     val (fst (sbind (add_data m v s "face_elevation" (Arr x) true ow 0 false) k)) "face_elevation" i = val s "face_elevation" i).
  { intros x k Hx Hk. pose proof (add_data_faces m v s "face_elevation" x true ow false i Hx Hi) as A.
    apply sbind_val; [exact A |]. intros s0 E. rewrite Hk. rewrite E in A. exact A. }
  destruct (Nat.eqb (List.length l) 1); [apply ST; [apply repeat_length | intros s0; apply NN] |].
  destruct (Nat.eqb_spec (List.length l) (List.length (v_faces v))) as [E | E].
  { apply ST; [exact E |]. intros s0. apply val_other. apply interpolate_other. discriminate. }
  destruct (Nat.eqb_spec (List.length l) (List.length (v_nodes v))); [apply NN |].
  destruct (Nat.eqb_spec (List.length l) (List.length (v_faces v) + List.length (v_nodes v))); [| reflexivity].
  apply ST; [| intros s0; apply NN]. rewrite firstn_length. lia.
Qed.
Lemma update_other m areas v s l ow n : n <> "face_elevation"%string -> n <> "node_elevation"%string ->
  fst (update_elevation m areas v s l ow) n = s n.
Proof.
  intros A B. unfold update_elevation.
  assert (F : forall s0 x, fst (add_data m v s0 "face_elevation" (Arr x) true ow 0 false) n = s0 n) by (intros; apply add_data_frame; exact A).
  assert (N : forall s0 x, fst (add_data m v s0 "node_elevation" (Arr x) true ow 0 false) n = s0 n) by (intros; apply add_data_frame; exact B).
  assert (ST : forall x k, (forall s0, fst (k s0) n = s0 n) -> fst (sbind (add_data m v s "face_elevation" (Arr x) true ow 0 false) k) n = s n).
  { intros x k Hk. apply sbind_other; [apply F |]. intros s0 E. rewrite Hk. rewrite <- (F s x). rewrite E. reflexivity. }
  destruct (Nat.eqb (List.length l) 1); [apply ST; intros; apply N |].
  destruct (Nat.eqb (List.length l) _); [apply ST; intros; apply interpolate_other; exact B |].
  destruct (Nat.eqb (List.length l) _); [apply N |].
  destruct (Nat.eqb (List.length l) _); [| reflexivity]. apply ST. intros; apply N.
Qed.
Lemma update_nodes m areas v s l ow i : ~ In i (v_nodes v) -> List.length (v_faces v) <> List.length (v_nodes v) ->
  (List.length l = List.length (v_faces v) \/ List.length l = (List.length (v_faces v) + List.length (v_nodes v))%nat) ->
  val (fst (update_elevation m areas v s l ow)) "node_elevation" i = val s "node_elevation" i.
Proof.
  intros Hi HD HL. unfold update_elevation.
  assert (NN : forall s0 x, List.length x = List.length (v_nodes v) ->
    val (fst (add_data m v s0 "node_elevation" (Arr x) true ow 0 false)) "node_elevation" i = val s0 "node_elevation" i).
  { intros s0 x Hx. apply add_data_at; [intros E; congruence | intros _; exact Hi]. }
  assert (IN : forall s0, val (fst (interpolate_nodes m areas v s0)) "node_elevation" i = val s0 "node_elevation" i).
  { intros s0. unfold interpolate_nodes. destruct (s0 "face_elevation"%string); [| reflexivity].
    apply add_data_at; [| intros _; exact Hi]. unfold remap. rewrite !map_length. intros E; congruence. }
  assert (ST : forall x k, (forall s0, val (fst (k s0)) "node_elevation" i = val s0 "node_elevation" i) ->
     val (fst (sbind (add_data m v s "face_elevation" (Arr x) true ow 0 false) k)) "node_elevation" i = val s "node_elevation" i).
  { intros x k Hk. assert (A : val (fst (add_data m v s "face_elevation" (Arr x) true ow 0 false)) "node_elevation" i = val s "node_elevation" i).
    { apply val_other. apply add_data_frame. discriminate. }
    apply sbind_val; [exact A |]. intros s0 E. rewrite Hk. rewrite E in A. exact A. }
  destruct (Nat.eqb_spec (List.length l) 1); [apply ST; intros s0; apply NN; apply repeat_length |].
  destruct (Nat.eqb_spec (List.length l) (List.length (v_faces v))); [apply ST; exact IN |].
  destruct (Nat.eqb_spec (List.length l) (List.length (v_nodes v))) as [E | E]; [apply NN; exact E |].
  destruct (Nat.eqb_spec (List.length l) (List.length (v_faces v) + List.length (v_nodes v))) as [E' | E']; [| reflexivity].
  apply ST. intros s0. apply NN. rewrite skipn_length. lia.
Qed.

Section Ops.
Context (m : mesh) (areas : list R).
Context (diffuse : view -> list R -> list R -> result (list R)) (collapse : view -> R -> list R -> result (list R)) (noise : view -> list R) (vsmall : R).

(** What an operation on a view leaves alone. *)
Definition kept_outside (w : view) (s s' : dataset) : Prop :=
  (forall f, ~ In f (v_faces w) -> val s' "face_elevation" f = val s "face_elevation" f /\ val s' "ejecta_thickness" f = val s "ejecta_thickness" f) /\
  (forall n, n <> "face_elevation"%string -> n <> "node_elevation"%string -> n <> "ejecta_thickness"%string -> s' n = s n) /\
  (List.length (v_faces w) <> List.length (v_nodes w) -> forall n, ~ In n (v_nodes w) -> val s' "node_elevation" n = val s "node_elevation" n).
Lemma kept_refl w s : kept_outside w s s.
Proof. repeat split. Qed.

Lemma spread_kept w s d : List.length d = List.length (v_faces w) -> kept_outside w s (fst (spread m areas w s d)).
Proof.
  intros Hd. unfold spread. split; [| split].
  - intros f Hf. split.
    + pose proof (update_faces m areas w s d false f Hf (or_introl Hd)) as A.
      apply sbind_val; [exact A |]. intros s0 E. rewrite E in A. rewrite <- A. apply val_other. apply add_data_frame. discriminate.
    + assert (A : val (fst (update_elevation m areas w s d false)) "ejecta_thickness" f = val s "ejecta_thickness" f).
      { apply val_other. apply update_other; discriminate. }
      apply sbind_val; [exact A |]. intros s0 E. rewrite E in A. rewrite <- A. apply add_data_faces; assumption.
  - intros n A B C. pose proof (update_other m areas w s d false n A B) as U.
    apply sbind_other; [exact U |]. intros s0 E. rewrite E in U. cbn [fst] in U. rewrite <- U. apply add_data_frame. exact C.
  - intros HD n Hn. pose proof (update_nodes m areas w s d false n Hn HD (or_introl Hd)) as A.
    apply sbind_val; [exact A |]. intros s0 E. rewrite E in A. rewrite <- A. apply val_other. apply add_data_frame. discriminate.
Qed.
Lemma diffusion_kept w k s : (forall kappa, one_per_face (fun v => diffuse v kappa)) ->
  kept_outside w s (fst (apply_diffusion m areas diffuse vsmall w k s)).
Proof.
  intros H. unfold apply_diffusion. destruct (negb _); [apply kept_refl |]. destruct (existsb _ _); [apply kept_refl |].
  destruct (match k with Scalar x => _ | Arr l => l end) as [| a r]; [apply kept_refl |].
  destruct (Rlt_dec _ _); [apply kept_refl |]. destruct (diffuse w _ _) as [d | e] eqn:E; [| apply kept_refl].
  apply spread_kept. exact (H _ w _ d E).
Qed.
Lemma collapse_kept w a s : (forall angle, one_per_face (fun v => collapse v angle)) ->
  kept_outside w s (fst (slope_collapse m areas collapse w a s)).
Proof.
  intros H. unfold slope_collapse. destruct (collapse w a _) as [d | e] eqn:E; [| apply kept_refl].
  apply spread_kept. exact (H a w _ d E).
Qed.
Lemma noise_kept w s : List.length (noise w) = (List.length (v_faces w) + List.length (v_nodes w))%nat ->
  kept_outside w s (fst (apply_noise m areas w s (noise w))).
Proof.
  intros H. unfold apply_noise. set (x := map _ (noise w)).
  assert (Hx : List.length x = (List.length (v_faces w) + List.length (v_nodes w))%nat) by (unfold x; rewrite map_length; exact H).
  split; [| split].
  - intros f Hf. split; [apply update_faces; auto | apply val_other; apply update_other; discriminate].
  - intros n A B C. apply update_other; assumption.
  - intros HD n Hn. apply update_nodes; auto.
Qed.

Context (lo v : hview).
Hypothesis LO : by_arrays lo.
Definition shared_node (n : nat) : Prop := in_nodes m v n /\ (in_nodes m lo n \/ forall f, in_faces m v f -> in_faces m lo f).

Lemma kept_confined fm w s s' : overlap m (Some lo) v = Ok (Some (fm, w)) -> kept_outside w s s' -> faces_confined m lo v s s'.
Proof.
  intros E (A & B & _). destruct (overlap_spec m lo v LO) as (_ & K & _). destruct (K fm w E) as (KF & _).
  split; [| exact B]. intros f Hf. apply A. rewrite KF. exact Hf.
Qed.
Lemma kept_nodes fm w s s' n : overlap m (Some lo) v = Ok (Some (fm, w)) -> kept_outside w s s' ->
  List.length (v_faces w) <> List.length (v_nodes w) -> ~ shared_node n -> val s' "node_elevation" n = val s "node_elevation" n.
Proof.
  intros E (_ & _ & C) HD Hn. destruct (overlap_spec m lo v LO) as (_ & K & _). destruct (K fm w E) as (_ & KN & _).
  apply C; [exact HD |]. rewrite KN. exact Hn.
Qed.
Lemma confined_refl s : faces_confined m lo v s s.
Proof. split; intros; auto. Qed.

Lemma confined k a s :
  (forall kappa, one_per_face (fun v => diffuse v kappa)) -> (forall angle, one_per_face (fun v => collapse v angle)) ->
  (forall w, List.length (noise w) = (List.length (v_faces w) + List.length (v_nodes w))%nat) ->
  faces_confined m lo v s (fst (hires_diffusion m areas diffuse vsmall (Some lo) v k s)) /\
  faces_confined m lo v s (fst (hires_collapse m areas collapse (Some lo) v a s)) /\
  faces_confined m lo v s (fst (hires_noise m areas noise (Some lo) v s)).
Proof.
  intros HD HC HN. unfold hires_diffusion, hires_collapse, hires_noise.
  destruct (overlap m (Some lo) v) as [[[fm w] |] | e] eqn:E; [| repeat split; auto | repeat split; auto].
  split; [| split].
  - apply (kept_confined fm w); [exact E |]. destruct k as [x | l]; [apply diffusion_kept; exact HD |].
    destruct (Nat.eqb _ _); [apply diffusion_kept; exact HD | apply kept_refl].
  - apply (kept_confined fm w); [exact E |]. apply collapse_kept. exact HC.
  - apply (kept_confined fm w); [exact E |]. apply noise_kept. apply HN.
Qed.
Lemma confined_nodes k a s fm w :
  (forall kappa, one_per_face (fun v => diffuse v kappa)) -> (forall angle, one_per_face (fun v => collapse v angle)) ->
  (forall w, List.length (noise w) = (List.length (v_faces w) + List.length (v_nodes w))%nat) ->
  overlap m (Some lo) v = Ok (Some (fm, w)) -> List.length (v_faces w) <> List.length (v_nodes w) -> forall n, ~ shared_node n ->
  val (fst (hires_diffusion m areas diffuse vsmall (Some lo) v k s)) "node_elevation" n = val s "node_elevation" n /\
  val (fst (hires_collapse m areas collapse (Some lo) v a s)) "node_elevation" n = val s "node_elevation" n /\
  val (fst (hires_noise m areas noise (Some lo) v s)) "node_elevation" n = val s "node_elevation" n.
Proof.
  intros HD HC HN E HL n Hn. unfold hires_diffusion, hires_collapse, hires_noise. rewrite E.
  split; [| split].
  - apply (kept_nodes fm w); auto. destruct k as [x | l]; [apply diffusion_kept; exact HD |].
    destruct (Nat.eqb _ _); [apply diffusion_kept; exact HD | apply kept_refl].
  - apply (kept_nodes fm w); auto. apply collapse_kept. exact HC.
  - apply (kept_nodes fm w); auto. apply noise_kept. apply HN.
Qed.

(** A region inside the local region behaves as a plain region. *)
Lemma overlap_inside : (exists f, in_faces m v f) -> (forall f, in_faces m v f -> in_faces m lo f) ->
  exists fm, overlap m (Some lo) v = Ok (Some (fm, plain m v)) /\ forall A (l : list A), List.length l = List.length (v_faces (plain m v)) -> select l fm = l.
Proof.
  intros (f0 & H0) H. destruct LO as (a & b & c & r & Elo). unfold overlap. rewrite Elo. cbn [h_faces isin rbind].
  assert (HA : forall x, In x (v_faces (plain m v)) -> In x a).
  { intros x Hx. apply ids_faces in Hx. apply H in Hx. rewrite Elo in Hx. exact Hx. }
  set (F := v_faces (plain m v)) in *. set (fm := map (fun x => existsb (Nat.eqb x) a) F).
  assert (any fm = true) as ->. { apply any_mask. exists f0. split; [apply ids_faces; exact H0 | apply HA; apply ids_faces; exact H0]. }
  cbn [negb]. unfold fm at 1. rewrite (select_full F a HA), Nat.eqb_refl. exists fm. split.
  - unfold fm at 2. rewrite (select_full F a HA). reflexivity.
  - assert (FT : fm = repeat true (List.length F)).
    { unfold fm. clear - HA. induction F as [| x F IH]; [reflexivity |]. cbn.
      assert (existsb (Nat.eqb x) a = true) as -> by (apply mem_b; apply HA; now left). f_equal. apply IH. intros y Hy. apply HA. now right. }
    intros A l Hl. rewrite FT. rewrite <- Hl. clear. induction l as [| x l IH]; [reflexivity |]. cbn. now rewrite IH.
Qed.
Lemma inside k a s : (exists f, in_faces m v f) -> (forall f, in_faces m v f -> in_faces m lo f) ->
  (forall l, k = Arr l -> List.length l = List.length (v_faces (plain m v))) ->
  hires_diffusion m areas diffuse vsmall (Some lo) v k s = apply_diffusion m areas diffuse vsmall (plain m v) k s /\
  hires_collapse m areas collapse (Some lo) v a s = slope_collapse m areas collapse (plain m v) a s /\
  hires_noise m areas noise (Some lo) v s = apply_noise m areas (plain m v) s (noise (plain m v)).
Proof.
  intros H0 H HK. destruct (overlap_inside H0 H) as (fm & E & FS). unfold hires_diffusion, hires_collapse, hires_noise. rewrite E.
  split; [| split; reflexivity]. destruct k as [x | l]; [reflexivity |].
  destruct (overlap_spec m lo v LO) as (_ & K & _). destruct (K fm _ E) as (_ & _ & _ & _ & LM).
  rewrite LM, (HK l eq_refl), Nat.eqb_refl, (FS R l (HK l eq_refl)). reflexivity.
Qed.

(** Each face gets the value given for it. *)
Lemma select_pairs {A} (fs : list nat) : forall (l : list A) mask f x, List.length l = List.length fs ->
  In (f, x) (combine (select fs mask) (select l mask)) -> In (f, x) (combine fs l).
Proof.
  induction fs as [| g fs IH]; intros [| y l] [| b mask] f x H; cbn; try tauto; try discriminate H.
  injection H as H. destruct b.
  - intros [E | E]; [left; exact E | right; exact (IH l mask f x H E)].
  - intros E. right. exact (IH l mask f x H E).
Qed.
Lemma values l s fm w : overlap m (Some lo) v = Ok (Some (fm, w)) -> List.length l = List.length (v_faces (plain m v)) ->
  exists l', hires_diffusion m areas diffuse vsmall (Some lo) v (Arr l) s = apply_diffusion m areas diffuse vsmall w (Arr l') s /\
  List.length l' = List.length (v_faces w) /\
  forall f x, In (f, x) (combine (v_faces w) l') -> In (f, x) (combine (v_faces (plain m v)) l).
Proof.
  intros E HL. unfold hires_diffusion. rewrite E. destruct (overlap_spec m lo v LO) as (_ & K & _).
  destruct (K fm w E) as (_ & _ & _ & SF & LM). rewrite LM, HL, Nat.eqb_refl. exists (select l fm). split; [reflexivity |].
  rewrite SF. split; [| intros f x; apply select_pairs; exact HL].
  clear - HL LM. revert l fm HL LM. induction (v_faces (plain m v)) as [| g fs IH]; intros [| y l] [| b fm] H1 H2; cbn in *; try lia.
  destruct b; cbn; [f_equal |]; apply IH; lia.
Qed.

(** Without shared faces nothing is done or checked. *)
Lemma apart k a t ns s : (forall f, in_faces m v f -> ~ in_faces m lo f) ->
  hires_diffusion m areas diffuse vsmall (Some lo) v k s = (s, Ok tt) /\ hires_collapse m areas collapse (Some lo) v a s = (s, Ok tt) /\
  hires_noise m areas noise (Some lo) v s = (s, Ok tt) /\ hires_tag m (Some lo) v t false ns = Ok ns.
Proof.
  intros H. destruct (overlap_spec m lo v LO) as (K & _). assert (E : overlap m (Some lo) v = Ok None) by (apply K; left; exact H).
  unfold hires_diffusion, hires_collapse, hires_noise, hires_tag. rewrite E. auto.
Qed.

(** Tags. *)
Lemma in_region_b l f : Tags_model.in_region l f = true <-> In f l.
Proof. unfold Tags_model.in_region. apply mem_b. Qed.
Lemma add_tag_outside rg tag tb f : ~ In f rg -> exists tb', Tags_model.add_tag rg (Some tag) (Some tb) = Some tb' /\ tb' f = tb f.
Proof.
  intros H. assert (B : Tags_model.in_region rg f = false).
  { destruct (Tags_model.in_region rg f) eqn:E; [| reflexivity]. apply in_region_b in E. contradiction. }
  unfold Tags_model.add_tag. destruct (find _ _) as [i |].
  - eexists. split; [reflexivity |]. unfold Tags_model.set_layer. rewrite B. reflexivity.
  - eexists. split; [reflexivity |]. unfold Tags_model.set_layer, Tags_model.sort_tags. rewrite B. reflexivity.
Qed.
Lemma tag_confined tag tb : exists tb', hires_tag m (Some lo) v (Some tag) false (Some tb) = Ok (Some tb') /\
  forall f, ~ (in_faces m v f /\ in_faces m lo f) -> tb' f = tb f.
Proof.
  unfold hires_tag. destruct (overlap_spec m lo v LO) as (_ & K & NE).
  destruct (overlap m (Some lo) v) as [[[fm w] |] | e] eqn:E.
  - destruct (K fm w eq_refl) as (KF & _).
    assert (X : exists tb', Tags_model.add_tag (v_faces w) (Some tag) (Some tb) = Some tb').
    { unfold Tags_model.add_tag. destruct (find _ _); eauto. }
    destruct X as (tb' & X). exists tb'. rewrite X. split; [reflexivity |]. intros f Hf.
    destruct (add_tag_outside (v_faces w) tag tb f) as (tb2 & A & B); [rewrite KF; exact Hf |]. congruence.
  - exists tb. auto.
  - exfalso. exact (NE e eq_refl).
Qed.
End Ops.
