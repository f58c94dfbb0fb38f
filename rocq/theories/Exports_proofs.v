(** Proofs about Exports_model. *)
From Coq Require Import ZArith Sorted Lia.
From Verif Require Import Common Conf_model Conf_base Files_model Exports_model Exports_spec.
Import ListNotations.
Open Scope string_scope.

Section P.
Context {V : Type}.
Implicit Types (h : list (Z * dataset V)) (d : dataset V).

Lemma same_file_spec f g : same_file f g = true <-> f = g.
Proof.
  destruct f as [| a i], g as [| b j]; cbn; split; intros H; try discriminate; try reflexivity.
  - apply Bool.andb_true_iff in H as [A B]. apply String.eqb_eq in A. apply Z.eqb_eq in B. congruence.
  - injection H as -> ->. rewrite String.eqb_refl, Z.eqb_refl. reflexivity.
Qed.
Lemma fget_fput f g c (e : exported V) : fget f (fput g c e) = if same_file f g then Some c else fget f e.
Proof. reflexivity. Qed.
Lemma fget_put_same f c (e : exported V) : fget f (fput f c e) = Some c.
Proof. rewrite fget_fput. rewrite (proj2 (same_file_spec f f) eq_refl). reflexivity. Qed.
Lemma fget_put_other f g c (e : exported V) : f <> g -> fget f (fput g c e) = fget f e.
Proof. intros H. rewrite fget_fput. destruct (same_file f g) eqn:E; [apply same_file_spec in E; contradiction | reflexivity]. Qed.

(** Saving. *)
Lemma write_fst i d h j : In j (map fst (write_interval i d h)) <-> j = i \/ In j (map fst h).
Proof.
  induction h as [| [k e] r IH]; cbn [write_interval map fst]; [cbn; intuition |].
  destruct (Z.eqb_spec i k) as [-> | N]; [cbn; intuition |]. destruct (i <? k)%Z; cbn [map fst In]; [| rewrite IH]; intuition.
Qed.
Lemma write_increasing i d h : increasing h -> increasing (write_interval i d h).
Proof.
  unfold increasing. induction h as [| [k e] r IH]; cbn [write_interval map fst]; intros H; [repeat constructor |].
  inversion H as [| ? ? Hr Hf]; subst. destruct (Z.eqb_spec i k) as [-> | N]; [constructor; assumption |].
  destruct (Z.ltb_spec i k); cbn [map fst].
  - constructor; [exact H |]. constructor; [lia |]. rewrite Forall_forall in *. intros x Hx. specialize (Hf x Hx). lia.
  - constructor; [apply IH, Hr |]. apply Forall_forall. intros x Hx. apply write_fst in Hx as [-> | Hx]; [lia |]. rewrite Forall_forall in Hf. apply Hf, Hx.
Qed.
Lemma increasing_tail k (e : dataset V) r : increasing ((k, e) :: r) -> increasing r /\ (forall j d, In (j, d) r -> (k < j)%Z).
Proof.
  unfold increasing. intros H. inversion H as [| ? ? Hr Hf]; subst. split; [exact Hr |]. intros j d I. rewrite Forall_forall in Hf. apply Hf. apply in_map_iff. exists (j, d). auto.
Qed.
Lemma increasing_unique h i d d' : increasing h -> In (i, d) h -> In (i, d') h -> d = d'.
Proof.
  induction h as [| [k e] r IH]; intros H A B; [destruct A |]. destruct (increasing_tail k e r H) as [Hr Hl].
  destruct A as [A | A], B as [B | B]; [congruence | | | apply IH; assumption].
  - injection A as -> ->. specialize (Hl i d' B). lia.
  - injection B as -> ->. specialize (Hl i d A). lia.
Qed.
Lemma write_other i d h : forall j e, j <> i -> (In (j, e) (write_interval i d h) <-> In (j, e) h).
Proof.
  induction h as [| [k e0] r IH]; intros j e N; cbn [write_interval].
  - cbn. split; [intros [A | []]; congruence | intros []].
  - destruct (Z.eqb_spec i k) as [-> | M].
    + cbn [In]. split; (intros [A | A]; [congruence | right; exact A]).
    + destruct (i <? k)%Z; cbn [In]; [split; [intros [A | A]; [congruence | exact A] | intros A; right; exact A] |].
      rewrite (IH j e N). tauto.
Qed.
Lemma write_here i d h : increasing h -> exists d', In (i, d') (write_interval i d h) /\ (forall old, In (i, old) h -> d' = merge d old) /\ ((forall old, ~ In (i, old) h) -> d' = d).
Proof.
  induction h as [| [k e0] r IH]; intros H; cbn [write_interval].
  - exists d. split; [left; reflexivity |]. split; [intros ? [] | reflexivity].
  - destruct (increasing_tail k e0 r H) as [Hr Hl]. destruct (Z.eqb_spec i k) as [-> | M].
    + exists (merge d e0). split; [left; reflexivity |]. split.
      * intros old [A | A]; [injection A as ->; reflexivity | specialize (Hl k old A); lia].
      * intros N. exfalso. apply (N e0). left. reflexivity.
    + destruct (Z.ltb_spec i k).
      * exists d. split; [left; reflexivity |]. split; [| reflexivity]. intros old [A | A]; [congruence | specialize (Hl i old A); lia].
      * destruct (IH Hr) as (d' & I & A & B). exists d'. split; [right; exact I |]. split.
        -- intros old [C | C]; [congruence | apply A, C].
        -- intros N. apply B. intros old C. apply (N old). right. exact C.
Qed.
Lemma pmem_spec {A} k (d : pairs A) : pmem k d = match pget k d with Some _ => true | None => false end.
Proof. reflexivity. Qed.
Lemma pget_merge n d old : pget n (merge d old) = match pget n d with Some v => Some v | None => pget n old end.
Proof.
  unfold merge. rewrite pget_app. unfold Conf_spec.orelse. destruct (pget n d) as [v |] eqn:E; [reflexivity |].
  rewrite (pget_filter_key old (fun k => negb (pmem k d)) n). rewrite pmem_spec, E. reflexivity.
Qed.
Lemma write_value i d h n v : increasing h -> (holds (write_interval i d h) i n v <-> overlaid d h i n v).
Proof.
  intros H. destruct (write_here i d h H) as (d' & I & A & B). pose proof (write_increasing i d h H) as H'.
  assert (G : holds (write_interval i d h) i n v <-> pget n d' = Some v).
  { split; [intros (x & Ix & E); rewrite (increasing_unique _ i d' x H' I Ix); exact E | intros E; exists d'; auto]. }
  rewrite G. unfold overlaid, holds.
  assert (D : (exists old, In (i, old) h) \/ (forall old, ~ In (i, old) h)).
  { clear. induction h as [| [k e0] r IH]; [right; intros ? [] |]. destruct (Z.eq_dec k i) as [-> | N]; [left; exists e0; left; reflexivity |].
    destruct IH as [[o Ho] | No]; [left; exists o; right; exact Ho | right; intros o [X | X]; [congruence | exact (No o X)]]. }
  destruct D as [[old Ho] | No].
  - rewrite (A old Ho), pget_merge. destruct (pget n d) as [w |]; split.
    + intros E. left. exact E.
    + intros [E | [E _]]; [exact E | discriminate].
    + intros E. right. split; [reflexivity |]. exists old. auto.
    + intros [E | [_ (x & Ix & E)]]; [discriminate |]. rewrite (increasing_unique h i old x H Ho Ix). exact E.
  - rewrite (B No). split; [intros E; left; exact E |]. intros [E | [_ (x & Ix & _)]]; [exact E | destruct (No x Ix)].
Qed.

(** Columns. *)
Lemma pset_fst {A} k (v : A) (d : pairs A) : forall n, In n (map fst (pset k v d)) <-> n = k \/ In n (map fst d).
Proof.
  induction d as [| [a b] r IH]; intros n; cbn [pset]; [cbn; intuition |]. destruct (String.eqb_spec k a) as [<- | N]; cbn [map fst In]; [intuition | rewrite IH; intuition].
Qed.
Lemma pset_In {A} k (v : A) (d : pairs A) n x : In (n, x) (pset k v d) -> n = k /\ x = v \/ In (n, x) d.
Proof.
  induction d as [| [a b] r IH]; cbn [pset]; [intros [E | []]; injection E as -> ->; auto |].
  destruct (String.eqb_spec k a) as [<- | N]; cbn [In]; [intros [E | E]; [injection E as -> ->; auto | auto] | intros [E | E]; [auto | destruct (IH E); auto]].
Qed.
Lemma pset_nodup {A} k (v : A) (d : pairs A) : NoDup (map fst d) -> NoDup (map fst (pset k v d)).
Proof.
  induction d as [| [a b] r IH]; cbn [pset map fst]; intros H; [repeat constructor; intros [] |]. inversion H as [| ? ? Na Nr]; subst.
  destruct (String.eqb_spec k a) as [<- | N]; cbn [map fst]; constructor; auto. rewrite pset_fst. intros [E | E]; [congruence | exact (Na E)].
Qed.

Definition good (d : dataset V) (t : pairs V) : Prop :=
  NoDup (map fst t) /\ (forall n x, In (n, x) t -> column d n x) /\ (forall n x, column d n x -> In n (map fst t)).

Lemma layers_spec base (l : list V) : forall n (t : pairs V),
  (NoDup (map fst t) -> NoDup (map fst (add_layers base n l t))) /\
  (forall k x, In (k, x) (add_layers base n l t) -> In (k, x) t \/ exists m, nth_error l m = Some x /\ k = base ++ pad2 (n + m)) /\
  (forall k, In k (map fst (add_layers base n l t)) <-> In k (map fst t) \/ exists m x, nth_error l m = Some x /\ k = base ++ pad2 (n + m)).
Proof.
  induction l as [| y l IH]; intros n t; cbn [add_layers].
  - split; [auto |]. split; [auto |]. intros k. split; [auto |]. intros [H | (m & x & H & _)]; [exact H | destruct m; discriminate].
  - destruct (IH (Datatypes.S n) (pset (base ++ pad2 n) y t)) as (A & B & C). split; [intros H; apply A, pset_nodup, H |]. split.
    + intros k x I. destruct (B k x I) as [I' | (m & Hm & ->)].
      * apply pset_In in I' as [[-> ->] | I']; [right; exists 0%nat; rewrite Nat.add_0_r; auto | auto].
      * right. exists (Datatypes.S m). rewrite Nat.add_succ_r. auto.
    + intros k. rewrite C, pset_fst. split.
      * intros [[-> | H] | (m & x & Hm & ->)]; [right; exists 0%nat, y; rewrite Nat.add_0_r; auto | auto | right; exists (Datatypes.S m), x; rewrite Nat.add_succ_r; auto].
      * intros [H | (m & x & Hm & ->)]; [auto |]. destruct m as [| m]; [rewrite Nat.add_0_r; auto |]. right. exists m, x. rewrite Nat.add_succ_r. auto.
Qed.
Lemma columns_spec d : forall (t : pairs V),
  (NoDup (map fst t) -> NoDup (map fst (fold_left add_column d t))) /\
  (forall n x, In (n, x) (fold_left add_column d t) -> In (n, x) t \/ column d n x) /\
  (forall n, In n (map fst (fold_left add_column d t)) <-> In n (map fst t) \/ exists x, column d n x).
Proof.
  induction d as [| [k v] r IH]; intros t; cbn [fold_left].
  - split; [auto |]. split; [auto |]. intros n. split; [auto |]. intros [H | (x & [[] | (b & l & m & [] & _)])]. exact H.
  - destruct (IH (add_column t (k, v))) as (A & B & C).
    assert (Sub : forall n x, column r n x -> column ((k, v) :: r) n x).
    { intros n x [H | (b & l & m & H & E)]; [left; right; exact H | right; exists b, l, m; split; [right; exact H | exact E]]. }
    assert (Inv : forall n x, column ((k, v) :: r) n x -> column r n x \/ (v = FaceVar x /\ n = k) \/ (exists l m, v = LayerVar l /\ nth_error l m = Some x /\ n = k ++ pad2 m)).
    { intros n x [[H | H] | (b & l & m & [H | H] & E & F)].
      - injection H as -> ->. auto.
      - left. left. exact H.
      - injection H as -> ->. right. right. exists l, m. auto.
      - left. right. exists b, l, m. auto. }
    assert (New : (NoDup (map fst t) -> NoDup (map fst (add_column t (k, v)))) /\
      (forall n x, In (n, x) (add_column t (k, v)) -> In (n, x) t \/ (v = FaceVar x /\ n = k) \/ (exists l m, v = LayerVar l /\ nth_error l m = Some x /\ n = k ++ pad2 m)) /\
      (forall n, In n (map fst (add_column t (k, v))) <-> In n (map fst t) \/ exists x, (v = FaceVar x /\ n = k) \/ (exists l m, v = LayerVar l /\ nth_error l m = Some x /\ n = k ++ pad2 m))).
    { unfold add_column. cbn [fst snd]. destruct v as [x0 | l0 | x0 | x0].
      - split; [apply pset_nodup |]. split.
        + intros n x I. apply pset_In in I as [[-> ->] | I]; auto.
        + intros n. rewrite pset_fst. split; [intros [-> | H]; [right; exists x0; auto | auto] |]. intros [H | (x & [[E ->] | (l & m & E & _)])]; [auto | auto | discriminate].
      - destruct (layers_spec k l0 0 t) as (L1 & L2 & L3). split; [exact L1 |]. split.
        + intros n x I. destruct (L2 n x I) as [H | (m & Hm & ->)]; [auto |]. right. right. exists l0, m. auto.
        + intros n. rewrite L3. split; [intros [H | (m & x & Hm & ->)]; [auto | right; exists x; right; exists l0, m; auto] |].
          intros [H | (x & [[E _] | (l & m & E & Hm & ->)])]; [auto | discriminate |]. injection E as ->. right. exists m, x. auto.
      - split; [auto |]. split; [auto |]. intros n. split; [auto |]. intros [H | (x & [[E _] | (l & m & E & _)])]; [exact H | discriminate | discriminate].
      - split; [auto |]. split; [auto |]. intros n. split; [auto |]. intros [H | (x & [[E _] | (l & m & E & _)])]; [exact H | discriminate | discriminate]. }
    destruct New as (N1 & N2 & N3). split; [intros H; apply A, N1, H |].
    assert (Out : forall n x, (v = FaceVar x /\ n = k) \/ (exists l m, v = LayerVar l /\ nth_error l m = Some x /\ n = k ++ pad2 m) -> column ((k, v) :: r) n x).
    { intros n x [[-> ->] | (l & m & -> & Hm & ->)]; [left; left; reflexivity | right; exists k, l, m; split; [left; reflexivity | auto]]. }
    split.
    + intros n x I. destruct (B n x I) as [I' | I']; [| right; apply Sub, I']. destruct (N2 n x I') as [I'' | I'']; [auto | right; apply Out, I''].
    + intros n. rewrite C, N3. split.
      * intros [[H | (x & H)] | (x & H)]; [auto | right; exists x; apply Out, H | right; exists x; apply Sub, H].
      * intros [H | (x & H)]; [auto |]. destruct (Inv n x H) as [H' | H']; [right; exists x; exact H' | left; right; exists x; exact H'].
Qed.
Lemma column_filter d n x : column (filter on_faces d) n x <-> column d n x.
Proof.
  unfold column. split.
  - intros [H | (b & l & m & H & E)]; [left; apply filter_In in H; apply H | right; exists b, l, m; apply filter_In in H; split; [apply H | exact E]].
  - intros [H | (b & l & m & H & E)]; [left; apply filter_In; auto | right; exists b, l, m; split; [apply filter_In; auto | exact E]].
Qed.
Lemma faces_some d : has_faces d -> filter on_faces d <> [].
Proof.
  intros (n & v & I & H) E. assert (F : In (n, v) (filter on_faces d)) by (apply filter_In; split; [exact I |]; destruct H as [[x ->] | [l ->]]; reflexivity).
  rewrite E in F. destruct F.
Qed.
Lemma table_ok driver d : driver <> "ESRI Shapefile" -> has_faces d -> exists c, table driver d = Ok c /\ tabulates d c.
Proof.
  intros N F. apply faces_some in F. unfold table. apply String.eqb_neq in N. destruct (filter on_faces d) as [| a r] eqn:E; [congruence |].
  rewrite N. cbv iota. rewrite <- E. destruct (columns_spec (filter on_faces d) []) as (A & B & C).
  exists (Table (fold_left add_column (filter on_faces d) [])). split; [reflexivity |]. eexists. split; [reflexivity |]. split; [apply A; constructor |]. split.
  - intros n x I. destruct (B n x I) as [[] | H]. apply column_filter, H.
  - intros n x H. assert (K : In n (map fst (fold_left add_column (filter on_faces d) []))) by (apply C; right; exists x; apply column_filter, H).
    apply in_map_iff in K as ((n' & y) & E' & I). cbn in E'. subst n'. exists y. exact I.
Qed.

(** The shapefile table. *)
Lemma shapefile_table d : has_faces d -> exists columns, table "ESRI Shapefile" d = Ok (Table columns) /\
  exists long, columns = map (fun c => (shp_key_fix (fst c), snd c)) long /\ NoDup (map fst long) /\
    (forall n x, In (n, x) long -> column (filter (fun v => negb (starts "id" (fst v))) d) n x) /\
    (forall n x, column (filter (fun v => negb (starts "id" (fst v))) d) n x -> exists y, In (n, y) long).
Proof.
  intros F. apply faces_some in F. unfold table. destruct (filter on_faces d) as [| a r] eqn:E; [congruence |].
  cbn [String.eqb Ascii.eqb Bool.eqb]. cbv iota. rewrite <- E. set (d' := filter _ (filter on_faces d)).
  destruct (columns_spec d' []) as (A & B & C). eexists. split; [reflexivity |]. exists (fold_left add_column d' []). split; [reflexivity |].
  assert (Q : forall n x, column d' n x <-> column (filter (fun v => negb (starts "id" (fst v))) d) n x).
  { intros n x. assert (D : d' = filter on_faces (filter (fun v => negb (starts "id" (fst v))) d)).
    { unfold d'. clear. induction d as [| v d IH]; [reflexivity |]. cbn [filter]. destruct (on_faces v) eqn:O; destruct (negb (starts "id" (fst v))) eqn:P; cbn [filter]; rewrite ?O, ?P, ?IH; reflexivity. }
    rewrite D. apply column_filter. }
  split; [apply A; constructor |]. split.
  - intros n x I. destruct (B n x I) as [[] | H]. apply Q, H.
  - intros n x H. assert (K : In n (map fst (fold_left add_column d' []))) by (apply C; right; exists x; apply Q, H).
    apply in_map_iff in K as ((n' & y) & E' & I). cbn in E'. subst n'. exists y. exact I.
Qed.

(** The loop. *)
Section Loop.
Variable agrees : file -> bool.
Lemma writes_all check ext make (shows : dataset V -> content V -> Prop) : forall h e,
  (forall i d, In (i, d) h -> exists c, make d = Ok c /\ shows d c) -> increasing h -> (check = true -> forall f, agrees f = true) ->
  snd (write_each agrees check ext make h e) = None /\
  written ext shows h false e (fst (write_each agrees check ext make h e)).
Proof.
  induction h as [| [i d] r IH]; intros e M H Ag; cbn [write_each].
  - split; [reflexivity |]. split; [intros i d [] |]. split; [reflexivity | discriminate].
  - destruct (M i d (or_introl eq_refl)) as (c & -> & Sc). destruct (increasing_tail i d r H) as [Hr Hl].
    assert (W : (negb check || writable agrees (FData ext i) e)%bool = true).
    { destruct check; [| reflexivity]. unfold writable. destruct (fget _ e); [apply Ag; reflexivity | reflexivity]. }
    rewrite W. destruct (IH (fput (FData ext i) c e) (fun j x J => M j x (or_intror J)) Hr Ag) as (A & B & C & _).
    split; [exact A |]. split; [| split; [| discriminate]].
    + intros j x [J | J]; [| apply B, J]. injection J as <- <-. exists c. split; [| exact Sc]. rewrite C; [apply fget_put_same | | discriminate].
      intros j x J X. injection X as <-. specialize (Hl i x J). lia.
    + intros f F _. rewrite C; [| intros j x J; apply (F j x (or_intror J)) | discriminate]. apply fget_put_other. apply (F i d). left. reflexivity.
Qed.
(** Refused files stay. *)
Lemma refused ext make h : forall (e : exported V) f c, fget f e = Some c -> agrees f = false -> fget f (fst (write_each agrees true ext make h e)) = Some c.
Proof.
  induction h as [| [i d] r IH]; intros e f c F N; cbn [write_each]; [exact F |]. destruct (make d) as [c' | x]; [| exact F]. apply IH; [| exact N].
  destruct (negb true || writable agrees (FData ext i) e)%bool eqn:W; [| exact F]. rewrite fget_fput. destruct (same_file f (FData ext i)) eqn:E; [| exact F].
  apply same_file_spec in E. subst f. cbn [negb orb] in W. unfold writable in W. rewrite F in W. congruence.
Qed.
End Loop.

(** Reading. *)
Lemma read_all h : h <> [] -> read None h = Ok h.
Proof. destruct h; [congruence | reflexivity]. Qed.
Lemma read_one h i d : increasing h -> (0 <= i)%Z -> In (i, d) h -> read (Some i) h = Ok [(i, d)].
Proof.
  intros H P I. unfold read. rewrite (proj2 (Z.ltb_ge i 0) P).
  assert (F : find (fun e => (fst e =? i)%Z) h = Some (i, d)).
  { induction h as [| [k x] r IH]; [destruct I |]. destruct (increasing_tail k x r H) as [Hr Hl]. cbn [find fst]. destruct (Z.eqb_spec k i) as [-> | N].
    - destruct I as [I | I]; [rewrite I; reflexivity | specialize (Hl i d I); lia].
    - apply IH; [exact Hr |]. destruct I as [I | I]; [congruence | exact I]. }
  rewrite F. reflexivity.
Qed.
End P.
