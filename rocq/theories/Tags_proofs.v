(** Lemmas about face tags and crater counts. *)
From Coq Require Import NArith Permutation.
From Verif Require Import Common Tags_model Tags_spec.
Open Scope N_scope.

Lemma in_region_In : forall rg f, in_region rg f = true <-> In f rg.
Proof.
  intros. unfold in_region. rewrite existsb_exists. split.
  - intros (x & H & E). apply Nat.eqb_eq in E. subst. assumption.
  - intro H. exists f. split; [assumption|apply Nat.eqb_refl].
Qed.

Lemma in_region_not : forall rg f, in_region rg f = false <-> ~ In f rg.
Proof.
  intros. rewrite <- in_region_In. destruct (in_region rg f); split; congruence.
Qed.

(** ** Rows *)
Lemma set_nth_length : forall l i x, List.length (set_nth i x l) = List.length l.
Proof. induction l; intros [|i] x; simpl; auto. Qed.

Lemma set_nth_perm : forall l i x, (i < List.length l)%nat ->
  Permutation (nth i l 0 :: set_nth i x l) (x :: l).
Proof.
  induction l as [|a l IH]; intros i x H; [simpl in H; lia|].
  destruct i as [|i]; simpl.
  - apply perm_swap.
  - simpl in H. assert (Hi : (i < List.length l)%nat) by lia. specialize (IH i x Hi).
    eapply perm_trans; [apply perm_swap|]. eapply perm_trans; [apply perm_skip, IH|]. apply perm_swap.
Qed.

Lemma set_nth_In : forall l i x, (i < List.length l)%nat -> In x (set_nth i x l).
Proof.
  induction l as [|a l IH]; intros i x H; [simpl in H; lia|].
  destruct i as [|i]; simpl; [auto|]. right. apply IH. simpl in H. lia.
Qed.

Lemma times_perm : forall l l' t, Permutation l l' -> times t l = times t l'.
Proof. intros. unfold times. apply (Permutation_count_occ N.eq_dec). assumption. Qed.

Lemma times_cons : forall t a l, times t (a :: l) = ((if N.eq_dec a t then 1 else 0) + times t l)%nat.
Proof. intros. unfold times. simpl. destruct (N.eq_dec a t); lia. Qed.

Lemma times_In : forall t l, In t l <-> (0 < times t l)%nat.
Proof. intros. unfold times. rewrite (count_occ_In N.eq_dec). lia. Qed.

Lemma insert_perm : forall x l, Permutation (insert_desc x l) (x :: l).
Proof.
  induction l as [|a l IH]; simpl; [reflexivity|].
  destruct (a <? x); [reflexivity|].
  eapply perm_trans; [apply perm_skip, IH|]. apply perm_swap.
Qed.

Lemma sort_perm : forall l, Permutation (sort_desc l) l.
Proof.
  induction l as [|a l IH]; simpl; [reflexivity|].
  eapply perm_trans; [apply insert_perm|]. apply perm_skip, IH.
Qed.

Fixpoint desc (l : row) : Prop :=
  match l with
  | [] => True
  | a :: t => (forall b, In b t -> b <= a) /\ desc t
  end.

Lemma insert_desc_ok : forall x l, desc l -> desc (insert_desc x l).
Proof.
  induction l as [|a l IH]; simpl; intro H.
  - split; [intros b []|exact I].
  - destruct H as [Ha Hl]. destruct (a <? x) eqn:E.
    + apply N.ltb_lt in E. split; [|split; assumption].
      intros b [<-|Hb]; [lia|]. specialize (Ha b Hb). lia.
    + apply N.ltb_ge in E. split; [|apply IH, Hl].
      intros b Hb. apply (Permutation_in _ (insert_perm x l)) in Hb. destruct Hb as [<-|Hb]; [lia|auto].
Qed.

Lemma sort_desc_ok : forall l, desc (sort_desc l).
Proof. induction l; simpl; [exact I|]. apply insert_desc_ok, IHl. Qed.

Lemma desc_last : forall l, desc l -> l <> [] -> forall b, In b l -> nth (List.length l - 1) l 0 <= b.
Proof.
  induction l as [|a l IH]; intros H N b Hb; [congruence|].
  destruct H as [Ha Hl]. destruct l as [|c l].
  - simpl in *. destruct Hb as [<-|[]]. lia.
  - replace (List.length (a :: c :: l) - 1)%nat with (S (List.length (c :: l) - 1)) by (simpl; lia).
    change (nth (S (List.length (c :: l) - 1)) (a :: c :: l) 0) with (nth (List.length (c :: l) - 1) (c :: l) 0).
    destruct Hb as [<-|Hb].
    + etransitivity; [apply (IH Hl ltac:(discriminate) c); left; reflexivity|]. apply Ha. left. reflexivity.
    + apply IH; [assumption|discriminate|assumption].
Qed.

Lemma sort_length : forall l, List.length (sort_desc l) = List.length l.
Proof. intro l. apply Permutation_length, sort_perm. Qed.

(** ** add_tag *)
(** The row of a face of the region after add_tag: the tag replaces one entry. *)
Lemma add_tag_row : forall rg t tb tb' f, well_formed tb ->
  add_tag rg (Some t) (Some tb) = Some tb' -> In f rg ->
  exists m, In m (tb f) /\ (forall b, In b (tb f) -> m <= b) /\
    Permutation (m :: tb' f) (t :: tb f) /\ In t (tb' f).
Proof.
  intros rg t tb tb' f W E Hf. unfold add_tag in E.
  assert (Rf : in_region rg f = true) by (apply in_region_In; assumption).
  destruct (find (layer_empty rg tb) (seq 0 N_TAG_LAYERS)) as [i|] eqn:F.
  - injection E as <-. destruct (find_some _ _ F) as [Hi Le]. apply in_seq in Hi.
    unfold layer_empty in Le. rewrite forallb_forall in Le. specialize (Le f Hf). apply N.eqb_eq in Le.
    assert (Hl : (i < List.length (tb f))%nat) by (rewrite W; lia).
    exists 0. split; [|split; [|split]].
    + rewrite <- Le. apply nth_In. assumption.
    + intros b _. lia.
    + unfold set_layer. rewrite Rf. rewrite <- Le at 1. apply set_nth_perm. assumption.
    + unfold set_layer. rewrite Rf. apply set_nth_In. assumption.
  - injection E as <-. unfold set_layer, sort_tags. rewrite Rf.
    set (s := sort_desc (tb f)).
    assert (Ls : List.length s = N_TAG_LAYERS) by (unfold s; rewrite sort_length; apply W).
    assert (Hl : (N_TAG_LAYERS - 1 < List.length s)%nat) by (rewrite Ls; unfold N_TAG_LAYERS; lia).
    exists (nth (N_TAG_LAYERS - 1) s 0). split; [|split; [|split]].
    + apply (Permutation_in _ (sort_perm (tb f))). apply nth_In. assumption.
    + intros b Hb. rewrite <- Ls. apply desc_last.
      * apply sort_desc_ok.
      * intro C. rewrite C in Ls. discriminate.
      * apply (Permutation_in _ (Permutation_sym (sort_perm (tb f)))). assumption.
    + eapply perm_trans; [apply set_nth_perm; assumption|]. apply perm_skip, sort_perm.
    + apply set_nth_In. assumption.
Qed.

Lemma add_tag_outside : forall rg t tb tb' f,
  add_tag rg (Some t) (Some tb) = Some tb' -> ~ In f rg -> tb' f = tb f.
Proof.
  intros rg t tb tb' f E Hf. apply in_region_not in Hf. unfold add_tag in E.
  destruct (find _ _); injection E as <-; unfold set_layer, sort_tags; rewrite Hf; reflexivity.
Qed.

Lemma add_tag_total : forall rg t tb, exists tb', add_tag rg (Some t) tb = Some tb'.
Proof. intros. unfold add_tag. destruct (find _ _); eauto. Qed.

Lemma zero_wf : well_formed zero_table.
Proof. intro f. unfold zero_table. apply repeat_length. Qed.

Lemma add_tag_wf : forall rg t tb tb', well_formed tb ->
  add_tag rg (Some t) (Some tb) = Some tb' -> well_formed tb'.
Proof.
  intros rg t tb tb' W E f.
  destruct (in_dec Nat.eq_dec f rg) as [Hf|Hf].
  - destruct (add_tag_row _ _ _ _ _ W E Hf) as (m & _ & _ & P & _).
    apply Permutation_length in P. simpl in P. rewrite W in P. lia.
  - rewrite (add_tag_outside _ _ _ _ _ E Hf). apply W.
Qed.

Lemma add_tag_keeps : forall rg t tb tb', well_formed tb ->
  add_tag rg (Some t) (Some tb) = Some tb' ->
  forall f u, u <> 0 -> (In f rg -> has_free_layer (tb f)) ->
    times u (tb' f) = (times u (tb f) + (if in_region rg f then if N.eq_dec u t then 1 else 0 else 0))%nat.
Proof.
  intros rg t tb tb' W E f u Hu Free.
  destruct (in_region rg f) eqn:Rf.
  - apply in_region_In in Rf. destruct (add_tag_row _ _ _ _ _ W E Rf) as (m & _ & Min & P & _).
    assert (m = 0) by (specialize (Min 0 (Free Rf)); lia). subst m.
    apply (times_perm _ _ u) in P. rewrite !times_cons in P.
    destruct (N.eq_dec 0 u); [congruence|].
    destruct (N.eq_dec t u); destruct (N.eq_dec u t); subst; try congruence; lia.
  - apply in_region_not in Rf. rewrite (add_tag_outside _ _ _ _ _ E Rf). lia.
Qed.

Lemma add_tag_full : forall rg t tb tb' f, well_formed tb ->
  add_tag rg (Some t) (Some tb) = Some tb' -> In f rg -> ~ has_free_layer (tb f) ->
  exists m, m <> 0 /\ In m (tb f) /\ (forall b, In b (tb f) -> m <= b) /\
    Permutation (m :: tb' f) (t :: tb f).
Proof.
  intros rg t tb tb' f W E Hf NF. destruct (add_tag_row _ _ _ _ _ W E Hf) as (m & Hm & Min & P & _).
  exists m. split; [|auto]. intros ->. contradiction.
Qed.

(** ** remove_tag *)
Lemma times_zero_out : forall t u r, u <> 0 ->
  times u (map (fun x => if x =? t then 0 else x) r) = if N.eq_dec u t then 0%nat else times u r.
Proof.
  intros t u r Hu. induction r as [|a r IH].
  - simpl. destruct (N.eq_dec u t); reflexivity.
  - simpl map. rewrite !times_cons, IH. destruct (a =? t) eqn:E.
    + apply N.eqb_eq in E. subst a. destruct (N.eq_dec 0 u); [congruence|].
      destruct (N.eq_dec t u); destruct (N.eq_dec u t); subst; try congruence; reflexivity.
    + apply N.eqb_neq in E. destruct (N.eq_dec a u); destruct (N.eq_dec u t); subst; try congruence; reflexivity.
Qed.

Lemma remove_tag_spec : forall rg t tb, exists tb', remove_tag rg t (Some tb) = Ok (Some tb') /\
  (forall f u, u <> 0 -> times u (tb' f) =
     (if in_region rg f then if N.eq_dec u t then 0 else times u (tb f) else times u (tb f))%nat) /\
  (forall f, ~ In f rg -> tb' f = tb f) /\
  (well_formed tb -> well_formed tb').
Proof.
  intros rg t tb. eexists. split; [reflexivity|]. split; [|split].
  - intros f u Hu. simpl. destruct (in_region rg f); [apply times_zero_out; assumption|reflexivity].
  - intros f Hf. simpl. apply in_region_not in Hf. rewrite Hf. reflexivity.
  - intros W f. simpl. destruct (in_region rg f); [rewrite map_length|]; apply W.
Qed.

(** ** Dictionaries *)
Lemma dict_set_In : forall k v d p, In p (dict_set k v d) -> p = (k, v) \/ (In p d /\ fst p <> k) \/ In p d.
Proof.
  induction d as [|[k' v'] d IH]; simpl; intros p H.
  - destruct H as [<-|[]]. auto.
  - destruct (k' =? k) eqn:E; simpl in H; destruct H as [<-|H]; auto.
    destruct (IH p H) as [->|[[? ?]|?]]; auto.
Qed.

Lemma dict_set_has : forall k v d, In (k, v) (dict_set k v d).
Proof.
  induction d as [|[k' v'] d IH]; simpl; [auto|]. destruct (k' =? k); simpl; auto.
Qed.

Lemma dict_set_other : forall k v d k' v', k' <> k -> (In (k', v') (dict_set k v d) <-> In (k', v') d).
Proof.
  induction d as [|[a b] d IH]; simpl; intros k' v' N.
  - split; [intros [H|[]]; congruence|tauto].
  - destruct (a =? k) eqn:E; simpl.
    + apply N.eqb_eq in E. subst a. split; intros [H|H]; auto; congruence.
    + rewrite (IH k' v' N). tauto.
Qed.

Lemma dict_pop_In : forall k d p, In p (dict_pop k d) <-> In p d /\ fst p <> k.
Proof.
  intros. unfold dict_pop. rewrite filter_In. destruct (fst p =? k) eqn:E; simpl.
  - apply N.eqb_eq in E. intuition congruence.
  - apply N.eqb_neq in E. tauto.
Qed.

Definition keyed (d : list (N * crater)) : Prop := forall k v, In (k, v) d -> k = cid v.

Lemma dict_set_keyed : forall c d, keyed d -> keyed (dict_set (cid c) c d).
Proof.
  intros c d K k v H. apply dict_set_In in H. destruct H as [H|[[H _]|H]]; [congruence| |]; auto.
Qed.

Lemma dict_pop_keyed : forall k d, keyed d -> keyed (dict_pop k d).
Proof. intros k d K a b H. apply dict_pop_In in H. apply K. tauto. Qed.

Definition uniq (d : list (N * crater)) : Prop := NoDup (map fst d).

Lemma dict_set_keys : forall k v d x, In x (map fst (dict_set k v d)) <-> x = k \/ In x (map fst d).
Proof.
  induction d as [|[a b] d IH]; simpl; intro x; [intuition|].
  destruct (a =? k) eqn:E; simpl.
  - apply N.eqb_eq in E. subst. intuition.
  - rewrite IH. intuition.
Qed.

Lemma dict_set_uniq : forall k v d, uniq d -> uniq (dict_set k v d).
Proof.
  unfold uniq. induction d as [|[a b] d IH]; simpl; intro H.
  - constructor; [intros []|constructor].
  - inversion H; subst. destruct (a =? k) eqn:E; simpl.
    + apply N.eqb_eq in E. subst. constructor; assumption.
    + constructor; [|auto]. rewrite dict_set_keys. apply N.eqb_neq in E. intuition.
Qed.

Lemma dict_pop_uniq : forall k d, uniq d -> uniq (dict_pop k d).
Proof.
  unfold uniq, dict_pop. induction d as [|[a b] d IH]; simpl; intro H; [constructor|].
  inversion H; subst. destruct (a =? k); simpl; [auto|]. constructor; [|auto].
  intro C. apply H2. apply in_map_iff in C. destruct C as (p & E & I). apply filter_In in I.
  rewrite <- E. apply in_map. tauto.
Qed.

Lemma uniq_eq : forall d k v v', uniq d -> In (k, v) d -> In (k, v') d -> v = v'.
Proof.
  unfold uniq. induction d as [|[a b] d IH]; simpl; intros k v v' U H1 H2; [tauto|].
  inversion U; subst. destruct H1 as [H1|H1], H2 as [H2|H2]; try congruence.
  - exfalso. apply H3. injection H1 as -> ->. apply (in_map fst) in H2. exact H2.
  - exfalso. apply H3. injection H2 as -> ->. apply (in_map fst) in H1. exact H1.
  - eauto.
Qed.

(** ** Counting *)
Lemma recorded_spec : forall n tb id, recorded n tb id = true <-> on_surface n tb id.
Proof.
  intros. unfold recorded, on_surface. rewrite existsb_exists. split.
  - intros (f & Hf & E). apply in_seq in Hf. apply existsb_exists in E. destruct E as (x & Hx & E).
    apply N.eqb_eq in E. subst. exists f. split; [lia|assumption].
  - intros (f & Hf & E). exists f. split; [apply in_seq; lia|]. apply existsb_exists. exists id.
    split; [assumption|apply N.eqb_refl].
Qed.

Lemma recorded_false : forall n tb id, recorded n tb id = false <-> ~ on_surface n tb id.
Proof.
  intros. rewrite <- recorded_spec. destruct (recorded n tb id); split; congruence.
Qed.

Definition cut (inner : list nat) (i : N) (tb : table) : table :=
  fun f => if in_region inner f then map (fun x => if x =? i then 0 else x) (tb f) else tb f.

Lemma cut_times : forall inner i tb f u, u <> 0 ->
  times u (cut inner i tb f) = if in_region inner f then if N.eq_dec u i then 0%nat else times u (tb f) else times u (tb f).
Proof.
  intros. unfold cut. destruct (in_region inner f); [apply times_zero_out; assumption|reflexivity].
Qed.

(** Everything about the cookie-cutting loop. *)
Lemma cookie_spec : forall n inner ids tb d tb' d', (forall i, In i ids -> i <> 0) ->
  cookie n inner ids tb d = (tb', d') ->
  (forall f u, u <> 0 -> times u (tb' f) =
     if in_region inner f then if in_dec N.eq_dec u ids then 0%nat else times u (tb f) else times u (tb f)) /\
  (forall p, In p d' <-> In p d /\ ~ (In (fst p) ids /\ ~ on_surface n tb' (fst p))) /\
  (well_formed tb -> well_formed tb') /\ (keyed d -> keyed d') /\ (uniq d -> uniq d').
Proof.
  intros n inner ids. induction ids as [|i ids IH]; intros tb d tb' d' Pos E.
  - simpl in E. injection E as <- <-. repeat split; auto; try tauto.
    intros f u _. destruct (in_region inner f); reflexivity.
  - change (cookie n inner ids (cut inner i tb) (if recorded n (cut inner i tb) i then d else dict_pop i d) = (tb', d')) in E.
    assert (Pi : i <> 0) by (apply Pos; left; reflexivity).
    destruct (IH _ _ _ _ (fun j Hj => Pos j (or_intror Hj)) E) as (T & D & W & K & U). clear IH.
    assert (T' : forall f u, u <> 0 -> times u (tb' f) =
     if in_region inner f then if in_dec N.eq_dec u (i :: ids) then 0%nat else times u (tb f) else times u (tb f)).
    { intros f u Hu. rewrite T by assumption. rewrite !cut_times by assumption.
      destruct (in_region inner f); [|reflexivity].
      destruct (in_dec N.eq_dec u ids), (N.eq_dec u i), (in_dec N.eq_dec u (i :: ids)); simpl in *; try reflexivity;
        exfalso; intuition. }
    split; [exact T'|]. split; [|split; [|split]].
    + intro p.
      (* whether i is on the surface does not change after the first cut *)
      assert (Same : on_surface n (cut inner i tb) i <-> on_surface n tb' i).
      { split; intros (f & Hf & Hi); exists f; (split; [assumption|]); apply times_In; apply times_In in Hi.
        - rewrite T' by assumption. rewrite cut_times in Hi by assumption.
          destruct (in_region inner f); [destruct (N.eq_dec i i); [lia|congruence]|assumption].
        - rewrite T' in Hi by assumption. rewrite cut_times by assumption.
          destruct (in_region inner f); [|assumption].
          destruct (in_dec N.eq_dec i (i :: ids)); [lia|]. exfalso. apply n0. left. reflexivity. }
      rewrite D. destruct (recorded n (cut inner i tb) i) eqn:R.
      * apply recorded_spec in R. apply Same in R.
        split; intros [H1 H2]; split; auto.
        -- intros [[Hi|Hi] H3]; [rewrite Hi in R; contradiction|tauto].
        -- intros [Hi H3]. apply H2. split; [right; assumption|assumption].
      * apply recorded_false in R. rewrite Same in R. rewrite dict_pop_In.
        split.
        -- intros [[H1 H2] H3]. split; [assumption|]. intros [[Hi|Hi] H4]; [congruence|tauto].
        -- intros [H1 H2]. split; [split; [assumption|]|].
           ++ intros Hi. apply H2. rewrite Hi. split; [left; reflexivity|assumption].
           ++ intros [Hi H3]. apply H2. split; [right; assumption|assumption].
    + intro Wt. apply W. intro f. unfold cut. destruct (in_region inner f); [rewrite map_length|]; apply Wt.
    + intro Kd. apply K. destruct (recorded _ _ _); [assumption|apply dict_pop_keyed; assumption].
    + intro Ud. apply U. destruct (recorded _ _ _); [assumption|apply dict_pop_uniq; assumption].
Qed.

Lemma removes_spec : forall c ids d i, keyed d -> In i (removes c ids d) ->
  exists v, In (i, v) d /\ In i ids /\ cdiam v < cdiam c.
Proof.
  intros c ids d i K H. unfold removes in H. apply in_map_iff in H. destruct H as ((k & v) & <- & H).
  apply filter_In in H. destruct H as [H1 H2]. simpl in *. apply andb_prop in H2. destruct H2 as [H2 H3].
  exists v. apply N.ltb_lt in H3. apply existsb_exists in H2. destruct H2 as (x & Hx & E). apply N.eqb_eq in E.
  rewrite (K _ _ H1). subst x. rewrite <- (K _ _ H1) at 1. auto.
Qed.

Lemma removes_complete : forall c ids d i v, keyed d -> In (i, v) d -> In i ids -> cdiam v < cdiam c ->
  In i (removes c ids d).
Proof.
  intros c ids d i v K H Hi L. unfold removes. apply in_map_iff. exists (i, v). split; [reflexivity|].
  apply filter_In. split; [assumption|]. simpl. apply andb_true_intro. split; [|apply N.ltb_lt; assumption].
  apply existsb_exists. exists i. split; [assumption|]. rewrite <- (K _ _ H). apply N.eqb_refl.
Qed.

Definition ids_in (tb : table) (inner : list nat) : list N := filter (fun x => 0 <? x) (flat_map tb inner).

Lemma ids_in_spec : forall tb inner x, In x (ids_in tb inner) <-> x <> 0 /\ exists f, In f inner /\ In x (tb f).
Proof.
  intros. unfold ids_in. rewrite filter_In, in_flat_map. rewrite N.ltb_lt.
  split; intros [A B]; split; auto; lia.
Qed.

Definition start_table (s : count) : table := match tags s with None => zero_table | Some tb => tb end.

Lemma add_tag_start : forall rg t s, add_tag rg (Some t) (tags s) = add_tag rg (Some t) (Some (start_table s)).
Proof. intros. unfold start_table. destruct (tags s); reflexivity. Qed.

(** The four outcomes of [add]. *)
Inductive add_case (n : nat) (c : crater) (s s' : count) : Prop :=
| ac_skip : s' = s -> add_case n c s s'
| ac_unrecorded rg tb : region c = Some rg -> add_tag rg (Some (cid c)) (Some (start_table s)) = Some tb ->
    ~ on_surface n tb (cid c) -> s' = mk_count (Some tb) (observed s) -> add_case n c s s'
| ac_nocut rg tb : region c = Some rg -> add_tag rg (Some (cid c)) (Some (start_table s)) = Some tb ->
    on_surface n tb (cid c) -> interior c = None ->
    s' = mk_count (Some tb) (dict_set (cid c) c (observed s)) -> add_case n c s s'
| ac_cut rg tb inner tb' d' : region c = Some rg -> add_tag rg (Some (cid c)) (Some (start_table s)) = Some tb ->
    on_surface n tb (cid c) -> interior c = Some inner ->
    cookie n inner (removes c (ids_in tb inner) (dict_set (cid c) c (observed s))) tb
      (dict_set (cid c) c (observed s)) = (tb', d') ->
    s' = mk_count (Some tb') d' -> add_case n c s s'.

Lemma add_cases : forall n c s, add_case n c s (fst (add n c s)).
Proof.
  intros n c s. unfold add. destruct (region c) as [rg|] eqn:Er; [|apply ac_skip; reflexivity].
  destruct (min_face_for_counting <=? List.length rg)%nat; [|apply ac_skip; reflexivity].
  rewrite add_tag_start. destruct (add_tag_total rg (cid c) (Some (start_table s))) as [tb Et]. rewrite Et.
  destruct (recorded n tb (cid c)) eqn:R.
  - apply recorded_spec in R. destruct (interior c) as [inner|] eqn:Ei.
    + fold (ids_in tb inner). destruct (cookie n inner _ tb _) as [tb' d'] eqn:Ec.
      simpl. eapply ac_cut; eauto.
    + simpl. eapply ac_nocut; eauto.
  - apply recorded_false in R. simpl. eapply ac_unrecorded; eauto.
Qed.

Lemma removes_pos : forall c tb inner d i, keyed d -> In i (removes c (ids_in tb inner) d) -> i <> 0.
Proof.
  intros c tb inner d i K H. destruct (removes_spec _ _ _ _ K H) as (v & _ & Hi & _).
  apply ids_in_spec in Hi. tauto.
Qed.

(** *** Consistency of reachable states *)
Definition consistent (s : count) : Prop :=
  keyed (observed s) /\ uniq (observed s) /\ well_formed (start_table s) /\
  (tags s = None -> observed s = []).

Lemma add_consistent : forall n c s, consistent s -> consistent (fst (add n c s)).
Proof.
  intros n c s (K & U & W & Z).
  destruct (add_cases n c s) as [->|rg tb Er Et NS ->|rg tb Er Et OS Ei ->|rg tb inner tb' d' Er Et OS Ei Ec ->].
  - repeat split; assumption.
  - repeat split; simpl; auto; [|discriminate]. apply (add_tag_wf _ _ _ _ W Et).
  - repeat split; simpl; auto using dict_set_keyed, dict_set_uniq; [|discriminate].
    apply (add_tag_wf _ _ _ _ W Et).
  - pose proof (dict_set_keyed c _ K) as K'.
    destruct (cookie_spec _ _ _ _ _ _ _ (fun i Hi => removes_pos _ _ _ _ _ K' Hi) Ec) as (_ & _ & W' & K'' & U').
    repeat split; simpl.
    + apply K''. assumption.
    + apply U', dict_set_uniq, U.
    + apply W', (add_tag_wf _ _ _ _ W Et).
    + discriminate.
Qed.

Lemma remove_ok : forall n id s tb, tags s = Some tb -> exists tb',
  remove n id s = (mk_count (Some tb') (dict_pop id (observed s)), None) /\
  (forall f u, u <> 0 -> times u (tb' f) = if in_region (seq 0 n) f then if N.eq_dec u id then 0%nat else times u (tb f) else times u (tb f)) /\
  (well_formed tb -> well_formed tb').
Proof.
  intros n id s tb E. destruct (remove_tag_spec (seq 0 n) id tb) as (tb' & Er & T & _ & W).
  exists tb'. unfold remove. rewrite E, Er. auto.
Qed.

Lemma remove_consistent : forall n id s, consistent s -> consistent (fst (remove n id s)).
Proof.
  intros n id s (K & U & W & Z). destruct (tags s) as [tb|] eqn:E.
  - destruct (remove_ok n id s tb E) as (tb' & -> & _ & W'). unfold start_table in W. rewrite E in W.
    repeat split; simpl; auto using dict_pop_keyed, dict_pop_uniq. discriminate.
  - unfold remove. rewrite E. simpl. repeat split; auto.
Qed.

Lemma remove_all_ind : forall (P : count -> Prop) n ids s, (forall id s, P s -> P (fst (remove n id s))) ->
  P s -> P (fst (remove_all n ids s)).
Proof.
  intros P n ids s H. revert s. induction ids as [|i ids IH]; intros s Hs; simpl; [assumption|].
  specialize (H i s Hs). destruct (remove n i s) as [s' [e|]]; simpl in *; auto.
Qed.

Lemma tally_ind : forall (P : count -> Prop) n w b s, (forall id s, P s -> P (fst (remove n id s))) ->
  P s -> P (fst (tally n w b s)).
Proof.
  intros P n w b s H Hs. unfold tally. destruct b; [|assumption].
  destruct (tags s); [|assumption]. destruct (judge _ _ _); [|assumption].
  apply remove_all_ind; assumption.
Qed.

Lemma step_consistent : forall n s o, consistent s -> consistent (step n s o).
Proof.
  intros n s [c|id|w b|] H; simpl.
  - apply add_consistent, H.
  - apply remove_consistent, H.
  - apply tally_ind; [apply remove_consistent|assumption].
  - repeat split; simpl; auto; try (intros k v []); try constructor; try apply zero_wf.
Qed.

Lemma fresh_consistent : consistent fresh.
Proof.
  repeat split; simpl; auto; try (intros k v []); try constructor; try apply zero_wf.
Qed.

Lemma history_consistent : forall n l s, consistent s -> consistent (history n s l).
Proof.
  unfold history. induction l as [|o l IH]; intros s H; simpl; [assumption|]. apply IH, step_consistent, H.
Qed.

Lemma reachable_consistent : forall n s, reachable n s -> consistent s.
Proof. intros n s [l ->]. apply history_consistent, fresh_consistent. Qed.

(** *** C41 *)
Definition nz (r : row) : nat := List.length (filter (fun x => negb (x =? 0)) r).

Lemma nz_perm : forall r r', Permutation r r' -> nz r = nz r'.
Proof.
  intros r r' H. unfold nz. induction H; simpl; auto.
  - destruct (negb (x =? 0)); simpl; congruence.
  - destruct (negb (y =? 0)), (negb (x =? 0)); simpl; reflexivity.
  - congruence.
Qed.

Lemma nz_cons : forall a r, nz (a :: r) = ((if N.eq_dec a 0 then 0 else 1) + nz r)%nat.
Proof.
  intros. unfold nz. simpl. destruct (N.eq_dec a 0) as [->|H]; simpl; [reflexivity|].
  apply N.eqb_neq in H. rewrite H. reflexivity.
Qed.

Lemma nz_free : forall r, List.length r = N_TAG_LAYERS -> (nz r < N_TAG_LAYERS)%nat -> has_free_layer r.
Proof.
  intros r L H. unfold has_free_layer. destruct (in_dec N.eq_dec 0 r) as [Y|NY]; [assumption|exfalso].
  assert (nz r = List.length r); [|lia]. clear L H. unfold nz.
  induction r as [|a r IH]; [reflexivity|]. simpl in NY. simpl.
  assert (a <> 0) by tauto. apply N.eqb_neq in H. rewrite H. simpl. f_equal. apply IH. tauto.
Qed.

Lemma nz_zero_out : forall t r, (nz (map (fun x => if (x =? t)%N then 0%N else x) r) <= nz r)%nat.
Proof.
  intros t r. induction r as [|a r IH]; simpl; [lia|]. rewrite !nz_cons.
  destruct (a =? t); destruct (N.eq_dec a 0); destruct (N.eq_dec 0 0); try congruence; lia.
Qed.

Lemma cookie_nz : forall n inner ids tb d f,
  (nz (fst (cookie n inner ids tb d) f) <= nz (tb f))%nat.
Proof.
  intros n inner ids. induction ids as [|i ids IH]; intros tb d f; simpl; [lia|].
  etransitivity; [apply IH|]. simpl. destruct (in_region inner f); [apply nz_zero_out|lia].
Qed.

Lemma add_tag_nz : forall rg t tb tb' f, well_formed tb -> add_tag rg (Some t) (Some tb) = Some tb' ->
  (nz (tb' f) <= nz (tb f) + (if in_region rg f then 1 else 0))%nat.
Proof.
  intros rg t tb tb' f W E. destruct (in_region rg f) eqn:Rf.
  - apply in_region_In in Rf. destruct (add_tag_row _ _ _ _ _ W E Rf) as (m & _ & _ & P & _).
    apply nz_perm in P. rewrite !nz_cons in P. destruct (N.eq_dec m 0), (N.eq_dec t 0); lia.
  - apply in_region_not in Rf. rewrite (add_tag_outside _ _ _ _ _ E Rf). lia.
Qed.

(** Every observed crater is recorded, and the load of each face is bounded. *)
Definition sound (n : nat) (s : count) (load : nat -> nat) : Prop :=
  consistent s /\
  (forall id c, In (id, c) (observed s) -> id <> 0 /\ on_surface n (start_table s) id) /\
  (forall f, (nz (start_table s f) <= load f)%nat).

Lemma remove_sound : forall n load id s, sound n s load -> sound n (fst (remove n id s)) load.
Proof.
  intros n load id s (C & O & L). pose proof (remove_consistent n id s C) as C'. split; [assumption|].
  destruct (tags s) as [tb|] eqn:E.
  - destruct (remove_ok n id s tb E) as (tb' & Er & T & _). rewrite Er. simpl.
    unfold start_table in O, L. rewrite E in O, L. unfold start_table. simpl. split.
    + intros i c H. apply dict_pop_In in H. destruct H as [H Ne]. simpl in Ne.
      destruct (O i c H) as (Pi & f & Hf & Hi). split; [assumption|]. exists f. split; [assumption|].
      apply times_In. rewrite T by assumption. apply times_In in Hi.
      destruct (in_region (seq 0 n) f); [|assumption]. destruct (N.eq_dec i id); [congruence|assumption].
    + intro f. unfold remove in Er. rewrite E in Er. simpl in Er. injection Er as <-. simpl.
      destruct (in_region (seq 0 n) f); [|apply L]. etransitivity; [apply nz_zero_out|apply L].
  - unfold remove. rewrite E. simpl. split; assumption.
Qed.

Lemma add_sound : forall n load c s, cid c <> 0 -> sound n s load ->
  (forall f, match region c with Some rg => in_region rg f = true | None => False end -> (load f < N_TAG_LAYERS)%nat) ->
  sound n (fst (add n c s)) (fun f => (load f + if covers f (OAdd c) then 1 else 0)%nat).
Proof.
  intros n load c s Pc (C & O & L) Room. pose proof (add_consistent n c s C) as C'.
  assert (Wk : forall s0, (forall f, (nz (start_table s0 f) <= load f)%nat) ->
     forall f, (nz (start_table s0 f) <= load f + (if covers f (OAdd c) then 1 else 0))%nat) by (intros s0 H f; specialize (H f); lia).
  destruct C as (K & U & W & Z).
  assert (Keep : forall rg tb i, region c = Some rg ->
     add_tag rg (Some (cid c)) (Some (start_table s)) = Some tb -> i <> 0 ->
     on_surface n (start_table s) i -> on_surface n tb i).
  { intros rg tb i Er Et Pi (f & Hf & Hi). exists f. split; [assumption|]. apply times_In. apply times_In in Hi.
    rewrite (add_tag_keeps _ _ _ _ W Et f i Pi); [lia|].
    intro I. apply nz_free; [apply W|]. rewrite Er in Room.
    specialize (Room f (proj2 (in_region_In rg f) I)). specialize (L f). lia. }
  assert (Load : forall rg tb, region c = Some rg ->
     add_tag rg (Some (cid c)) (Some (start_table s)) = Some tb ->
     forall f, (nz (tb f) <= load f + (if covers f (OAdd c) then 1 else 0))%nat).
  { intros rg tb Er Et f. pose proof (add_tag_nz _ _ _ _ f W Et). specialize (L f). simpl. rewrite Er. lia. }
  split; [assumption|]. clear C'.
  destruct (add_cases n c s) as [->|rg tb Er Et NS ->|rg tb Er Et OS Ei ->|rg tb inner tb' d' Er Et OS Ei Ec ->].
  - split; [assumption|apply Wk, L].
  - simpl. unfold start_table; simpl. split; [|apply (Load _ _ Er Et)].
    intros i v H. destruct (O i v H). split; [assumption|]. eauto.
  - simpl. unfold start_table; simpl. split; [|apply (Load _ _ Er Et)].
    intros i v H. destruct (N.eq_dec i (cid c)) as [->|Ne]; [auto|].
    apply dict_set_other in H; [|assumption]. destruct (O i v H). split; [assumption|]. eauto.
  - simpl. unfold start_table; simpl.
    pose proof (dict_set_keyed c _ K) as K'.
    destruct (cookie_spec _ _ _ _ _ _ _ (fun i Hi => removes_pos _ _ _ _ _ K' Hi) Ec) as (T & D & _).
    split.
    + intros i v H. apply D in H. destruct H as [H1 H2]. simpl in H2.
      assert (Pi : i <> 0 /\ on_surface n tb i).
      { destruct (N.eq_dec i (cid c)) as [->|Ne]; [auto|].
        apply dict_set_other in H1; [|assumption]. destruct (O i v H1). split; [assumption|]. eauto. }
      destruct Pi as [Pi Si]. split; [assumption|].
      destruct (in_dec N.eq_dec i (removes c (ids_in tb inner) (dict_set (cid c) c (observed s)))) as [Y|NY].
      * apply recorded_spec. destruct (recorded n tb' i) eqn:R; [reflexivity|].
        apply recorded_false in R. tauto.
      * destruct Si as (f & Hf & Hi). exists f. split; [assumption|]. apply times_In. apply times_In in Hi.
        rewrite T by assumption. destruct (in_region inner f); [|assumption].
        destruct (in_dec N.eq_dec i _); [contradiction|assumption].
    + intro f. pose proof (cookie_nz n inner (removes c (ids_in tb inner) (dict_set (cid c) c (observed s))) tb
         (dict_set (cid c) c (observed s)) f) as H. rewrite Ec in H. simpl in H.
      specialize (Load _ _ Er Et f). simpl in Load. lia.
Qed.

Lemma sound_mono : forall n s l l', (forall f, (l f <= l' f)%nat) -> sound n s l -> sound n s l'.
Proof. intros n s l l' H (A & B & C). split; [|split]; auto. intro f. specialize (C f). specialize (H f). lia. Qed.

Lemma step_sound : forall n load s o, (forall c, o = OAdd c -> cid c <> 0) -> sound n s load ->
  (forall f, covers f o = true -> (load f < N_TAG_LAYERS)%nat) ->
  sound n (step n s o) (fun f => (load f + if covers f o then 1 else 0)%nat).
Proof.
  intros n load s o Pos S Room. destruct o as [c|id|w b|].
  - apply add_sound; [apply Pos; reflexivity|assumption|]. intros f H. apply Room. simpl.
    destruct (region c); [assumption|contradiction].
  - simpl. eapply sound_mono; [|apply remove_sound, S]. intros; simpl; lia.
  - simpl. eapply sound_mono; [|apply (tally_ind (fun s => sound n s load)); [intros; apply remove_sound; assumption|exact S]].
    intros; simpl; lia.
  - simpl. split; [|split].
    + apply (step_consistent n s OReset). apply S.
    + intros i c [].
    + intro f. unfold start_table, reset, add_tag, zero_table, nz. simpl. lia.
Qed.

Lemma history_sound : forall n l s load, positive_ids l -> sound n s load ->
  (forall f, (load f + times_covered f l <= N_TAG_LAYERS)%nat) ->
  sound n (history n s l) (fun f => (load f + times_covered f l)%nat).
Proof.
  induction l as [|o l IH]; intros s load Pos S Room.
  - eapply sound_mono; [|exact S]. intros. lia.
  - unfold history. simpl. change (fold_left (step n) l (step n s o)) with (history n (step n s o) l).
    assert (TC : forall f, times_covered f (o :: l) = ((if covers f o then 1 else 0) + times_covered f l)%nat).
    { intro f. unfold times_covered. simpl. destruct (covers f o); reflexivity. }
    eapply sound_mono; [|apply (IH _ (fun f => (load f + if covers f o then 1 else 0)%nat))].
    + intro f. rewrite TC. cbv beta. lia.
    + intros c Hc. apply Pos. right. assumption.
    + apply step_sound; [|assumption|].
      * intros c ->. apply Pos. left. reflexivity.
      * intros f Hc. specialize (Room f). rewrite TC, Hc in Room. lia.
    + intro f. specialize (Room f). rewrite TC in Room. cbv beta. lia.
Qed.

Lemma observed_recorded : forall n l, positive_ids l ->
  (forall f, (times_covered f l <= N_TAG_LAYERS)%nat) ->
  forall id, is_observed (history n fresh l) id -> recorded_in n (history n fresh l) id.
Proof.
  intros n l Pos Room id [c H].
  assert (S : sound n fresh (fun _ => 0%nat)).
  { split; [apply fresh_consistent|]. split; [intros i v []|]. intro f. unfold start_table, fresh, zero_table, nz. simpl. lia. }
  destruct (history_sound n l fresh (fun _ => 0%nat) Pos S Room) as ((_ & _ & _ & Z) & O & _).
  destruct (O _ _ H) as [_ Os]. unfold start_table in Os. unfold recorded_in.
  destruct (tags (history n fresh l)) as [tb|] eqn:E; [eauto|].
  rewrite (Z eq_refl) in H. destruct H.
Qed.

(** *** Tally leaves no orphans and applies the wear verdict *)
Lemma judge_spec : forall worn d ids rm, judge worn d ids = Ok rm ->
  forall i, In i rm <-> In i ids /\ (find (fun p => fst p =? i) d = None \/
     exists k c, find (fun p => fst p =? i) d = Some (k, c) /\ worn c = Ok true).
Proof.
  intros worn d ids. induction ids as [|a ids IH]; intros rm E i; simpl in E.
  - injection E as <-. simpl. tauto.
  - destruct (find (fun p => fst p =? a) d) as [[k c]|] eqn:F.
    + destruct (worn c) as [w|] eqn:Ew; simpl in E; [|discriminate].
      destruct (judge worn d ids) as [r|]; simpl in E; [|discriminate]. injection E as <-.
      specialize (IH r eq_refl i). destruct w.
      * simpl. split.
        -- intros [<-|H]; [split; [auto|]; right; eauto|]. apply IH in H. tauto.
        -- intros [[<-|H] H2]; [auto|]. right. apply IH. auto.
      * simpl. split.
        -- intro H. apply IH in H. tauto.
        -- intros [[<-|H] H2]; [|apply IH; auto]. exfalso. destruct H2 as [H2|(k' & c' & H2 & H3)]; congruence.
    + destruct (judge worn d ids) as [r|]; simpl in E; [|discriminate]. injection E as <-.
      specialize (IH r eq_refl i). simpl. split.
      * intros [<-|H]; [auto|]. apply IH in H. tauto.
      * intros [[<-|H] H2]; [auto|]. right. apply IH. auto.
Qed.

Lemma remove_all_spec : forall n ids s tb, tags s = Some tb -> exists tb',
  remove_all n ids s = (mk_count (Some tb') (filter (fun p => negb (existsb (N.eqb (fst p)) ids)) (observed s)), None) /\
  (forall f u, u <> 0 -> times u (tb' f) =
     if in_region (seq 0 n) f then if in_dec N.eq_dec u ids then 0%nat else times u (tb f) else times u (tb f)).
Proof.
  intros n ids. induction ids as [|i ids IH]; intros s tb E.
  - exists tb. split.
    + simpl. f_equal. destruct s as [tg ob]. simpl in *. subst tg. f_equal. clear. induction ob; simpl; congruence.
    + intros f u _. destruct (in_region (seq 0 n) f); reflexivity.
  - destruct (remove_ok n i s tb E) as (tb1 & E1 & T1 & _).
    destruct (IH (mk_count (Some tb1) (dict_pop i (observed s))) tb1 eq_refl) as (tb2 & E2 & T2).
    exists tb2. split.
    + cbn [remove_all]. rewrite E1, E2. simpl. do 2 f_equal. unfold dict_pop. clear.
      induction (observed s) as [|p d IHd]; simpl; [reflexivity|].
      destruct (fst p =? i) eqn:Ep; simpl; [assumption|].
      destruct (negb (existsb (N.eqb (fst p)) ids)); simpl; congruence.
    + intros f u Hu. rewrite T2, T1 by assumption. destruct (in_region (seq 0 n) f); [|reflexivity].
      destruct (in_dec N.eq_dec u ids), (N.eq_dec u i), (in_dec N.eq_dec u (i :: ids)); simpl in *; try reflexivity;
        exfalso; intuition.
Qed.

Lemma find_key : forall d i, uniq d -> forall k c, find (fun p => fst p =? i) d = Some (k, c) <-> k = i /\ In (i, c) d.
Proof.
  intros d i U k c. split.
  - intro F. destruct (find_some _ _ F) as [H E]. simpl in E. apply N.eqb_eq in E. subst. auto.
  - intros [-> H]. destruct (find (fun p => fst p =? i) d) as [[k' c']|] eqn:F.
    + destruct (find_some _ _ F) as [H' E]. simpl in E. apply N.eqb_eq in E. subst k'.
      rewrite (uniq_eq _ _ _ _ U H H'). reflexivity.
    + pose proof (find_none _ _ F _ H) as N. simpl in N. rewrite N.eqb_refl in N. discriminate.
Qed.

Lemma tally_spec : forall n worn s s', reachable n s -> tally n worn true s = (s', None) ->
  (forall id, id <> 0 -> recorded_in n s' id -> is_observed s' id) /\
  (forall id c, In (id, c) (observed s') -> In (id, c) (observed s)) /\
  (forall id c, id <> 0 -> In (id, c) (observed s) -> recorded_in n s id ->
     (In (id, c) (observed s') <-> worn c <> Ok true)) /\
  (forall id, is_observed s' id -> id <> 0 -> recorded_in n s id -> recorded_in n s' id).
Proof.
  intros n worn s s' Rch E. destruct (reachable_consistent n s Rch) as (K & U & W & Z).
  unfold tally in E. destruct (tags s) as [tb|] eqn:Et.
  - set (ids := nodup N.eq_dec (filter (fun x => 0 <? x) (flat_map tb (seq 0 n)))) in *.
    assert (Hids : forall i, In i ids <-> i <> 0 /\ on_surface n tb i).
    { intro i. unfold ids. rewrite nodup_In. fold (ids_in tb (seq 0 n)). rewrite ids_in_spec. unfold on_surface.
      split; intros [A (f & B & C)]; (split; [assumption|]); exists f; (split; [apply in_seq in B || apply in_seq; lia|assumption]). }
    destruct (judge worn (observed s) ids) as [rm|] eqn:Ej; [|discriminate].
    pose proof (judge_spec _ _ _ _ Ej) as J.
    destruct (remove_all_spec n rm s tb Et) as (tb' & Er & T). rewrite Er in E. injection E as <-.
    assert (Obs : forall i c, In (i, c) (filter (fun p => negb (existsb (N.eqb (fst p)) rm)) (observed s)) <->
       In (i, c) (observed s) /\ ~ In i rm).
    { intros i c. rewrite filter_In. simpl. split; intros [A B]; (split; [assumption|]).
      - intro I. assert (existsb (N.eqb i) rm = true); [|rewrite H in B; discriminate].
        apply existsb_exists. exists i. split; [assumption|apply N.eqb_refl].
      - destruct (existsb (N.eqb i) rm) eqn:X; [|reflexivity]. exfalso. apply B.
        apply existsb_exists in X. destruct X as (x & Hx & Ex). apply N.eqb_eq in Ex. subst. assumption. }
    assert (Surf : forall i, i <> 0 -> (on_surface n tb' i <-> on_surface n tb i /\ ~ In i rm)).
    { intros i Pi. split.
      - intros (f & Hf & Hi). apply times_In in Hi. rewrite T in Hi by assumption.
        assert (Rf : in_region (seq 0 n) f = true) by (apply in_region_In, in_seq; lia). rewrite Rf in Hi.
        destruct (in_dec N.eq_dec i rm); [lia|]. split; [|assumption]. exists f. split; [assumption|]. apply times_In. assumption.
      - intros [(f & Hf & Hi) NI]. exists f. split; [assumption|]. apply times_In. apply times_In in Hi.
        rewrite T by assumption. destruct (in_region (seq 0 n) f); [|assumption].
        destruct (in_dec N.eq_dec i rm); [contradiction|assumption]. }
    assert (RecS : forall i, recorded_in n s i <-> on_surface n tb i).
    { intro i. unfold recorded_in. rewrite Et. split; [intros (t & H & H'); congruence|eauto]. }
    assert (RecS' : forall i d, recorded_in n (mk_count (Some tb') d) i <-> on_surface n tb' i).
    { intros i d. unfold recorded_in. simpl. split; [intros (t & H & H'); congruence|eauto]. }
    split; [|split; [|split]].
    + intros i Pi R. apply RecS' in R. apply Surf in R; [|assumption]. destruct R as [R NI].
      destruct (find (fun p => fst p =? i) (observed s)) as [[k c]|] eqn:F.
      * apply find_key in F; [|assumption]. destruct F as [-> F]. exists c. simpl. apply Obs. auto.
      * exfalso. apply NI, J. split; [apply Hids; auto|auto].
    + intros i c H. simpl in H. apply Obs in H. tauto.
    + intros i c Pi H R. apply RecS in R. simpl. rewrite Obs. rewrite J. split.
      * intros [_ NI] Wn. apply NI. split; [apply Hids; auto|]. right. exists i, c. split; [|assumption].
        apply find_key; auto.
      * intro Wn. split; [assumption|]. intros [_ [Fn|(k & c' & Fs & Wt)]].
        -- apply (find_none _ _ Fn) in H. simpl in H. rewrite N.eqb_refl in H. discriminate.
        -- apply find_key in Fs; [|assumption]. destruct Fs as [-> Fs]. rewrite (uniq_eq _ _ _ _ U H Fs) in Wn. contradiction.
    + intros i [c H] Pi R. simpl in H. apply Obs in H. apply RecS'. apply Surf; [assumption|]. apply RecS in R. tauto.
  - injection E as <-. rewrite (Z eq_refl). split; [|split; [|split]].
    + intros i _ (t & H & _). congruence.
    + intros i c [].
    + intros i c _ [].
    + intros i [c H]. rewrite (Z eq_refl) in H. destruct H.
Qed.

(** *** C42 *)
Lemma add_spec : forall n c s, reachable n s -> cid c <> 0 ->
  let s' := fst (add n c s) in
  (forall id v, id <> cid c -> In (id, v) (observed s') -> In (id, v) (observed s)) /\
  (forall id v, id <> cid c -> In (id, v) (observed s) -> ~ In (id, v) (observed s') ->
     cdiam v < cdiam c /\ ~ recorded_in n s' id).
Proof.
  intros n c s Rch Pc. cbv zeta. destruct (reachable_consistent n s Rch) as (K & U & W & Z).
  destruct (add_cases n c s) as [->|rg tb Er Et NS ->|rg tb Er Et OS Ei ->|rg tb inner tb' d' Er Et OS Ei Ec ->].
  - split; [auto|]. intros; contradiction.
  - simpl. split; [auto|]. intros; contradiction.
  - simpl. split; intros id v Ne H.
    + apply dict_set_other in H; assumption.
    + intro N. exfalso. apply N. apply dict_set_other; assumption.
  - simpl. pose proof (dict_set_keyed c _ K) as K'.
    destruct (cookie_spec _ _ _ _ _ _ _ (fun i Hi => removes_pos _ _ _ _ _ K' Hi) Ec) as (T & D & _).
    split; intros id v Ne H.
    + apply D in H. destruct H as [H _]. apply dict_set_other in H; assumption.
    + intro N. assert (H0 : In (id, v) (dict_set (cid c) c (observed s))) by (apply dict_set_other; assumption).
      assert (Q : In id (removes c (ids_in tb inner) (dict_set (cid c) c (observed s))) /\ ~ on_surface n tb' id).
      { destruct (in_dec N.eq_dec id (removes c (ids_in tb inner) (dict_set (cid c) c (observed s)))) as [Y|NY].
        - split; [assumption|]. intro OSi. apply N. apply D. split; [assumption|]. simpl. tauto.
        - exfalso. apply N. apply D. split; [assumption|]. simpl. tauto. }
      destruct Q as [Q NO]. split.
      * destruct (removes_spec _ _ _ _ K' Q) as (v' & Hv & _ & L).
        rewrite (uniq_eq _ _ _ _ (dict_set_uniq (cid c) c _ U) H0 Hv). assumption.
      * unfold recorded_in. simpl. intros (t & E & O). injection E as <-. contradiction.
Qed.

(** When the crater is recorded and its interior is known, every smaller observed
    crater loses its tags in the interior, other tags are untouched by the cut, and
    a smaller crater with no face left is no longer observed. *)
Lemma add_cuts : forall n c s rg inner, reachable n s -> cid c <> 0 ->
  region c = Some rg -> (min_face_for_counting <= List.length rg)%nat -> interior c = Some inner ->
  (exists f, (f < n)%nat /\ In f rg) ->
  snd (add n c s) = None /\
  let s' := fst (add n c s) in
  In (cid c, c) (observed s') /\
  (forall id v, id <> cid c -> In (id, v) (observed s) -> cdiam v < cdiam c -> id <> 0 ->
     (forall f tb', In f inner -> tags s' = Some tb' -> ~ In id (tb' f)) /\
     ((exists f tb', In f inner /\ add_tag rg (Some (cid c)) (tags s) = Some tb' /\ In id (tb' f)) ->
      ~ recorded_in n s' id -> ~ is_observed s' id)) /\
  (exists tb tb', add_tag rg (Some (cid c)) (tags s) = Some tb /\ tags s' = Some tb' /\
     forall f u, u <> 0 -> (u = cid c \/ ~ In f inner \/ ~ (exists v, In (u, v) (observed s) /\ cdiam v < cdiam c)) ->
       times u (tb' f) = times u (tb f)).
Proof.
  intros n c s rg inner Rch Pc Er Lr Ei (f0 & Hf0 & If0). destruct (reachable_consistent n s Rch) as (K & U & W & Z).
  unfold add. rewrite Er. apply Nat.leb_le in Lr. rewrite Lr. rewrite add_tag_start.
  destruct (add_tag_total rg (cid c) (Some (start_table s))) as [tb Et]. rewrite Et.
  assert (OS : on_surface n tb (cid c)).
  { exists f0. split; [assumption|]. destruct (add_tag_row _ _ _ _ _ W Et If0) as (_ & _ & _ & _ & H). assumption. }
  rewrite (proj2 (recorded_spec n tb (cid c)) OS). rewrite Ei. fold (ids_in tb inner).
  destruct (cookie n inner _ tb _) as [tb' d'] eqn:Ec. split; [reflexivity|]. simpl.
  pose proof (dict_set_keyed c _ K) as K'. pose proof (dict_set_uniq (cid c) c _ U) as U'.
  destruct (cookie_spec _ _ _ _ _ _ _ (fun i Hi => removes_pos _ _ _ _ _ K' Hi) Ec) as (T & D & _).
  split; [|split].
  - apply D. split; [apply dict_set_has|]. simpl. intros [H _].
    destruct (removes_spec _ _ _ _ K' H) as (v & Hv & _ & L).
    rewrite (uniq_eq _ _ _ _ U' Hv (dict_set_has (cid c) c (observed s))) in L. lia.
  - intros id v Ne H L Pi. split.
    + intros f tb0 If E0 Hi. injection E0 as <-. apply times_In in Hi. rewrite T in Hi by assumption.
      assert (Rf : in_region inner f = true) by (apply in_region_In; assumption). rewrite Rf in Hi.
      destruct (in_dec N.eq_dec id _) as [Y|NY]; [lia|]. apply NY.
      eapply removes_complete; [assumption|apply dict_set_other; eassumption| |assumption].
      apply ids_in_spec. split; [assumption|]. exists f. split; [assumption|]. apply times_In. assumption.
    + intros (f & tb0 & If & E0 & Hi) NR [v' Hv]. injection E0 as <-. apply D in Hv. destruct Hv as [Hv X]. simpl in X.
      apply X. split.
      * eapply removes_complete; [assumption|apply dict_set_other; eassumption| |assumption].
        apply ids_in_spec. eauto.
      * intro O. apply NR. unfold recorded_in. simpl. eauto.
  - exists tb, tb'. split; [reflexivity|]. split; [reflexivity|].
    intros f u Hu C. rewrite T by assumption. destruct (in_region inner f) eqn:Rf; [|reflexivity].
    apply in_region_In in Rf.
    destruct (in_dec N.eq_dec u _) as [Y|NY]; [|reflexivity]. exfalso.
    destruct (removes_spec _ _ _ _ K' Y) as (v & Hv & _ & L).
    destruct (N.eq_dec u (cid c)) as [->|Ne].
    { rewrite (uniq_eq _ _ _ _ U' Hv (dict_set_has (cid c) c (observed s))) in L. lia. }
    destruct C as [C|[C|C]]; [contradiction|contradiction|]. apply C. exists v. split; [|assumption].
    apply dict_set_other in Hv; assumption.
Qed.

(** ** Witnesses *)
Definition patch : list nat := seq 0 100.
Definition crater_of (id d : N) : crater := mk_crater id d (Some patch) (Some [0%nat; 1%nat]).
Definition nine : list op := map (fun k => OAdd (crater_of (N.of_nat k) 5)) (seq 1 9).

Lemma nine_craters : exists n l id, positive_ids l /\
  is_observed (history n fresh l) id /\ ~ recorded_in n (history n fresh l) id.
Proof.
  exists 100%nat, nine, 1. split; [|split].
  - intros c H. unfold nine in H. apply in_map_iff in H. destruct H as (k & E & Hk). apply in_seq in Hk.
    injection E as <-. simpl. lia.
  - exists (crater_of 1 5). vm_compute. auto.
  - intros (tb & E & O). apply recorded_spec in O.
    assert (X : match tags (history 100 fresh nine) with Some tb => recorded 100 tb 1 | None => true end = false)
      by (vm_compute; reflexivity).
    rewrite E in X. congruence.
Qed.

Lemma full_face_loses : exists rg t tb tb' f u, well_formed tb /\
  add_tag rg (Some t) (Some tb) = Some tb' /\ u <> t /\ u <> 0 /\ In u (tb f) /\ ~ In u (tb' f).
Proof.
  exists [0%nat], 9, (fun _ => [3;4;1;2;5;6;7;8]).
  destruct (add_tag_total [0%nat] 9 (Some (fun _ => [3;4;1;2;5;6;7;8]))) as [tb' E].
  exists tb', 0%nat, 1. repeat split; try discriminate; try assumption.
  - simpl. tauto.
  - unfold add_tag in E. destruct (find _ _) eqn:F in E; [vm_compute in F; discriminate|].
    injection E as <-. vm_compute. intuition discriminate.
Qed.
