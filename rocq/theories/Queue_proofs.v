From Coq Require Import QArith.
From Verif Require Import Common Queue_model Queue_spec.
Import ListNotations.

Lemma disjointb_true a b : disjointb a b = true <-> (forall x, In x a -> ~ In x b).
Proof.
  unfold disjointb. rewrite negb_true_iff. split.
  - intros H x Ha Hb. assert (existsb (fun x => existsb (Nat.eqb x) b) a = true); [|congruence].
    apply existsb_exists. exists x. split; [exact Ha|]. apply existsb_exists. exists x.
    split; [exact Hb|apply Nat.eqb_refl].
  - intros H. destruct (existsb _ a) eqn:E; [|reflexivity]. exfalso.
    apply existsb_exists in E. destruct E as (x & Ha & Hb). apply existsb_exists in Hb.
    destruct Hb as (y & Hb & Hxy). apply Nat.eqb_eq in Hxy. subst y. exact (H x Ha Hb).
Qed.

Definition free (g : geometry) (rn rf : list nat) (c : crater) : Prop :=
  (forall x, In x rn -> ~ In x (nodes g c)) /\ (forall x, In x rf -> ~ In x (faces g c)).

Lemma free_test g rn rf c :
  disjointb rn (nodes g c) && disjointb rf (faces g c) = true <-> free g rn rf c.
Proof. rewrite andb_true_iff, !disjointb_true. reflexivity. Qed.

Lemma peek_prefix g queue : forall rn rf, is_prefix (peek_loop g rn rf queue) queue.
Proof.
  induction queue as [|c q IH]; intros rn rf; simpl; [exists []; reflexivity|].
  destruct (_ && _); [|exists (c :: q); reflexivity].
  destruct (IH (nodes g c ++ rn) (faces g c ++ rf)) as [r E]. exists r. simpl. now rewrite <- E.
Qed.

Lemma peek_free g queue : forall rn rf c, In c (peek_loop g rn rf queue) -> free g rn rf c.
Proof.
  induction queue as [|c0 q IH]; intros rn rf c; simpl; [intros []|].
  destruct (_ && _) eqn:E; [|intros []]. apply free_test in E.
  intros [<-|H]; [exact E|]. apply IH in H. destruct H as [H1 H2]. split.
  - intros x Hx. apply H1. apply in_or_app. now right.
  - intros x Hx. apply H2. apply in_or_app. now right.
Qed.

Lemma free_not_overlap g a rn rf c : free g (nodes g a ++ rn) (faces g a ++ rf) c -> ~ overlap g a c.
Proof.
  intros [H1 H2] [(x & Ha & Hc)|(x & Ha & Hc)].
  - apply (H1 x); [apply in_or_app; now left|exact Hc].
  - apply (H2 x); [apply in_or_app; now left|exact Hc].
Qed.

Lemma peek_pairwise g queue : forall rn rf, pairwise_disjoint g (peek_loop g rn rf queue).
Proof.
  induction queue as [|c0 q IH]; intros rn rf; simpl.
  - intros [|i] j a b _ H; discriminate H.
  - destruct (_ && _) eqn:E.
    + intros i j a b Hij Ha Hb. destruct i as [|i].
      * simpl in Ha. injection Ha as <-. destruct j as [|j]; [lia|]. simpl in Hb.
        apply nth_error_In in Hb. apply peek_free in Hb. eapply free_not_overlap, Hb.
      * destruct j as [|j]; [lia|]. simpl in Ha, Hb.
        eapply (IH _ _ i j); eauto. lia.
    + intros [|i] j a b _ H; discriminate H.
Qed.

(** the crater just after the batch clashes with one in the batch or the reserved sets *)
Lemma peek_maximal g queue : forall rn rf c r,
  queue = peek_loop g rn rf queue ++ c :: r ->
  ~ free g rn rf c \/ exists a, In a (peek_loop g rn rf queue) /\ overlap g a c.
Proof.
  induction queue as [|c0 q IH]; intros rn rf c r H; simpl in *; [discriminate|].
  destruct (_ && _) eqn:E.
  - simpl in H. injection H as H. destruct (IH _ _ _ _ H) as [Hn|(a & Ha & Ho)].
    + (* not free w.r.t. enlarged sets *)
      destruct (disjointb rn (nodes g c) && disjointb rf (faces g c)) eqn:Ec.
      * right. exists c0. split; [now left|].
        apply free_test in Ec. destruct Ec as [F1 F2].
        destruct (disjointb (nodes g c0) (nodes g c)) eqn:D1.
        -- destruct (disjointb (faces g c0) (faces g c)) eqn:D2.
           ++ exfalso. apply Hn. rewrite disjointb_true in D1, D2. split;
                intros x Hx; apply in_app_or in Hx; destruct Hx; auto.
           ++ right. unfold disjointb in D2. apply negb_false_iff, existsb_exists in D2.
              destruct D2 as (x & Hx & Hy). apply existsb_exists in Hy.
              destruct Hy as (y & Hy & Hxy). apply Nat.eqb_eq in Hxy. subst. now exists y.
        -- left. unfold disjointb in D1. apply negb_false_iff, existsb_exists in D1.
           destruct D1 as (x & Hx & Hy). apply existsb_exists in Hy.
           destruct Hy as (y & Hy & Hxy). apply Nat.eqb_eq in Hxy. subst. now exists y.
      * left. intros F. apply free_test in F. congruence.
    + right. exists a. split; [now right|exact Ho].
  - simpl in H. injection H as -> _. left. intros F. apply free_test in F. congruence.
Qed.

Lemma peek_nonempty g c q : exists b, peek_next_batch g (c :: q) = c :: b.
Proof.
  unfold peek_next_batch. simpl. eexists. reflexivity.
Qed.

Lemma batch_spec g queue :
  is_prefix (peek_next_batch g queue) queue /\
  pairwise_disjoint g (peek_next_batch g queue) /\
  (queue <> [] -> peek_next_batch g queue <> []) /\
  (forall c r, queue = peek_next_batch g queue ++ c :: r ->
     exists a, In a (peek_next_batch g queue) /\ overlap g a c).
Proof.
  repeat split.
  - apply peek_prefix.
  - apply peek_pairwise.
  - destruct queue as [|c q]; [congruence|]. destruct (peek_nonempty g c q) as [b E].
    intros _. rewrite E. discriminate.
  - intros c r H. destruct (peek_maximal g queue [] [] c r H) as [Hn|Ha]; [|exact Ha].
    exfalso. apply Hn. split; intros x [].
Qed.

(** *** pop_batch removes exactly a prefix *)
Lemma pop_prefix b r : pop_batch b (b ++ r) = Ok r.
Proof.
  induction b as [|c b IH]; simpl; [reflexivity|]. rewrite Nat.eqb_refl. simpl. exact IH.
Qed.

Lemma enqueue_spec g cs q : enqueue_all g q cs = q ++ filter (emplaceable g) cs.
Proof.
  unfold enqueue_all. revert q. induction cs as [|c cs IH]; intros q; simpl.
  - now rewrite app_nil_r.
  - rewrite IH. destruct (emplaceable g c); [|reflexivity]. now rewrite <- app_assoc.
Qed.

Lemma formed_app a b : formed (a ++ b) = formed a ++ formed b.
Proof. unfold formed. apply flat_map_app. Qed.

Section P.
Variable W : Type.
Variable g : geometry.
Variable form : crater -> W -> result W.
Variable degrade : Q -> Q -> W -> result W.
Variable apply_degradation : W -> result W.
Variable tally : W -> result W.
Variable do_subpixel do_counting : bool.
Variable tally_cadence : nat.
Notation st := (st W).
Notation form_batch := (form_batch W form).
Notation degrade_batch := (degrade_batch W g degrade do_subpixel).
Notation batch_process := (batch_process W g form degrade tally do_subpixel do_counting tally_cadence).
Notation process_queue :=
  (process_queue W g form degrade apply_degradation tally do_subpixel do_counting tally_cadence).
Notation emplace :=
  (emplace W g form degrade apply_degradation tally do_subpixel do_counting tally_cadence).
Notation queue := (queue W).
Notation trace := (trace W).

Lemma call_queue ev op s s' e : call W ev op s = (s', e) ->
  queue s' = queue s /\ trace s' = trace s ++ [ev].
Proof.
  unfold call. destruct (op (world W s)); intros H; injection H as <- <-; auto.
Qed.

Lemma form_batch_spec b : forall s s' e, form_batch b s = (s', e) ->
  queue s' = queue s /\
  match e with
  | None => formed (trace s') = formed (trace s) ++ b
  | Some _ => exists pre c post, b = pre ++ c :: post /\
                formed (trace s') = formed (trace s) ++ pre ++ [c]
  end.
Proof.
  induction b as [|c b IH]; intros s s' e H; simpl in H.
  - injection H as <- <-. split; [reflexivity|]. now rewrite app_nil_r.
  - destruct (call W (Form c) (form c) s) as [s1 [e1|]] eqn:Hc; apply call_queue in Hc;
      destruct Hc as [Hq Ht].
    + injection H as <- <-. split; [exact Hq|]. exists [], c, b. split; [reflexivity|].
      rewrite Ht, formed_app. reflexivity.
    + destruct (IH _ _ _ H) as [Hq' Hf]. split; [congruence|].
      rewrite Ht, formed_app in Hf. simpl in Hf. destruct e as [e|].
      * destruct Hf as (pre & c' & post & -> & Hf). exists (c :: pre), c', post.
        split; [reflexivity|]. rewrite Hf, <- app_assoc. reflexivity.
      * rewrite Hf, <- app_assoc. reflexivity.
Qed.

Lemma degrade_batch_spec b s s' e : degrade_batch b s = (s', e) ->
  queue s' = queue s /\ formed (trace s') = formed (trace s).
Proof.
  unfold Queue_model.degrade_batch. intros H.
  assert (Hid : (s, @None exn) = (s', e) ->
    queue s' = queue s /\ formed (trace s') = formed (trace s))
    by (intros E; injection E as <- <-; auto).
  destruct (do_subpixel && _); [|auto].
  destruct (times g b) as [|t0 [|t1 l]]; auto.
  destruct (Qle_bool _ _); [auto|].
  apply call_queue in H. destruct H as [Hq Ht]. split; [exact Hq|].
  rewrite Ht, formed_app. simpl. apply app_nil_r.
Qed.

(** Main invariant of the loop.  [done] are the craters of completed batches. *)
Lemma batch_process_spec fuel : forall n s, (List.length (queue s) <= fuel)%nat ->
  exists s' e, batch_process fuel n s = inl (s', e) /\
  exists done,
    queue s = done ++ queue s' /\
    match e with
    | None => queue s' = [] /\ formed (trace s') = formed (trace s) ++ done
    | Some _ => exists pre, formed (trace s') = formed (trace s) ++ done ++ pre /\
                  is_prefix pre (queue s') /\ is_prefix pre (peek_next_batch g (queue s'))
    end.
Proof.
  induction fuel as [|fuel IH]; intros n s Hlen.
  - destruct (queue s) as [|c q] eqn:Eq; [|simpl in Hlen; lia].
    exists s, None. simpl. rewrite Eq. split; [reflexivity|]. exists [].
    split; [reflexivity|]. split; [reflexivity|]. now rewrite app_nil_r.
  - destruct (queue s) as [|c q] eqn:Eq.
    { exists s, None. simpl. rewrite Eq. split; [reflexivity|]. exists [].
      split; [reflexivity|]. split; [reflexivity|]. now rewrite app_nil_r. }
    cbn [Queue_model.batch_process]. rewrite Eq.
    set (b := peek_next_batch g (c :: q)).
    destruct (batch_spec g (c :: q)) as ((r & Er) & _ & Hne & _). fold b in Er, Hne.
    destruct (form_batch b s) as [s1 [e1|]] eqn:Hf; apply form_batch_spec in Hf;
      destruct Hf as [Hq1 Hf1].
    + exists s1, (Some e1). split; [reflexivity|]. exists []. rewrite Hq1, Eq.
      split; [reflexivity|]. destruct Hf1 as (pre & c' & post & Eb & Ht).
      exists (pre ++ [c']). split; [exact Ht|].
      assert (Eb' : b = (pre ++ [c']) ++ post) by (rewrite <- app_assoc; exact Eb).
      split.
      * exists (post ++ r). rewrite Er, Eb', <- app_assoc. reflexivity.
      * exists post. exact Eb'.
    + destruct (degrade_batch b s1) as [s2 e2] eqn:Hd. pose proof Hd as Hd'.
      apply degrade_batch_spec in Hd'. destruct Hd' as [Hq2 Hf2].
      destruct e2 as [e2|].
      * exists s2, (Some e2). split; [reflexivity|]. exists []. rewrite Hq2, Hq1, Eq.
        split; [reflexivity|]. exists b. rewrite Hf2, Hf1. split; [reflexivity|].
        split; [exists r; exact Er|exists []; symmetry; apply app_nil_r].
      * assert (Hpop : pop_batch b (queue s2) = Ok r)
          by (rewrite Hq2, Hq1, Eq, Er; apply pop_prefix).
        rewrite Hpop.
        assert (Hlr : (List.length r <= fuel)%nat).
        { destruct b as [|b0 b']; [exfalso; apply Hne; [discriminate|reflexivity]|].
          rewrite Er in Hlen. simpl in Hlen. rewrite app_length in Hlen. lia. }
        assert (G : forall n' s4, queue s4 = r -> formed (trace s4) = formed (trace s) ++ b ->
          exists s' e, batch_process fuel n' s4 = inl (s', e) /\
          exists done, c :: q = done ++ queue s' /\
          match e with
          | None => queue s' = [] /\ formed (trace s') = formed (trace s) ++ done
          | Some _ => exists pre, formed (trace s') = formed (trace s) ++ done ++ pre /\
                  is_prefix pre (queue s') /\ is_prefix pre (peek_next_batch g (queue s'))
          end).
        { intros n' s4 Hq4 Hf4. destruct (IH n' s4) as (s' & e & Hrun & done & Hdone & Hm).
          - rewrite Hq4. exact Hlr.
          - exists s', e. split; [exact Hrun|]. exists (b ++ done).
            split; [rewrite Er, <- app_assoc, <- Hdone, Hq4; reflexivity|].
            rewrite Hf4 in Hm. destruct e as [e|].
            + destruct Hm as (pre & Hm & Hp). exists pre. split; [|exact Hp].
              rewrite Hm, <- !app_assoc. reflexivity.
            + destruct Hm as [Hm1 Hm2]. split; [exact Hm1|].
              rewrite Hm2, <- app_assoc. reflexivity. }
        destruct (do_counting && _).
        -- destruct (call W Tally tally _) as [s4 [e4|]] eqn:Ht; apply call_queue in Ht;
             destruct Ht as [Hq4 Ht4]; simpl in Hq4, Ht4.
           ++ exists s4, (Some e4). split; [reflexivity|]. exists b. rewrite Hq4.
              split; [exact Er|]. exists [].
              rewrite Ht4, formed_app, Hf2, Hf1.
              change (formed [Tally]) with (@nil crater). rewrite !app_nil_r.
              split; [reflexivity|]. split; [exists r; reflexivity|].
              exists (peek_next_batch g r). reflexivity.
           ++ apply G; [exact Hq4|]. rewrite Ht4, formed_app, Hf2, Hf1.
              change (formed [Tally]) with (@nil crater). apply app_nil_r.
        -- apply G; simpl; [reflexivity|congruence].
Qed.

Lemma process_spec s :
  exists s' e, process_queue s = inl (s', e) /\
  exists done,
    queue s = done ++ queue s' /\
    exists pre, formed (trace s') = formed (trace s) ++ done ++ pre /\
      is_prefix pre (peek_next_batch g (queue s')) /\
      (e = None -> queue s' = [] /\ pre = []).
Proof.
  destruct (batch_process_spec (List.length (queue s)) 0 s (le_n _))
    as (s1 & e1 & Hrun & done & Hdone & Hm).
  unfold Queue_model.process_queue. rewrite Hrun. destruct e1 as [e1|].
  - exists s1, (Some e1). split; [reflexivity|]. exists done. split; [exact Hdone|].
    destruct Hm as (pre & Hf & _ & Hp). exists pre. split; [exact Hf|]. split; [exact Hp|discriminate].
  - destruct Hm as [Hq1 Hf1].
    assert (K : forall s2 e2, queue s2 = [] -> formed (trace s2) = formed (trace s) ++ done ->
      exists done0, queue s = done0 ++ queue s2 /\ exists pre,
        formed (trace s2) = formed (trace s) ++ done0 ++ pre /\
        is_prefix pre (peek_next_batch g (queue s2)) /\
        (e2 = @None exn -> queue s2 = [] /\ pre = [])).
    { intros s2 e2 Hq2 Hf2. exists done. rewrite Hq2, <- Hq1. split; [exact Hdone|].
      exists []. rewrite app_nil_r. split; [exact Hf2|].
      split; [eexists; reflexivity|auto]. }
    assert (Kc : forall ev op s2 s3 e3, (formed [ev] = []) ->
       queue s2 = [] -> formed (trace s2) = formed (trace s) ++ done ->
       call W ev op s2 = (s3, e3) ->
       queue s3 = [] /\ formed (trace s3) = formed (trace s) ++ done).
    { intros ev op s2 s3 e3 Hev Hq2 Hf2 Hc. apply call_queue in Hc. destruct Hc as [A B].
      split; [congruence|]. rewrite B, formed_app, Hev, app_nil_r. exact Hf2. }
    destruct do_subpixel.
    + destruct (call W ApplyDegradation apply_degradation s1) as [s2 [e2|]] eqn:H2;
        destruct (Kc ApplyDegradation _ _ _ _ eq_refl Hq1 Hf1 H2) as [Hq2 Hf2].
      * exists s2, (Some e2). split; [reflexivity|]. now apply K.
      * destruct do_counting.
        -- destruct (call W Tally tally s2) as [s3 e3] eqn:H3.
           destruct (Kc Tally _ _ _ _ eq_refl Hq2 Hf2 H3) as [Hq3 Hf3].
           exists s3, e3. split; [reflexivity|]. now apply K.
        -- exists s2, None. split; [reflexivity|]. now apply K.
    + destruct do_counting.
      -- destruct (call W Tally tally s1) as [s3 e3] eqn:H3.
         destruct (Kc Tally _ _ _ _ eq_refl Hq1 Hf1 H3) as [Hq3 Hf3].
         exists s3, e3. split; [reflexivity|]. now apply K.
      -- exists s1, None. split; [reflexivity|]. now apply K.
Qed.

Lemma emplace_spec cs s :
  exists s' e, emplace cs s = inl (s', e) /\
  exists done,
    queue s ++ filter (emplaceable g) cs = done ++ queue s' /\
    exists pre, formed (trace s') = formed (trace s) ++ done ++ pre /\
      is_prefix pre (peek_next_batch g (queue s')) /\
      (e = None -> queue s' = [] /\ pre = []).
Proof.
  unfold Queue_model.emplace. rewrite enqueue_spec.
  destruct (process_spec (mk_st W (queue s ++ filter (emplaceable g) cs) (world W s) (trace s)))
    as (s' & e & H & R). exists s', e. split; [exact H|exact R].
Qed.

Lemma emplace_order cs s s' : emplace cs s = inl (s', None) ->
  queue s' = [] /\
  formed (trace s') = formed (trace s) ++ queue s ++ filter (emplaceable g) cs.
Proof.
  intros H. destruct (emplace_spec cs s) as (s1 & e1 & H1 & done & Hd & pre & Hf & Hp & Hn).
  rewrite H in H1. injection H1 as <- <-. destruct (Hn eq_refl) as [Hq ->].
  split; [exact Hq|]. rewrite Hd, Hq, Hf. now rewrite !app_nil_r.
Qed.

Lemma emplace_total cs s : (forall c w, exists w', form c w = Ok w') ->
  (forall a b w, exists w', degrade a b w = Ok w') ->
  (forall w, exists w', apply_degradation w = Ok w') ->
  (forall w, exists w', tally w = Ok w') ->
  exists s', emplace cs s = inl (s', None).
Proof.
  intros Tf Td Ta Tt.
  assert (Hcall : forall ev op s, (forall w, exists w', op w = Ok w') -> exists s', call W ev op s = (s', None)).
  { intros ev op s0 H. unfold call. destruct (H (world W s0)) as [w' ->]. eauto. }
  assert (Hform : forall b s, exists s', form_batch b s = (s', None)).
  { induction b as [|c b IH]; intros s0; simpl; [eauto|].
    destruct (Hcall (Form c) (form c) s0 (Tf c)) as [s1 ->]. apply IH. }
  assert (Hdeg : forall b s, exists s', degrade_batch b s = (s', None)).
  { intros b s0. unfold Queue_model.degrade_batch. destruct (do_subpixel && _); [|eauto].
    destruct (times g b) as [|t0 [|t1 l]]; eauto.
    destruct (Qle_bool _ _); [eauto|]. apply Hcall. apply Td. }
  assert (Hbp : forall fuel n s, exists r, batch_process fuel n s = r /\
      (forall s' e, r = inl (s', e) -> e = None)).
  { induction fuel as [|fuel IH]; intros n s0; simpl.
    - destruct (queue s0); eexists; split; try reflexivity; intros s' e E; [|discriminate].
      injection E as <- <-. reflexivity.
    - destruct (queue s0) as [|c q] eqn:Eq;
        [eexists; split; [reflexivity|]; intros s' e E; injection E as <- <-; reflexivity|].
      set (b := peek_next_batch g (c :: q)).
      destruct (Hform b s0) as [s1 Hf]. rewrite Hf.
      destruct (Hdeg b s1) as [s2 Hd]. rewrite Hd.
      apply form_batch_spec in Hf. apply degrade_batch_spec in Hd.
      destruct Hf as [Hq1 _], Hd as [Hq2 _]. rewrite Hq2, Hq1, Eq.
      destruct (batch_spec g (c :: q)) as ((r & Er) & _). fold b in Er. rewrite Er, pop_prefix.
      destruct (do_counting && _); [|apply IH].
      destruct (Hcall Tally tally (mk_st W r (world W s2) (trace s2)) Tt) as [s4 ->]. apply IH. }
  destruct (emplace_spec cs s) as (s1 & e1 & H1 & _).
  unfold Queue_model.emplace, Queue_model.process_queue in *.
  set (s0 := mk_st W _ _ _) in *.
  destruct (Hbp (List.length (queue s0)) 0%nat s0) as (r & Hr & Hn). rewrite Hr in *.
  destruct r as [[s2 e2]|[]]; [|discriminate].
  rewrite (Hn s2 e2 eq_refl) in *.
  destruct do_subpixel.
  - destruct (Hcall ApplyDegradation apply_degradation s2 Ta) as [s3 Hs3]. rewrite Hs3.
    destruct do_counting; [|eauto].
    destruct (Hcall Tally tally s3 Tt) as [s4 ->]. eauto.
  - destruct do_counting; [|eauto].
    destruct (Hcall Tally tally s2 Tt) as [s4 ->]. eauto.
Qed.

(** If consecutive craters of the queue overlap, every batch is a singleton, so
    at most the failing crater itself is repeated. *)
Lemma singleton_batches q : (forall i a b, nth_error q i = Some a -> nth_error q (S i) = Some b -> overlap g a b) ->
  (List.length (peek_next_batch g q) <= 1)%nat.
Proof.
  intros H. destruct (batch_spec g q) as ((r & Er) & Hp & _ & _).
  destruct (peek_next_batch g q) as [|a [|b l]]; simpl; try lia.
  exfalso. apply (Hp 0%nat 1%nat a b); [lia|reflexivity|reflexivity|].
  rewrite Er in H. apply (H 0%nat); reflexivity.
Qed.

(** *** Degradation intervals *)
Lemma qmax_in l : forall d, In (qmax l d) (d :: l).
Proof.
  unfold qmax. induction l as [|x l IH]; intros d; simpl; [auto|].
  destruct (IH (if Qle_bool d x then x else d)) as [H|H]; [|auto].
  destruct (Qle_bool d x); auto.
Qed.
Lemma qmin_in l : forall d, In (qmin l d) (d :: l).
Proof.
  unfold qmin. induction l as [|x l IH]; intros d; simpl; [auto|].
  destruct (IH (if Qle_bool x d then x else d)) as [H|H]; [|auto].
  destruct (Qle_bool x d); auto.
Qed.

Lemma times_In b t : In t (times g b) <-> has_time g b t.
Proof.
  unfold times, has_time. rewrite in_flat_map. split.
  - intros (c & Hc & Ht). exists c. split; [exact Hc|].
    destruct (time g c) as [t'|]; [|destruct Ht]. destruct Ht as [->|[]]. reflexivity.
  - intros (c & Hc & Ht). exists c. split; [exact Hc|]. rewrite Ht. now left.
Qed.

Lemma degraded_app a b : degraded (a ++ b) = degraded a ++ degraded b.
Proof. unfold degraded. apply flat_map_app. Qed.

Lemma form_batch_degraded b : forall s s' e, form_batch b s = (s', e) ->
  degraded (trace s') = degraded (trace s).
Proof.
  induction b as [|c b IH]; intros s s' e H; simpl in H.
  - injection H as <- <-. reflexivity.
  - destruct (call W (Form c) (form c) s) as [s1 [e1|]] eqn:Hc; apply call_queue in Hc;
      destruct Hc as [Hq Ht].
    + injection H as <- <-. rewrite Ht, degraded_app. apply app_nil_r.
    + apply IH in H. rewrite H, Ht, degraded_app. apply app_nil_r.
Qed.

Lemma degrade_batch_degraded b s s' e : degrade_batch b s = (s', e) ->
  exists D, degraded (trace s') = degraded (trace s) ++ D /\
  (D = [] \/ exists t1 t2, D = [(t1, t2)] /\ (t2 < t1)%Q /\ has_time g b t1 /\ has_time g b t2).
Proof.
  unfold Queue_model.degrade_batch. intros H.
  assert (Hid : (s, @None exn) = (s', e) -> exists D, degraded (trace s') = degraded (trace s) ++ D /\
  (D = [] \/ exists t1 t2, D = [(t1, t2)] /\ (t2 < t1)%Q /\ has_time g b t1 /\ has_time g b t2))
    by (intros E; injection E as <- <-; exists []; rewrite app_nil_r; auto).
  destruct (do_subpixel && _); [|auto].
  destruct (times g b) as [|t0 [|t1 l]] eqn:Et; auto.
  destruct (Qle_bool _ _) eqn:Eq; [auto|].
  apply call_queue in H. destruct H as [_ Ht]. rewrite Ht, degraded_app.
  exists (degraded [Degrade (qmax (t1 :: l) t0) (qmin (t1 :: l) t0)]).
  split; [reflexivity|]. right. eexists; eexists. split; [reflexivity|]. split.
  - destruct (Qlt_le_dec (qmin (t1 :: l) t0) (qmax (t1 :: l) t0)) as [Hlt|Hle]; [exact Hlt|].
    exfalso. apply Qle_bool_iff in Hle. congruence.
  - split; apply times_In; rewrite Et.
    + destruct (qmax_in (t1 :: l) t0) as [<-|Hi]; [now left|now right].
    + destruct (qmin_in (t1 :: l) t0) as [<-|Hi]; [now left|now right].
Qed.

Lemma has_time_app l r t : has_time g (l ++ r) t <-> has_time g l t \/ has_time g r t.
Proof.
  unfold has_time. split.
  - intros (c & Hc & Ht). apply in_app_or in Hc. destruct Hc; [left|right]; eauto.
  - intros [(c & Hc & Ht)|(c & Hc & Ht)]; exists c; split; auto; apply in_or_app; auto.
Qed.

Lemma ordered_cross l r t1 t2 : time_ordered g (l ++ r) -> has_time g l t1 -> has_time g r t2 ->
  (t2 <= t1)%Q.
Proof.
  intros H (a & Ha & Ta) (b & Hb & Tb).
  apply In_nth_error in Ha. apply In_nth_error in Hb. destruct Ha as [i Hi], Hb as [j Hj].
  assert (Hil : (i < List.length l)%nat) by (apply nth_error_Some; congruence).
  destruct (H i (List.length l + j)%nat a b) as (ta & tb & E1 & E2 & Hle).
  - lia.
  - rewrite nth_error_app1 by exact Hil. exact Hi.
  - rewrite nth_error_app2 by lia. replace (_ + j - _)%nat with j by lia. exact Hj.
  - congruence.
Qed.

Lemma ordered_tail l r : time_ordered g (l ++ r) -> time_ordered g r.
Proof.
  intros H i j a b Hij Ha Hb.
  apply (H (List.length l + i)%nat (List.length l + j)%nat); [lia| |];
    rewrite nth_error_app2 by lia.
  - replace (_ + i - _)%nat with i by lia. exact Ha.
  - replace (_ + j - _)%nat with j by lia. exact Hb.
Qed.

Lemma FOP_app {A} (R : A -> A -> Prop) l1 l2 : ForallOrdPairs R l1 -> ForallOrdPairs R l2 ->
  (forall x y, In x l1 -> In y l2 -> R x y) -> ForallOrdPairs R (l1 ++ l2).
Proof.
  intros H1 H2 H. induction H1 as [|a l Ha Hl IH]; [exact H2|]. simpl. constructor.
  - apply Forall_app. split; [exact Ha|]. apply Forall_forall. intros y Hy. apply H; [now left|exact Hy].
  - apply IH. intros x y Hx Hy. apply H; [now right|exact Hy].
Qed.

Lemma batch_process_degraded fuel : forall n s s' e,
  time_ordered g (queue s) -> batch_process fuel n s = inl (s', e) ->
  exists D, degraded (trace s') = degraded (trace s) ++ D /\ no_double_degradation g (queue s) D.
Proof.
  assert (Hnil : forall q, no_double_degradation g q []).
  { intros q. split; [intros a b []|constructor]. }
  induction fuel as [|fuel IH]; intros n s s' e Ho H.
  - simpl in H. destruct (queue s); [|discriminate]. injection H as <- <-. exists [].
    rewrite app_nil_r. auto.
  - cbn [Queue_model.batch_process] in H. destruct (queue s) as [|c q] eqn:Eq.
    { injection H as <- <-. exists []. rewrite app_nil_r. auto. }
    set (b := peek_next_batch g (c :: q)) in *.
    destruct (batch_spec g (c :: q)) as ((r & Er) & _). fold b in Er.
    destruct (form_batch b s) as [s1 e1] eqn:Hf. pose proof (form_batch_degraded _ _ _ _ Hf) as Hd1.
    apply form_batch_spec in Hf. destruct Hf as [Hq1 _].
    destruct e1 as [e1|].
    { injection H as <- <-. exists []. rewrite app_nil_r. auto. }
    destruct (degrade_batch b s1) as [s2 e2] eqn:Hd. pose proof (degrade_batch_degraded _ _ _ _ Hd) as (D & HD & HDs).
    apply degrade_batch_spec in Hd. destruct Hd as [Hq2 _].
    assert (HDn : no_double_degradation g b D).
    { destruct HDs as [->|(t1 & t2 & -> & Hlt & H1 & H2)]; [apply Hnil|]. split.
      - intros x y [E|[]]. injection E as <- <-. auto.
      - repeat constructor. }
    assert (Hup : forall D', no_double_degradation g b D' -> no_double_degradation g (c :: q) D').
    { intros D' [A B]. split; [|exact B]. intros x y Hxy. destruct (A x y Hxy) as (A1 & A2 & A3).
      split; [exact A1|]. rewrite Er. split; apply has_time_app; now left. }
    destruct e2 as [e2|].
    { injection H as <- <-. exists D. rewrite HD, Hd1. auto. }
    assert (Hpop : pop_batch b (queue s2) = Ok r)
          by (rewrite Hq2, Hq1, Eq, Er; apply pop_prefix).
    rewrite Hpop in H.
    assert (G : forall n' s4, queue s4 = r -> degraded (trace s4) = degraded (trace s) ++ D ->
      batch_process fuel n' s4 = inl (s', e) ->
      exists D, degraded (trace s') = degraded (trace s) ++ D /\ no_double_degradation g (c :: q) D).
    { intros n' s4 Hq4 Hd4 Hrun. destruct (IH n' s4 s' e) as (D2 & HD2 & HN2).
      - rewrite Hq4. apply (ordered_tail b). rewrite <- Er. exact Ho.
      - exact Hrun.
      - exists (D ++ D2). rewrite HD2, Hd4, app_assoc. split; [reflexivity|].
        rewrite Hq4 in HN2. destruct (Hup D HDn) as [A1 B1]. destruct HN2 as [A2 B2].
        destruct HDn as [A0 _]. split.
        + intros x y Hxy. apply in_app_or in Hxy. destruct Hxy as [Hxy|Hxy]; [auto|].
          destruct (A2 x y Hxy) as (C1 & C2 & C3). split; [exact C1|]. rewrite Er.
          split; apply has_time_app; now right.
        + apply FOP_app; [exact B1|exact B2|]. intros [x1 y1] [x2 y2] H1 H2. simpl.
          apply (ordered_cross b r); [rewrite <- Er; exact Ho|apply (A0 _ _ H1)|apply (A2 _ _ H2)]. }
    destruct (do_counting && _).
    + destruct (call W Tally tally _) as [s4 [e4|]] eqn:Ht; apply call_queue in Ht;
        destruct Ht as [Hq4 Ht4]; simpl in Hq4, Ht4.
      * injection H as <- <-. exists D. rewrite Ht4, degraded_app, HD, Hd1.
        change (degraded [Tally]) with (@nil (Q * Q)). rewrite app_nil_r. auto.
      * apply (G 0%nat s4 Hq4); [|exact H]. rewrite Ht4, degraded_app, HD, Hd1.
        change (degraded [Tally]) with (@nil (Q * Q)). apply app_nil_r.
    + apply (G (n + List.length b)%nat (mk_st W r (world W s2) (trace s2)) eq_refl); [|exact H].
      simpl. rewrite HD, Hd1. reflexivity.
Qed.

Lemma emplace_degraded cs s s' e :
  time_ordered g (queue s ++ filter (emplaceable g) cs) -> emplace cs s = inl (s', e) ->
  exists D, degraded (trace s') = degraded (trace s) ++ D /\
    no_double_degradation g (queue s ++ filter (emplaceable g) cs) D.
Proof.
  unfold Queue_model.emplace, Queue_model.process_queue. rewrite enqueue_spec. intros Ho H.
  set (s0 := mk_st W (queue s ++ filter (emplaceable g) cs) (world W s) (trace s)) in *.
  destruct (batch_process (List.length (queue s0)) 0 s0) as [[s1 e1]|] eqn:Hb; [|discriminate].
  apply batch_process_degraded in Hb; [|exact Ho]. destruct Hb as (D & HD & HN).
  exists D. split; [|exact HN]. simpl in HD.
  assert (Kc : forall ev op s2 s3 e3, degraded [ev] = [] ->
     call W ev op s2 = (s3, e3) -> degraded (trace s3) = degraded (trace s2)).
  { intros ev op s2 s3 e3 Hev Hc. apply call_queue in Hc. destruct Hc as [_ B].
    rewrite B, degraded_app, Hev. apply app_nil_r. }
  destruct e1 as [e1|]; [injection H as <- <-; exact HD|].
  destruct do_subpixel.
  - destruct (call W ApplyDegradation apply_degradation s1) as [s2 [e2|]] eqn:H2;
      apply Kc in H2; try reflexivity.
    + injection H as <- <-. congruence.
    + destruct do_counting; [|injection H as <- <-; congruence].
      injection H as H. apply Kc in H; [congruence|reflexivity].
  - destruct do_counting; [|injection H as <- <-; congruence].
    injection H as H. apply Kc in H; [congruence|reflexivity].
Qed.
End P.

(** *** Concrete cases *)
(** Craters 1 and 2 are apart; 3 overlaps 1; 4 is too small. *)
Definition g0 : geometry := {|
  emplaceable := fun c => negb (Nat.eqb c 4);
  nodes := fun c => match c with 1 => [10; 11] | 2 => [20] | 3 => [11; 30] | _ => [] end;
  faces := fun c => match c with 1 => [1] | 2 => [2] | 3 => [3] | _ => [] end;
  time := fun c => match c with 1 => Some 30%Q | 2 => Some 20%Q | 3 => Some 10%Q | _ => None end |}%nat.

(** A world that counts; forming crater 2 fails while the counter is 1, as when
    a transient error occurs. *)
Definition form_flaky (c : crater) (w : nat) : result nat :=
  if (Nat.eqb c 2 && Nat.eqb w 1)%bool then Err ValueError else Ok (S w).
Definition form_ok (c : crater) (w : nat) : result nat := Ok (S w).
Definition noop (w : nat) : result nat := Ok w.
Definition deg0 (a b : Q) (w : nat) : result nat := Ok w.

Definition run (frm : crater -> nat -> result nat) (cs : list crater) (s : st nat) :=
  emplace nat g0 frm deg0 noop noop true false 2000%nat cs s.
Definition start : st nat := mk_st nat [] 0%nat [].
