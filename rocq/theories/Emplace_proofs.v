(** Proofs about the emplacement calls. *)
From Verif Require Import Common Queue_model Queue_spec Queue_proofs Emplace_model Emplace_spec.
Import ListNotations.

Section P.
Variables S V : Type.
Variable zero : V -> bool.
Variable g : geometry.
Variable large : crater -> bool.
Variable excavate : crater -> S -> result (S * V).
Variable count : crater -> S -> result S.
Variable eject : crater -> V -> S -> result S.
Variable soften : crater -> S -> result S.
Variable degrade : list crater -> S -> result S.
Variable finish : S -> result S.
Variable tally : bool -> S -> result S.
Variables do_subpixel do_counting : bool.
Variable cadence : nat.
Variable convert : nat -> item -> result crater.
Variable create : result crater.

Local Notation st := (Emplace_model.st S V).
Local Notation mk := (Emplace_model.mk S V).
Local Notation q := (Emplace_model.queue S V).
Local Notation surf := (Emplace_model.surf S V).
Local Notation volume := (Emplace_model.volume S V).
Local Notation emplaced := (Emplace_model.emplaced S V).
Local Notation log := (Emplace_model.log S V).
Local Notation on_surf := (Emplace_model.on_surf S V).
Local Notation form_ejecta := (Emplace_model.form_ejecta S V zero eject soften).
Local Notation form_crater := (Emplace_model.form_crater S V zero g large excavate count eject soften do_counting).
Local Notation form_batch := (Emplace_model.form_batch S V zero g large excavate count eject soften do_counting).
Local Notation do_tally := (Emplace_model.do_tally S V tally).
Local Notation batch_process := (Emplace_model.batch_process S V zero g large excavate count eject soften degrade tally do_subpixel do_counting cadence).
Local Notation process_queue := (Emplace_model.process_queue S V zero g large excavate count eject soften degrade finish tally do_subpixel do_counting cadence).
Local Notation emplace := (Emplace_model.emplace S V zero g large excavate count eject soften degrade finish tally do_subpixel do_counting cadence convert create).
Local Notation step := (Emplace_model.step S V zero g large excavate count eject soften degrade finish tally do_subpixel do_counting cadence convert create).
Local Notation session := (Emplace_model.session S V zero g large excavate count eject soften degrade finish tally do_subpixel do_counting cadence convert create).
Local Notation formable := (Emplace_spec.formable g large).

(** How a stretch of the log looks when every blanket follows its excavation, and
    which craters it adds to the emplaced list. *)
Inductive wf : list crater -> list (event V) -> Prop :=
| wf_nil : wf [] []
| wf_dug D L c v : wf D L -> wf (D ++ [c])%list (L ++ [Dug c v])%list
| wf_both D L c v : wf D L -> wf (D ++ [c])%list (L ++ [Dug c v; Thrown c v])%list
| wf_tally D L b : wf D L -> wf D (L ++ [Tallied b])%list.

Lemma wf_app D1 L1 D2 L2 : wf D1 L1 -> wf D2 L2 -> wf (D1 ++ D2)%list (L1 ++ L2)%list.
Proof.
  intros H1 H2. induction H2.
  - now rewrite !app_nil_r.
  - rewrite !app_assoc. now constructor.
  - rewrite !app_assoc. now constructor.
  - rewrite !app_assoc. now constructor.
Qed.

Definition upd (o : option V) (L : list (event V)) : option V :=
  fold_left (fun o e => match e with Dug _ v => Some v | _ => o end) L o.
Lemma upd_app o L1 L2 : upd o (L1 ++ L2)%list = upd (upd o L1) L2.
Proof. unfold upd. apply fold_left_app. Qed.

Definition grow (s s' : st) : Prop :=
  exists D L, emplaced s' = (emplaced s ++ D)%list /\ log s' = (log s ++ L)%list /\
    wf D L /\ volume s' = upd (volume s) L.

Lemma grow_refl s : grow s s.
Proof. exists [], []. rewrite !app_nil_r. repeat split. constructor. Qed.
Lemma grow_trans a b c : grow a b -> grow b c -> grow a c.
Proof.
  intros (D1 & L1 & E1 & G1 & W1 & U1) (D2 & L2 & E2 & G2 & W2 & U2).
  exists (D1 ++ D2)%list, (L1 ++ L2)%list. rewrite E2, E1, G2, G1, U2, U1, !app_assoc, upd_app.
  repeat split. now apply wf_app.
Qed.
(** Only these three parts matter. *)
Lemma grow_ext a b c : grow a b -> emplaced c = emplaced b -> log c = log b -> volume c = volume b -> grow a c.
Proof. intros (D & L & A & B & C & E) F G H. exists D, L. rewrite F, G, H. auto. Qed.

Lemma on_surf_spec op s s' e : on_surf op s = (s', e) ->
  q s' = q s /\ emplaced s' = emplaced s /\ log s' = log s /\ volume s' = volume s.
Proof.
  unfold Emplace_model.on_surf. destruct (op (surf s)); intros H; injection H as <- <-; cbn; auto.
Qed.
Lemma on_surf_grow op s s' e : on_surf op s = (s', e) -> grow s s'.
Proof.
  intros H. apply on_surf_spec in H as (_ & A & B & C). exact (grow_ext s s s' (grow_refl s) A B C).
Qed.

Lemma form_ejecta_spec c s s' e : form_ejecta c s = (s', e) ->
  q s' = q s /\ emplaced s' = emplaced s /\ volume s' = volume s /\
  ((log s' = log s /\ e <> None) \/
   exists v, volume s = Some v /\ zero v = false /\ log s' = (log s ++ [Thrown c v])%list).
Proof.
  unfold Emplace_model.form_ejecta. destruct (volume s) as [v|] eqn:EV.
  - destruct (zero v) eqn:Z; [intros H; injection H as <- <-; repeat split; auto; left; split; [auto|discriminate]|].
    destruct (eject c v (surf s)) as [w|x].
    + intros H. apply on_surf_spec in H as (A & B & C & D). cbn in A, B, C, D. rewrite A, B, C, D.
      repeat split; auto. right. exists v. auto.
    + intros H; injection H as <- <-. repeat split; auto. left; split; [auto|discriminate].
  - intros H; injection H as <- <-. repeat split; auto. left; split; [auto|discriminate].
Qed.

Lemma form_crater_spec c s s' e : form_crater c s = (s', e) ->
  q s' = q s /\ grow s s' /\
  (e = None -> emplaced s' = (emplaced s ++ filter formable [c])%list) /\
  tallies (log s') = tallies (log s).
Proof.
  unfold Emplace_model.form_crater, Emplace_spec.formable. cbn [filter].
  destruct (emplaceable g c); cbn [negb andb].
  2:{ intros H; injection H as <- <-. rewrite app_nil_r. repeat split; auto using grow_refl. }
  destruct (large c).
  2:{ intros H; injection H as <- <-. rewrite app_nil_r. repeat split; auto using grow_refl. }
  destruct (excavate c (surf s)) as [[w v]|x].
  2:{ intros H; injection H as <- <-. repeat split; auto using grow_refl. discriminate. }
  set (s1 := mk (q s) w (Some v) (emplaced s ++ [c])%list (log s ++ [Dug c v])%list).
  intros H.
  assert (N : exists s2 e2, (if do_counting then on_surf (count c) s1 else (s1, None)) = (s2, e2) /\
    q s2 = q s /\ emplaced s2 = (emplaced s ++ [c])%list /\ log s2 = (log s ++ [Dug c v])%list /\ volume s2 = Some v).
  { destruct do_counting.
    - destruct (on_surf (count c) s1) as [s2 e2] eqn:E. apply on_surf_spec in E as (A & B & C & D).
      cbn in A, B, C, D. exists s2, e2. auto.
    - exists s1, None. cbn. auto. }
  destruct N as (s2 & e2 & E2 & A & B & C & D). rewrite E2 in H. destruct e2 as [x|]; cbn in H.
  - injection H as <- <-. split; [exact A|]. split; [|split; [discriminate|]].
    + exists [c], [Dug c v]. repeat split; auto. exact (wf_dug [] [] c v wf_nil).
    + rewrite C. unfold tallies. rewrite flat_map_app. cbn. now rewrite app_nil_r.
  - apply form_ejecta_spec in H as (A' & B' & D' & [[G Ne]|(v' & Ev & _ & G)]).
    + split; [congruence|]. split; [|split; [congruence|]].
      * exists [c], [Dug c v]. rewrite B', G, D'. repeat split; auto. exact (wf_dug [] [] c v wf_nil).
      * rewrite G, C. unfold tallies. rewrite flat_map_app. cbn. now rewrite app_nil_r.
    + assert (v' = v) by congruence. subst v'.
      split; [congruence|]. split; [|split; [congruence|]].
      * exists [c], [Dug c v; Thrown c v]. rewrite B', G, D', C, <- app_assoc. repeat split; auto.
        exact (wf_both [] [] c v wf_nil).
      * rewrite G, C. unfold tallies. rewrite !flat_map_app. cbn. now rewrite !app_nil_r.
Qed.

Lemma next_spec (o : outcome S V) k s' e : next S V o k = (s', e) ->
  (exists x, o = (s', Some x) /\ e = Some x) \/ (exists s1, o = (s1, None) /\ k s1 = (s', e)).
Proof.
  destruct o as [s1 [x|]]; cbn; intros H.
  - injection H as <- <-. left. eauto.
  - right. eauto.
Qed.

Lemma form_batch_spec b : forall s s' e, form_batch b s = (s', e) ->
  q s' = q s /\ grow s s' /\
  (e = None -> emplaced s' = (emplaced s ++ filter formable b)%list) /\
  tallies (log s') = tallies (log s).
Proof.
  induction b as [|c b IH]; intros s s' e H.
  - injection H as <- <-. cbn. rewrite app_nil_r. auto using grow_refl.
  - cbn [Emplace_model.form_batch] in H. apply next_spec in H as [(x & H & ->)|(s1 & H1 & H2)].
    + apply form_crater_spec in H as (A & B & C & D). repeat split; auto; discriminate.
    + apply form_crater_spec in H1 as (A & B & C & D). apply IH in H2 as (A' & B' & C' & D').
      split; [congruence|]. split; [exact (grow_trans _ _ _ B B')|]. split; [|congruence].
      intros E. rewrite (C' E), (C eq_refl), <- app_assoc, <- filter_app. reflexivity.
Qed.

Lemma do_tally_spec rim s s' e : do_tally rim s = (s', e) ->
  q s' = q s /\ grow s s' /\ emplaced s' = emplaced s /\
  tallies (log s') = (tallies (log s) ++ [rim])%list.
Proof.
  unfold Emplace_model.do_tally. intros H. apply on_surf_spec in H as (A & B & C & D). cbn in A, B, C, D.
  split; [exact A|]. split.
  - exists [], [Tallied rim]. rewrite app_nil_r. repeat split; auto. exact (wf_tally [] [] rim wf_nil).
  - split; [exact B|]. rewrite C. unfold tallies. rewrite flat_map_app. reflexivity.
Qed.

(** [k] tallies during the loop: the first with the keyword, the others without. *)
Definition flags (rim : bool) (k : nat) : list bool :=
  match k with O => [] | Datatypes.S k => rim :: repeat false k end.
Definition left_over (rim : bool) (k : nat) : bool := match k with O => rim | _ => false end.

Lemma flags_false k : flags false k = repeat false k.
Proof. destruct k; reflexivity. Qed.
Lemma left_false k : left_over false k = false.
Proof. destruct k; reflexivity. Qed.

Lemma batch_process_spec fuel : forall n rim s, (List.length (q s) <= fuel)%nat ->
  exists s' e rim', batch_process fuel n rim s = Some ((s', e), rim') /\ grow s s' /\
  (e = None -> q s' = [] /\ emplaced s' = (emplaced s ++ filter formable (q s))%list /\
     exists k, tallies (log s') = (tallies (log s) ++ flags rim k)%list /\ rim' = left_over rim k /\
       (do_counting = false -> k = 0%nat) /\
       (k * cadence <= n + List.length (q s))%nat /\
       (do_counting = true -> k = 0%nat -> q s = [] \/ n + List.length (q s) < cadence)%nat).
Proof.
  induction fuel as [|fuel IH]; intros n rim s Hf; cbn [Emplace_model.batch_process];
    destruct (q s) as [|c0 r0] eqn:Eq.
  - exists s, None, rim. split; [reflexivity|]. split; [apply grow_refl|]. intros _. cbn [filter].
    rewrite !app_nil_r. split; [exact Eq|]. split; [reflexivity|]. exists 0%nat. cbn.
    rewrite app_nil_r. repeat split; auto; lia.
  - cbn in Hf. lia.
  - exists s, None, rim. split; [reflexivity|]. split; [apply grow_refl|]. intros _. cbn [filter].
    rewrite !app_nil_r. split; [exact Eq|]. split; [reflexivity|]. exists 0%nat. cbn.
    rewrite app_nil_r. repeat split; auto; lia.
  - destruct (batch_spec g (c0 :: r0)) as ((r & Er) & _ & Hn & _).
    specialize (Hn ltac:(discriminate)).
    set (b := peek_next_batch g (c0 :: r0)) in *. clearbody b.
    destruct (next S V (form_batch b s) (fun s1 => if do_subpixel then on_surf (degrade b) s1 else (s1, None)))
      as [s2 e2] eqn:E2.
    assert (F : q s2 = q s /\ grow s s2 /\ (e2 = None -> emplaced s2 = (emplaced s ++ filter formable b)%list) /\
                tallies (log s2) = tallies (log s)).
    { apply next_spec in E2 as [(x & H & ->)|(s1 & H1 & H2)].
      - apply form_batch_spec in H as (A & B & C & D). repeat split; auto; discriminate.
      - apply form_batch_spec in H1 as (A & B & C & D). destruct do_subpixel.
        + pose proof (on_surf_grow _ _ _ _ H2) as G. apply on_surf_spec in H2 as (A' & B' & C' & D').
          split; [congruence|]. split; [exact (grow_trans _ _ _ B G)|]. split; [|congruence].
          intros _. rewrite B'. apply C. reflexivity.
        + injection H2 as <- <-. auto. }
    destruct F as (A & B & C & D). destruct e2 as [x|].
    { exists s2, (Some x), rim. split; [reflexivity|]. split; [exact B|]. discriminate. }
    specialize (C eq_refl). rewrite A, Eq, Er, pop_prefix.
    set (s3 := mk r (surf s2) (volume s2) (emplaced s2) (log s2)).
    assert (G3 : grow s s3) by (apply (grow_ext s s2 s3 B); reflexivity).
    assert (Hlen : (List.length (q s3) <= fuel)%nat).
    { cbn [Emplace_model.queue s3]. apply (f_equal (@List.length _)) in Er. rewrite app_length in Er.
      cbn in Er, Hf. destruct b; [congruence|]. cbn in Er. lia. }
    assert (Hlen' : (List.length (c0 :: r0) = List.length b + List.length r)%nat).
    { rewrite Er, app_length. reflexivity. }
    rewrite app_length. set (m := (n + List.length b)%nat).
    destruct (do_counting && (cadence <=? m)%nat) eqn:Ec.
    + apply andb_true_iff in Ec as [Ec1 Ec2]. apply Nat.leb_le in Ec2.
      destruct (do_tally rim s3) as [s4 e4] eqn:E4. apply do_tally_spec in E4 as (A4 & B4 & C4 & D4).
      cbn in A4, C4. change (log s3) with (log s2) in D4.
      destruct e4 as [x|].
      { exists s4, (Some x), false. split; [reflexivity|]. split; [exact (grow_trans _ _ _ G3 B4)|]. discriminate. }
      destruct (IH 0%nat false s4) as (s' & e & rim' & H & G & K); [rewrite A4; exact Hlen|].
      exists s', e, rim'. split; [exact H|].
      split; [exact (grow_trans _ _ _ (grow_trans _ _ _ G3 B4) G)|].
      intros Ee. destruct (K Ee) as (Q & M & k & T & Lr & Z & B1 & _).
      split; [exact Q|]. split.
      { rewrite M, C4, C, A4, filter_app, app_assoc. reflexivity. }
      exists (Datatypes.S k). rewrite T, D4, D, flags_false, <- app_assoc. cbn.
      rewrite Lr, left_false. rewrite A4 in B1. unfold m in Ec2.
      split; [reflexivity|]. split; [reflexivity|]. split; [congruence|]. split; [lia|]. intros _ X; discriminate X.
    + destruct (IH m rim s3 Hlen) as (s' & e & rim' & H & G & K).
      exists s', e, rim'. split; [exact H|]. split; [exact (grow_trans _ _ _ G3 G)|].
      intros Ee. destruct (K Ee) as (Q & M & k & T & Lr & Z & B1 & B2).
      cbn in M, B1, B2. change (log s3) with (log s2) in T.
      split; [exact Q|]. split.
      { rewrite M, C, filter_app, app_assoc. reflexivity. }
      exists k. rewrite T, D. repeat split; auto; unfold m in *; [lia|].
      intros Hc Hk. right. rewrite Hc in Ec. cbn in Ec. apply Nat.leb_gt in Ec.
      destruct (B2 Hc Hk) as [E|E]; [rewrite E; cbn; lia|lia].
Qed.

Lemma process_spec rim s :
  exists s' e, process_queue rim s = Some (s', e) /\ grow s s' /\
  (e = None -> q s' = [] /\ emplaced s' = (emplaced s ++ filter formable (q s))%list /\
     exists k, tallies (log s') = (tallies (log s) ++ if do_counting then rim :: repeat false k else [])%list /\
       (k * cadence <= List.length (q s))%nat /\
       (do_counting = true -> k = 0%nat -> q s = [] \/ List.length (q s) < cadence)%nat).
Proof.
  unfold Emplace_model.process_queue.
  destruct (batch_process_spec (List.length (q s)) 0 rim s (le_n _)) as (s1 & e1 & rim' & H & G & K).
  rewrite H.
  destruct (next S V (next S V (s1, e1) _) _) as [s' e] eqn:E. exists s', e. split; [reflexivity|].
  apply next_spec in E as [(x & E & ->)|(s2 & E1 & E2)].
  - apply next_spec in E as [(y & E & Ey)|(s2 & E1 & E2)].
    + injection E as -> ->. split; [exact G|discriminate].
    + injection E1 as -> ->. split; [|discriminate]. destruct do_subpixel.
      * apply on_surf_grow in E2. exact (grow_trans _ _ _ G E2).
      * discriminate.
  - apply next_spec in E1 as [(y & E & Ey)|(s3 & E1 & E3)]; [discriminate|]. injection E1 as -> ->.
    destruct (K eq_refl) as (Q & M & k & T & Lr & Z & B1 & B2).
    assert (F : q s2 = q s3 /\ grow s3 s2 /\ emplaced s2 = emplaced s3 /\ log s2 = log s3).
    { destruct do_subpixel.
      - pose proof (on_surf_grow _ _ _ _ E3). apply on_surf_spec in E3 as (A & B & C & D). auto.
      - injection E3 as <-. auto using grow_refl. }
    destruct F as (F1 & F2 & F3 & F4).
    destruct do_counting.
    + apply do_tally_spec in E2 as (A & B & C & D).
      split; [exact (grow_trans _ _ _ G (grow_trans _ _ _ F2 B))|].
      intros _. split; [congruence|]. split; [congruence|].
      exists k. rewrite D, F4, T, <- app_assoc. repeat split; auto.
      rewrite Lr. f_equal. destruct k; cbn; [reflexivity|].
      f_equal. clear. induction k; cbn; [reflexivity|]. now rewrite IHk.
    + injection E2 as <- <-. split; [exact (grow_trans _ _ _ G F2)|].
      intros _. split; [congruence|]. split; [congruence|]. exists 0%nat.
      rewrite F4, T, (Z eq_refl). cbn. repeat split; auto; lia.
Qed.

Lemma prepare_spec : forall l i cs, prepare convert i l = Ok cs ->
  List.length cs = List.length l /\
  forall j x, nth_error l j = Some x -> exists c, nth_error cs j = Some c /\ stands_for convert (i + j) x c.
Proof.
  induction l as [|x l IH]; intros i cs H; cbn in H.
  - injection H as <-. split; [reflexivity|]. intros [|j] y; discriminate.
  - destruct (prepare1 convert i x) as [c|e] eqn:E; [|discriminate]. cbn in H.
    destruct (prepare convert (Datatypes.S i) l) as [cs'|e] eqn:E'; [|discriminate]. cbn in H.
    injection H as <-. destruct (IH _ _ E') as [A B]. split; [cbn; congruence|].
    intros [|j] y Hy; cbn in Hy.
    + injection Hy as <-. exists c. split; [reflexivity|]. rewrite Nat.add_0_r.
      destruct x; cbn in E |- *; congruence.
    + destruct (B j y Hy) as (c' & C & D). exists c'. split; [exact C|].
      now rewrite <- plus_n_Sm.
Qed.

Lemma accept_spec a cs : accept convert create a = Ok cs -> given convert create a cs.
Proof.
  destruct a as [|x|l|l]; cbn.
  - destruct create; cbn; [|discriminate]. intros H; injection H as <-. eauto.
  - destruct x; cbn; try discriminate.
    + destruct (convert 0 (Plain c)); cbn; [|discriminate]. intros H; injection H as <-. eauto.
    + destruct (convert 0 (Morph c)); cbn; [|discriminate]. intros H; injection H as <-. eauto.
    + intros H; injection H as <-. eauto.
  - destruct l as [|x l]; [discriminate|]. intros H. exact (prepare_spec (x :: l) 0 cs H).
  - destruct l as [|x l]; [discriminate|]. intros H. exact (prepare_spec (x :: l) 0 cs H).
Qed.

Lemma filter_formable l : filter formable (filter (emplaceable g) l) = filter formable l.
Proof.
  induction l as [|c l IH]; cbn; [reflexivity|]. unfold Emplace_spec.formable in *.
  destruct (emplaceable g c) eqn:E; cbn; [|exact IH]. rewrite E. cbn. now rewrite IH.
Qed.

Lemma emplace_spec a rim s :
  exists s' r, emplace a rim s = Some (s', r) /\ grow s s' /\
  (forall cs, r = Ok cs -> given convert create a cs /\ q s' = [] /\
     emplaced s' = (emplaced s ++ filter formable (q s ++ cs))%list /\
     exists k, tallies (log s') = (tallies (log s) ++ if do_counting then rim :: repeat false k else [])%list /\
       let n := List.length (q s ++ filter (emplaceable g) cs) in
       (k * cadence <= n)%nat /\ (do_counting = true -> k = 0%nat -> n = 0 \/ n < cadence)%nat).
Proof.
  unfold Emplace_model.emplace. destruct (accept convert create a) as [cs|x] eqn:Ea.
  2:{ exists s, (Err x). split; [reflexivity|]. split; [apply grow_refl|discriminate]. }
  set (s0 := mk (enqueue_all g (q s) cs) (surf s) (volume s) (emplaced s) (log s)).
  destruct (process_spec rim s0) as (s' & e & H & G & K). rewrite H.
  assert (Q0 : q s0 = (q s ++ filter (emplaceable g) cs)%list) by (cbn; apply enqueue_spec).
  assert (G0 : grow s s').
  { apply (grow_trans s s0 s'); [|exact G].
    apply (grow_ext s s s0 (grow_refl s)); reflexivity. }
  destruct e as [x|].
  { exists s', (Err x). split; [reflexivity|]. split; [exact G0|discriminate]. }
  exists s', (Ok cs). split; [reflexivity|]. split; [exact G0|].
  intros cs' E. injection E as <-. destruct (K eq_refl) as (A & B & k & T & B1 & B2).
  split; [exact (accept_spec _ _ Ea)|]. split; [exact A|]. split.
  - rewrite B, Q0, !filter_app, filter_formable. reflexivity.
  - exists k. rewrite T. cbn zeta. rewrite Q0 in B1, B2. repeat split; auto.
    intros Hc Hk. destruct (B2 Hc Hk) as [E|E]; [left; now rewrite E|now right].
Qed.

(** Sessions. *)
Lemma direct_crater_grow x s s' r :
  direct S V convert form_crater x s = Some (s', r) -> grow s s'.
Proof.
  unfold direct. destruct (prepare1 convert 0 x) as [c|e].
  - destruct (form_crater c s) as [s1 [e|]] eqn:E; intros H; injection H as <- <-;
      apply form_crater_spec in E as (_ & G & _); exact G.
  - intros H; injection H as <- <-. apply grow_refl.
Qed.

Lemma session_total ks : forall s, exists s' rs, session ks s = Some (s', rs).
Proof.
  induction ks as [|k ks IH]; intros s; cbn; [eauto|].
  assert (H : exists s1 r, step k s = Some (s1, r)).
  { destruct k as [a rim|x|x]; cbn.
    - destruct (emplace_spec a rim s) as (s1 & r & E & _). eauto.
    - unfold direct. destruct (prepare1 convert 0 x) as [c|]; [|eauto]. destruct (form_crater c s) as [s1 [e|]]; eauto.
    - unfold direct. destruct (prepare1 convert 0 x) as [c|]; [|eauto]. destruct (form_ejecta c s) as [s1 [e|]]; eauto. }
  destruct H as (s1 & r & E). rewrite E. destruct (IH s1) as (s2 & rs & E2). rewrite E2. eauto.
Qed.

Lemma session_grow ks : no_form_ejecta ks -> forall s s' rs, session ks s = Some (s', rs) -> grow s s'.
Proof.
  induction ks as [|k ks IH]; intros N s s' rs H; cbn in H.
  - injection H as <- <-. apply grow_refl.
  - destruct (step k s) as [[s1 r]|] eqn:E; [|discriminate].
    destruct (session ks s1) as [[s2 rs']|] eqn:E2; [|discriminate]. injection H as <- <-.
    apply (grow_trans s s1 s2).
    + destruct k as [a rim|x|x]; cbn in E.
      * destruct (emplace_spec a rim s) as (s1' & r' & E' & G & _). congruence.
      * exact (direct_crater_grow _ _ _ _ E).
      * exfalso. apply (N x). now left.
    + apply (IH (fun x Hx => N x (or_intror Hx)) _ _ _ E2).
Qed.

Lemma wf_own D L : wf D L -> own_ejecta L.
Proof.
  intros H. induction H; intros a c' v' bb E.
  - destruct a; discriminate.
  - destruct (exists_last (l := Thrown c' v'  :: bb) ltac:(discriminate)) as (b0 & y & Eb).
    rewrite Eb, app_assoc in E. apply app_inj_tail in E as [E Ey]. subst y.
    destruct bb as [|z bb].
    + cbn in Eb. destruct b0 as [|? [|? ?]]; discriminate.
    + destruct b0 as [|w b0]; [destruct bb; discriminate|]. cbn in Eb. injection Eb as <- Eb.
      apply (IHwf a c' v' b0). exact E.
  - destruct (exists_last (l := Thrown c' v'  :: bb) ltac:(discriminate)) as (b0 & y & Eb).
    rewrite Eb, app_assoc in E. change [Dug c v; Thrown c v] with ([Dug c v] ++ [Thrown c v])%list in E.
    rewrite app_assoc in E. apply app_inj_tail in E as [E Ey]. subst y.
    destruct bb as [|z bb].
    + destruct b0 as [|? [|? ?]]; try discriminate Eb. cbn in Eb. injection Eb as <- <-.
      rewrite app_nil_r in E. exists L. now symmetry.
    + destruct b0 as [|w b0]; [destruct bb; discriminate|]. cbn in Eb. injection Eb as <- Eb.
      (* the Dug is the last of a ++ Thrown :: b0 *)
      destruct (exists_last (l := Thrown c' v' :: b0) ltac:(discriminate)) as (b1 & y & Eb1).
      rewrite Eb1, app_assoc in E. apply app_inj_tail in E as [E Ey]. subst y.
      destruct b1 as [|w b1]; [destruct b0; discriminate|]. cbn in Eb1. injection Eb1 as <- Eb1.
      exact (IHwf a c' v' b1 E).
  - destruct (exists_last (l := Thrown c' v'  :: bb) ltac:(discriminate)) as (b0 & y & Eb).
    rewrite Eb, app_assoc in E. apply app_inj_tail in E as [E Ey]. subst y.
    destruct bb as [|z bb].
    + cbn in Eb. destruct b0 as [|? [|? ?]]; discriminate.
    + destruct b0 as [|w b0']; [destruct bb; discriminate|]. cbn in Eb. injection Eb as <- Eb.
      apply (IHwf a c' v' b0'). exact E.
Qed.

Lemma wf_digs D L : wf D L -> Emplace_spec.dug L = D.
Proof.
  intros H. unfold dug. induction H; cbn; rewrite ?flat_map_app, ?IHwf; cbn; rewrite ?app_nil_r; auto.
Qed.

Lemma session_own ks w s' rs : no_form_ejecta ks -> session ks (new S V w) = Some (s', rs) ->
  own_ejecta (log s') /\ emplaced s' = Emplace_spec.dug (log s').
Proof.
  intros N H. destruct (session_grow ks N _ _ _ H) as (D & L & E & G & W & _). cbn in E, G.
  rewrite E, G. split; [exact (wf_own D L W)|]. symmetry. exact (wf_digs D L W).
Qed.

(** The volume kept is that of the latest excavation. *)
Definition kept (s : st) : Prop := volume s = upd None (log s).
Lemma grow_kept s s' : kept s -> grow s s' -> kept s'.
Proof.
  unfold kept. intros K (D & L & _ & G & _ & U). rewrite U, K, G, upd_app. reflexivity.
Qed.
Lemma step_kept k s s' r : kept s -> step k s = Some (s', r) -> kept s'.
Proof.
  intros K. destruct k as [a rim|x|x]; cbn.
  - destruct (emplace_spec a rim s) as (s1 & r' & E' & G & _). rewrite E'. intros H; injection H as <- <-.
    exact (grow_kept _ _ K G).
  - intros H. exact (grow_kept _ _ K (direct_crater_grow _ _ _ _ H)).
  - unfold direct. destruct (prepare1 convert 0 x) as [c|e]; [|intros H; injection H as <- <-; exact K].
    destruct (form_ejecta c s) as [s1 o] eqn:E. apply form_ejecta_spec in E as (_ & _ & A & B).
    assert (kept s1).
    { unfold kept in *. destruct B as [[B _]|(v & _ & _ & B)]; rewrite A, B, ?upd_app; cbn; exact K. }
    destruct o; intros Q; injection Q as <- <-; assumption.
Qed.
Lemma session_kept ks : forall s s' rs, kept s -> session ks s = Some (s', rs) -> kept s'.
Proof.
  induction ks as [|k ks IH]; intros s s' rs K H; cbn in H.
  - injection H as <- <-. exact K.
  - destruct (step k s) as [[s1 r]|] eqn:E; [|discriminate].
    destruct (session ks s1) as [[s2 rs']|] eqn:E2; [|discriminate]. injection H as <- <-.
    exact (IH _ _ _ (step_kept _ _ _ _ K E) E2).
Qed.

Lemma upd_latest l : match upd None l with
  | Some v => latest l v
  | None => never_dug l
  end.
Proof.
  induction l as [|e l IH] using rev_ind; [intros c v []|].
  rewrite upd_app. destruct e as [c v|c v|b]; cbn.
  - exists l, c, []. split; [reflexivity|]. intros ? ? [].
  - destruct (upd None l).
    + destruct IH as (a & c1 & b & -> & N). exists a, c1, (b ++ [Thrown c v])%list. split.
      * rewrite <- app_assoc. reflexivity.
      * intros c' v' H. apply in_app_or in H as [H|[H|[]]]; [exact (N _ _ H)|discriminate].
    + intros c' v' H. apply in_app_or in H as [H|[H|[]]]; [exact (IH _ _ H)|discriminate].
  - destruct (upd None l).
    + destruct IH as (a & c1 & b' & -> & N). exists a, c1, (b' ++ [Tallied b])%list. split.
      * rewrite <- app_assoc. reflexivity.
      * intros c' v' H. apply in_app_or in H as [H|[H|[]]]; [exact (N _ _ H)|discriminate].
    + intros c' v' H. apply in_app_or in H as [H|[H|[]]]; [exact (IH _ _ H)|discriminate].
Qed.

Lemma latest_upd l v : latest l v -> upd None l = Some v.
Proof.
  intros (a & c & b & -> & N). rewrite upd_app.
  change (Dug c v :: b) with ([Dug c v] ++ b)%list. rewrite upd_app. cbn [upd fold_left].
  assert (G : forall b o, (forall c' v', ~ In (Dug c' v') b) -> upd o b = o).
  { clear. induction b as [|e b IH]; intros o N; [reflexivity|]. cbn.
    destruct e as [c v|c v|x]; [exfalso; apply (N c v); now left| |]; apply IH; intros c' v' H;
      apply (N c' v'); now right. }
  rewrite G; [reflexivity|exact N].
Qed.

(** form_ejecta called directly: which volume it uses. *)
Lemma direct_ejecta ks w s rs c s' r :
  session ks (new S V w) = Some (s, rs) -> step (FormEjecta (Moon c)) s = Some (s', r) ->
  (never_dug (log s) -> r = Err TypeError /\ s' = s) /\
  (forall v, latest (log s) v ->
     (zero v = true -> r = Err TypeError /\ s' = s) /\
     (r = Ok [] -> log s' = (log s ++ [Thrown c v])%list)).
Proof.
  intros H E. assert (K : kept s) by (exact (session_kept ks (new S V w) s rs eq_refl H)).
  cbn in E. unfold direct, prepare1 in E. unfold kept in K. split.
  - intros N. pose proof (upd_latest (log s)) as U. rewrite <- K in U. destruct (volume s) as [v|] eqn:Ev.
    + destruct U as (a & c1 & b & Ea & _). exfalso. apply (N c1 v). rewrite Ea. apply in_or_app. right. now left.
    + unfold Emplace_model.form_ejecta in E. rewrite Ev in E. injection E as <- <-. auto.
  - intros v Lv. apply latest_upd in Lv. rewrite <- K in Lv. split.
    + intros Z. unfold Emplace_model.form_ejecta in E. rewrite Lv, Z in E. injection E as <- <-. auto.
    + intros ->. destruct (form_ejecta c s) as [s1 [x|]] eqn:F; [discriminate|]. injection E as <-.
      apply form_ejecta_spec in F as (_ & _ & _ & [[_ F]|(v' & Ev & _ & F)]); [congruence|]. congruence.
Qed.

(** Sessions of successful emplace calls. *)
Lemma session_emplaced ks : only_emplace ks -> forall s s' rs cs, q s = [] ->
  session ks s = Some (s', rs) -> returned rs cs ->
  q s' = [] /\ emplaced s' = (emplaced s ++ filter formable cs)%list.
Proof.
  induction ks as [|k ks IH]; intros O s s' rs cs Q H (ls & Er & Ec); cbn in H.
  - injection H as <- <-. destruct ls; [|discriminate]. subst cs. cbn. rewrite app_nil_r. auto.
  - destruct (step k s) as [[s1 r]|] eqn:E; [|discriminate].
    destruct (session ks s1) as [[s2 rs']|] eqn:E2; [|discriminate]. injection H as <- <-.
    destruct ls as [|l ls]; [discriminate|]. cbn in Er. injection Er as -> ->.
    destruct (O k (or_introl eq_refl)) as (a & rim & ->). cbn in E.
    destruct (emplace_spec a rim s) as (s1' & r' & E' & G & K).
    assert (s1' = s1 /\ r' = Ok l) as [-> ->] by (split; congruence).
    destruct (K l eq_refl) as (_ & Q1 & M & _). rewrite Q in M. cbn in M.
    destruct (IH (fun k Hk => O k (or_intror Hk)) s1 s2 (map Ok ls) (List.concat ls) Q1 E2) as [A B].
    { exists ls. auto. }
    split; [exact A|]. rewrite B, M. subst cs. cbn. rewrite filter_app, app_assoc. reflexivity.
Qed.

(** Nothing fails if no operation does and every crater digs something. *)
Lemma emplace_ok a rim s cs :
  accept convert create a = Ok cs ->
  (forall c w, exists w' v, excavate c w = Ok (w', v) /\ zero v = false) ->
  (forall c w, exists w', count c w = Ok w') ->
  (forall c v w, exists w', eject c v w = Ok w') ->
  (forall c w, exists w', soften c w = Ok w') ->
  (forall b w, exists w', degrade b w = Ok w') ->
  (forall w, exists w', finish w = Ok w') ->
  (forall b w, exists w', tally b w = Ok w') ->
  exists s', emplace a rim s = Some (s', Ok cs).
Proof.
  intros Ea Hx Hc He Hs Hd Hf Ht.
  assert (OS : forall op s, (forall w, exists w', op w = Ok w') -> exists s', on_surf op s = (s', None)).
  { intros op s0 H. unfold Emplace_model.on_surf. destruct (H (surf s0)) as [w' ->]. eauto. }
  assert (FC : forall c s, exists s', form_crater c s = (s', None)).
  { intros c s0. unfold Emplace_model.form_crater. destruct (emplaceable g c); cbn [negb]; [|eauto].
    destruct (large c); [|eauto]. destruct (Hx c (surf s0)) as (w' & v & -> & Z).
    set (s1 := Emplace_model.mk S V _ w' _ _ _).
    assert (N : exists s2, (if do_counting then on_surf (count c) s1 else (s1, None)) = (s2, None) /\ volume s2 = Some v).
    { destruct do_counting; [|exists s1; auto]. destruct (OS (count c) s1 (Hc c)) as [s2 E]. exists s2.
      split; [exact E|]. apply on_surf_spec in E as (_ & _ & _ & ->). reflexivity. }
    destruct N as (s2 & -> & E2). cbn [next]. unfold Emplace_model.form_ejecta. rewrite E2, Z.
    destruct (He c v (surf s2)) as [w2 ->]. apply OS. apply Hs. }
  assert (FB : forall b s, exists s', form_batch b s = (s', None)).
  { induction b as [|c b IH]; intros s0; cbn; [eauto|]. destruct (FC c s0) as [s1 ->]. cbn. apply IH. }
  assert (DT : forall rim s, exists s', do_tally rim s = (s', None)).
  { intros r0 s0. apply OS. apply Ht. }
  assert (BP : forall fuel n rim s, (List.length (q s) <= fuel)%nat ->
     exists s' rim', batch_process fuel n rim s = Some ((s', None), rim')).
  { induction fuel as [|fuel IH]; intros n r0 s0 Hl; cbn [Emplace_model.batch_process];
      destruct (q s0) as [|c0 r] eqn:Eq; try (eexists; eexists; reflexivity); [cbn in Hl; lia|].
    destruct (batch_spec g (c0 :: r)) as ((r1 & Er) & _ & Hn & _). specialize (Hn ltac:(discriminate)).
    set (b := peek_next_batch g (c0 :: r)) in *.
    destruct (FB b s0) as [s1 E1]. rewrite E1. cbn [next].
    pose proof (form_batch_spec _ _ _ _ E1) as (Q1 & _).
    assert (N : exists s2, (if do_subpixel then on_surf (degrade b) s1 else (s1, None)) = (s2, None) /\ q s2 = q s1).
    { destruct do_subpixel; [|eauto]. destruct (OS (degrade b) s1 (Hd b)) as [s2 E]. exists s2. split; [exact E|].
      apply on_surf_spec in E as [-> _]. reflexivity. }
    destruct N as (s2 & -> & Q2). rewrite Q2, Q1, Eq, Er, pop_prefix.
    assert (Hl' : (List.length r1 <= fuel)%nat).
    { apply (f_equal (@List.length _)) in Er. rewrite app_length in Er. cbn in Er, Hl.
      destruct b; [congruence|]. cbn in Er. lia. }
    destruct (do_counting && _).
    - destruct (DT r0 (mk r1 (surf s2) (volume s2) (emplaced s2) (log s2))) as [s4 E4]. rewrite E4. apply IH.
      apply do_tally_spec in E4 as [-> _]. exact Hl'.
    - apply IH. exact Hl'. }
  unfold Emplace_model.emplace, Emplace_model.process_queue. rewrite Ea.
  destruct (BP _ 0%nat rim _ (le_n (List.length (q (mk (enqueue_all g (q s) cs) (surf s) (volume s) (emplaced s) (log s)))))) as (s1 & rim' & ->).
  cbn [next].
  assert (N : exists s2, (if do_subpixel then on_surf finish s1 else (s1, None)) = (s2, None)).
  { destruct do_subpixel; [|eauto]. apply OS, Hf. }
  destruct N as (s2 & ->). cbn [next].
  destruct do_counting; [|eauto]. destruct (DT rim' s2) as [s3 ->]. eauto.
Qed.

Lemma measure_rim a rim s s' cs : do_counting = true -> (0 < cadence)%nat ->
  emplace a rim s = Some (s', Ok cs) ->
  exists k, tallies (log s') = (tallies (log s) ++ rim :: repeat false k)%list /\
    (k = 0%nat <-> (List.length (q s) + List.length (filter (emplaceable g) cs) < cadence)%nat).
Proof.
  intros Hc Hp E. destruct (emplace_spec a rim s) as (s1 & r & E1 & _ & K).
  assert (s1 = s' /\ r = Ok cs) as [-> ->] by (split; congruence).
  destruct (K cs eq_refl) as (_ & _ & _ & k & T & A & B). rewrite Hc in T. cbn zeta in A, B.
  rewrite app_length in A, B. exists k. split; [exact T|]. split.
  - intros Hk. destruct (B Hc Hk); lia.
  - intros H. destruct k; [reflexivity|]. cbn in A. lia.
Qed.

Lemma tallied_last a rim s s' cs : do_counting = true -> emplace a rim s = Some (s', Ok cs) ->
  exists pre b w, tallies (log s') = (pre ++ [b])%list /\ tally b w = Ok (surf s').
Proof.
  intros Hc. unfold Emplace_model.emplace. destruct (accept convert create a) as [cs' | e]; [| discriminate].
  unfold Emplace_model.process_queue. rewrite Hc.
  match goal with |- match (match ?x with _ => _ end) with _ => _ end = _ -> _ => destruct x as [[o1 rim1] |] end; [| discriminate].
  match goal with |- context [next _ _ ?x _] => destruct x as [s2 [e |]] end; cbn [next]; [discriminate |].
  unfold Emplace_model.do_tally, on_surf. cbn [Emplace_model.surf Emplace_model.log].
  destruct (tally rim1 (surf s2)) as [w | e] eqn:E; [| discriminate].
  intros X. injection X as <- <-. cbn [Emplace_model.surf Emplace_model.log].
  exists (tallies (log s2)), rim1, (surf s2). split; [| exact E].
  unfold tallies. rewrite flat_map_app. reflexivity.
Qed.

End P.
