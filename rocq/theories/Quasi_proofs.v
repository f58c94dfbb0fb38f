From Coq Require Import Reals ZArith Lra Lia Permutation Sorted.
From Verif Require Import Common RSum Sorting Quasi_model Quasi_spec Measure_spec.
Open Scope R_scope.

Lemma Rltb_iff a b : Rltb a b = true <-> a < b.
Proof. unfold Rltb. destruct (Rlt_dec a b); split; intros; try congruence; contradiction. Qed.
Lemma Rleb_iff a b : Rleb a b = true <-> a <= b.
Proof. unfold Rleb. destruct (Rle_dec a b); split; intros; try congruence; contradiction. Qed.

(* ------------------------------ groups ------------------------------ *)
Definition tag_is (s : Z) (x : nat * qcrater) : bool := match q_seq (snd x) with Some a => Z.eqb a s | None => false end.
Lemma tag_is_iff s x : tag_is s x = true <-> q_seq (snd x) = Some s.
Proof. unfold tag_is. destruct (q_seq (snd x)) as [a|]; [rewrite Z.eqb_eq; split; congruence | split; discriminate]. Qed.
Definition good (g : groups) (l : list (nat * qcrater)) : Prop :=
  NoDup (map fst g) /\ (forall s m, In (s, m) g -> m <> [] /\ m = filter (tag_is s) l) /\
  (forall s, In s (map fst g) <-> exists x, In x l /\ q_seq (snd x) = Some s).
Lemma add_to_keys s x g k : In k (map fst (add_to s x g)) <-> k = s \/ In k (map fst g).
Proof.
  induction g as [|[s' l] r IH]; cbn; [intuition|]. destruct (Z.eqb_spec s s') as [->|N]; cbn; [intuition congruence|]. rewrite IH. intuition.
Qed.
Lemma add_to_nodup s x g : NoDup (map fst g) -> NoDup (map fst (add_to s x g)).
Proof.
  induction g as [|[s' l] r IH]; cbn; intros N; [constructor; [intros []|constructor]|].
  inversion N as [|? ? A B]; subst. destruct (Z.eqb_spec s s') as [->|E]; cbn; [constructor; assumption|].
  constructor; [|auto]. rewrite add_to_keys. intros [->|X]; [congruence|auto].
Qed.
Lemma add_to_in s x g k m : NoDup (map fst g) -> In (k, m) (add_to s x g) ->
  (k <> s /\ In (k, m) g) \/ (k = s /\ ((~ In s (map fst g) /\ m = [x]) \/ exists m0, In (s, m0) g /\ m = (m0 ++ [x])%list)).
Proof.
  induction g as [|[s' l] r IH]; cbn; intros N I.
  - destruct I as [[= <- <-]|[]]. right. split; [reflexivity|]. left. split; [intros []|reflexivity].
  - inversion N as [|? ? A B]; subst. destruct (Z.eqb_spec s s') as [->|E]; cbn in I.
    + destruct I as [[= <- <-]|I]; [right; split; [reflexivity|right; exists l; split; [left; reflexivity|reflexivity]]|].
      left. split; [|right; exact I]. intros ->. apply A. apply in_map_iff. exists (s', m). split; [reflexivity|exact I].
    + destruct I as [[= <- <-]|I]; [left; split; [congruence|left; reflexivity]|].
      destruct (IH B I) as [[F G]|[-> [[F ->]|(m0 & F & ->)]]].
      * left. split; [exact F|right; exact G].
      * right. split; [reflexivity|]. left. split; [|reflexivity]. intros [X|X]; [congruence|exact (F X)].
      * right. split; [reflexivity|]. right. exists m0. split; [right; exact F|reflexivity].
Qed.
Lemma filter_none {A} (f : A -> bool) l : (forall x, In x l -> f x = false) -> filter f l = [].
Proof. induction l as [|x r IH]; cbn; intros H; [reflexivity|]. rewrite (H x) by (left; reflexivity). apply IH. intros y I. apply H. right. exact I. Qed.
Lemma grouped_good l : good (grouped l) l.
Proof.
  induction l as [|x k IH] using rev_ind.
  - split; [constructor|]. split; [intros s m []|]. intros s. cbn. split; [intros []|intros (x & [] & _)].
  - destruct IH as (N & F & K). unfold grouped. rewrite fold_left_app. cbn [fold_left]. fold (grouped k). set (g := grouped k) in *.
    destruct (q_seq (snd x)) as [s|] eqn:Q.
    + split; [apply add_to_nodup; exact N|]. split.
      * intros a m I. destruct (add_to_in s x g a m N I) as [[E G]|[-> [[G ->]|(m0 & G & ->)]]].
        -- destruct (F a m G) as [A B]. split; [exact A|]. rewrite filter_app. cbn. unfold tag_is at 2. rewrite Q.
           destruct (Z.eqb_spec s a) as [X|X]; [congruence|]. rewrite app_nil_r. exact B.
        -- split; [discriminate|]. rewrite filter_app. cbn. unfold tag_is at 2. rewrite Q, Z.eqb_refl.
           rewrite filter_none; [reflexivity|]. intros y Iy. destruct (tag_is s y) eqn:T; [|reflexivity].
           exfalso. apply G, K. exists y. split; [exact Iy|]. apply tag_is_iff. exact T.
        -- split; [destruct m0; discriminate|]. rewrite filter_app. cbn. unfold tag_is at 2. rewrite Q, Z.eqb_refl.
           f_equal. exact (proj2 (F s m0 G)).
      * intros a. rewrite add_to_keys, K. split.
        -- intros [->|(y & I & E)]; [exists x; split; [apply in_or_app; right; left; reflexivity|exact Q]|].
           exists y. split; [apply in_or_app; left; exact I|exact E].
        -- intros (y & I & E). apply in_app_or in I. destruct I as [I|[<-|[]]]; [right; exists y; split; assumption|left; congruence].
    + split; [exact N|]. split.
      * intros a m I. destruct (F a m I) as [A B]. split; [exact A|]. rewrite filter_app. cbn. unfold tag_is at 2. rewrite Q. rewrite app_nil_r. exact B.
      * intros a. rewrite K. split; intros (y & I & E).
        -- exists y. split; [apply in_or_app; left; exact I|exact E].
        -- apply in_app_or in I. destruct I as [I|[<-|[]]]; [exists y; split; assumption|congruence].
Qed.
Lemma sorted_groups_good l : good (sorted_groups l) l /\ StronglySorted Z.lt (map fst (sorted_groups l)).
Proof.
  destruct (grouped_good l) as (N & F & K). unfold sorted_groups. set (le := fun a b : Z * list (nat * qcrater) => Z.leb (fst a) (fst b)).
  pose proof (sort_perm le (grouped l)) as P.
  assert (N' : NoDup (map fst (sort le (grouped l)))) by (eapply Permutation_NoDup; [apply Permutation_map; symmetry; exact P|exact N]).
  split; [split; [exact N'|split]|].
  - intros s m I. apply F. eapply Permutation_in; [exact P|exact I].
  - intros s. rewrite <- K. split; intros I; (eapply Permutation_in; [apply Permutation_map|exact I]); [exact P|symmetry; exact P].
  - assert (S : StronglySorted (fun a b => le a b = true) (sort le (grouped l))).
    { apply sort_sorted; unfold le; intros *; rewrite ?Z.leb_gt, ?Z.leb_le; lia. }
    revert N'. generalize dependent (sort le (grouped l)). intros g _ S. induction S as [|x r S IH Fx]; cbn; intros N'; [constructor|].
    inversion N' as [|? ? A B]; subst. constructor; [auto|]. apply Forall_forall. intros z I. apply in_map_iff in I. destruct I as (y & <- & I).
    rewrite Forall_forall in Fx. specialize (Fx y I). unfold le in Fx. apply Z.leb_le in Fx.
    assert (fst x <> fst y) by (intros X; apply A; rewrite X; apply in_map; exact I). lia.
Qed.

(* ------------------------------ draws ------------------------------ *)
Lemma draw_all_spec f l ts : draw_all f l = Ok ts -> Forall2 (fun x p => fst p = fst x /\ f x = Ok (snd p)) l ts.
Proof.
  revert ts. induction l as [|x r IH]; cbn; intros ts E; [injection E as <-; constructor|].
  destruct (f x) as [t|e] eqn:Fx; [|discriminate]. cbn in E. destruct (draw_all f r) as [k|e]; [|discriminate]. cbn in E.
  injection E as <-. constructor; [split; [reflexivity|exact Fx]|]. apply IH. reflexivity.
Qed.
Lemma draw_all_err f l e : draw_all f l = Err e -> exists x, In x l /\ f x = Err e.
Proof.
  induction l as [|x r IH]; cbn; [discriminate|]. destruct (f x) as [t|e'] eqn:Fx; cbn.
  - destruct (draw_all f r) as [k|e']; cbn; [discriminate|]. intros [= ->]. destruct (IH eq_refl) as (y & I & E). exists y. split; [right|]; assumption.
  - intros [= ->]. exists x. split; [left; reflexivity|exact Fx].
Qed.
Lemma draw_all_ok f l : (forall x, In x l -> exists t, f x = Ok t) -> exists ts, draw_all f l = Ok ts.
Proof.
  induction l as [|x r IH]; cbn; intros H; [eexists; reflexivity|]. destruct (H x) as [t ->]; [left; reflexivity|]. cbn.
  destruct IH as [ts ->]; [intros y I; apply H; right; exact I|]. cbn. eexists. reflexivity.
Qed.
Lemma number_from_in {A} (l : list A) i j x : In (j, x) (number_from i l) -> (i <= j)%nat.
Proof. revert i. induction l as [|y r IH]; cbn; intros i; [intros []|]. intros [[= <- <-]|I]; [lia|]. apply IH in I. lia. Qed.
Lemma number_from_fun {A} (l : list A) i j x y : In (j, x) (number_from i l) -> In (j, y) (number_from i l) -> x = y.
Proof.
  revert i. induction l as [|z r IH]; cbn; intros i; [intros []|]. intros [[= <- <-]|I] [E|J].
  - congruence.
  - apply number_from_in in J. lia.
  - injection E as -> _. apply number_from_in in I. lia.
  - eapply IH; eassumption.
Qed.
Lemma number_from_snd {A} (l : list A) i : map snd (number_from i l) = l.
Proof. revert i. induction l as [|x r IH]; cbn; intros i; [reflexivity|]. rewrite IH. reflexivity. Qed.
(** Times of a list of numbered craters, drawn with [f]. *)
Definition functional (l : list (nat * qcrater)) : Prop := forall j x y, In (j, x) l -> In (j, y) l -> x = y.
Lemma time_at_app i a b : time_at i (a ++ b) = match time_at i a with Some t => Some t | None => time_at i b end.
Proof.
  unfold time_at. induction a as [|p a IH]; cbn; [reflexivity|]. destruct (Nat.eqb (fst p) i); [reflexivity|]. exact IH.
Qed.
Lemma time_at_drawn f l ts : Forall2 (fun x p => fst p = fst x /\ f x = Ok (snd p)) l ts -> functional l ->
  (forall x, In x l -> exists t, time_at (fst x) ts = Some t /\ f x = Ok t) /\
  (forall i, (forall c, ~ In (i, c) l) -> time_at i ts = None).
Proof.
  intros D. unfold time_at. induction D as [|x p l ts [A B] D IH]; intros U.
  - split; [intros x []|reflexivity].
  - destruct IH as [IH1 IH2]; [intros j y z I J; apply (U j); right; assumption|]. split.
    + intros y I. cbn [find]. rewrite A. destruct (Nat.eqb_spec (fst x) (fst y)) as [E|E].
      * assert (y = x) as ->.
        { destruct x as [j a], y as [j' b]. cbn in E. subst j'. f_equal. apply (U j b a); [exact I|left; reflexivity]. }
        exists (snd p). split; [reflexivity|exact B].
      * destruct I as [->|I]; [congruence|]. apply IH1. exact I.
    + intros i H. cbn [find]. rewrite A. destruct (Nat.eqb_spec (fst x) i) as [E|E].
      * exfalso. apply (H (snd x)). left. destruct x as [a b]. cbn in *. congruence.
      * apply IH2. intros c I. apply (H c). right. exact I.
Qed.

(* ------------------------------ the result ------------------------------ *)
Section Process.
Context (csfd : R -> R) (number_at : R -> result R) (age : R -> result R) (nconv : R).
Context (trunc : nat -> R -> R -> R -> R -> R) (normal : nat -> R -> R -> R).
Notation process := (process csfd number_at age nconv trunc normal).
Notation draw_free := (draw_free csfd age nconv normal).
Notation draw_in := (draw_in csfd age nconv trunc).
Notation sequence_extents := (sequence_extents csfd number_at nconv).

Definition valid (craters : list qcrater) : list (nat * qcrater) := number_from 0 (filter has_metadata craters).
(** All that a successful processing consists of. *)
Definition outcome (craters : list qcrater) ext ts : Prop :=
  let l := valid craters in
  (match sorted_groups l with [] => Ok [] | _ => sequence_extents (sorted_groups l) end) = Ok ext /\
  (forall x, In x l -> exists t, time_at (fst x) ts = Some t /\
     match q_seq (snd x) with
     | None => draw_free (fst x) (snd x) = Ok t
     | Some s => exists e, lookup s ext = Some e /\ draw_in (fst x) (snd x) e = Ok t
     end) /\
  sequence_is_consistent ts (sorted_groups l) = true.
Lemma has_metadata_iff c : has_metadata c = true <-> metadata c.
Proof.
  clear -c. unfold has_metadata, metadata, dated. destruct (q_ND c), (q_time c), (q_seq c); cbn; split; intros; try reflexivity; try discriminate;
  intuition congruence.
Qed.
Lemma picks_filter_b {A} (f : A -> bool) (P : A -> Prop) l : (forall x, f x = true <-> P x) -> picks P l (filter f l).
Proof.
  intros H. induction l as [|x r IH]; cbn; [constructor|]. destruct (f x) eqn:E; constructor; auto; [apply H; exact E|].
  intros X. apply H in X. congruence.
Qed.
Lemma valid_functional craters : functional (valid craters).
Proof. intros j x y. apply number_from_fun. Qed.
Lemma untagged_consistent l : filter is_tagged l = [] -> sorted_groups l = [].
Proof.
  intros E. destruct (sorted_groups_good l) as ((_ & _ & K) & _). destruct (sorted_groups l) as [|[s m] r]; [reflexivity|].
  exfalso. destruct (proj1 (K s)) as (x & I & Q); [left; reflexivity|].
  assert (In x (filter is_tagged l)) by (apply filter_In; split; [exact I|unfold is_tagged; rewrite Q; reflexivity]).
  rewrite E in H. exact H.
Qed.
Definition timed_of (l : list (nat * qcrater)) ts := flat_map (fun x => match time_at (fst x) ts with Some t => [(snd x, t)] | None => [] end) l.
Lemma process_ok dmax craters res d : process dmax craters = Ok (res, d) ->
  exists ext ts, outcome craters ext ts /\ res = sort (fun a b => Rleb (snd b) (snd a)) (timed_of (valid craters) ts) /\
    d = fold_left (fun m p => min_with m (q_diam (fst p))) (timed_of (valid craters) ts) dmax.
Proof.
  unfold Quasi_model.process. fold (valid craters). set (l := valid craters).
  destruct (match sorted_groups l with [] => Ok [] | _ => sequence_extents (sorted_groups l) end) as [ext|e] eqn:E1; [|discriminate].
  cbn [rbind]. destruct (draw_all _ (filter (fun x => negb (is_tagged x)) l)) as [free|e] eqn:E2; [|discriminate].
  cbn [rbind]. destruct (draw_all _ (filter is_tagged l)) as [tagged|e] eqn:E3; [|discriminate]. cbn [rbind].
  destruct (match filter is_tagged l with [] => true | _ => _ end) eqn:E4; [|discriminate]. intros X. injection X as <- <-.
  exists ext, (free ++ tagged)%list. split; [|split; reflexivity]. split; [exact E1|]. split.
  - apply draw_all_spec in E2. apply draw_all_spec in E3.
    apply time_at_drawn in E2; [|intros j x y I J; apply filter_In in I, J; apply (valid_functional craters j); [apply I|apply J]].
    apply time_at_drawn in E3; [|intros j x y I J; apply filter_In in I, J; apply (valid_functional craters j); [apply I|apply J]].
    intros [i c] I. cbn [fst snd]. rewrite time_at_app. destruct (q_seq c) as [s|] eqn:Q.
    + destruct E2 as [_ E2]. rewrite E2.
      * destruct E3 as [E3 _]. destruct (E3 (i, c)) as (t & T & D).
        { apply filter_In. split; [exact I|]. unfold is_tagged. cbn. rewrite Q. reflexivity. }
        exists t. split; [exact T|]. cbn [fst snd] in D. rewrite Q in D. destruct (lookup s ext) as [b|]; [|discriminate].
        exists b. split; [reflexivity|exact D].
      * intros c' J. apply filter_In in J. destruct J as [J N]. assert (c' = c) as -> by exact (valid_functional craters i c' c J I).
        unfold is_tagged in N. cbn in N. rewrite Q in N. discriminate.
    + destruct E2 as [E2 _]. destruct (E2 (i, c)) as (t & T & D).
      { apply filter_In. split; [exact I|]. unfold is_tagged. cbn. rewrite Q. reflexivity. }
      cbn [fst snd] in *. rewrite T. exists t. split; [reflexivity|exact D].
  - destruct (filter is_tagged l) eqn:F; [|exact E4]. cbn zeta. fold l. rewrite (untagged_consistent l F). reflexivity.
Qed.
Lemma timed_all l ts : (forall x, In x l -> exists t, time_at (fst x) ts = Some t) ->
  map fst (timed_of l ts) = map snd l.
Proof.
  unfold timed_of. induction l as [|x r IH]; cbn; intros H; [reflexivity|]. destruct (H x) as [t ->]; [left; reflexivity|]. cbn. rewrite IH; [reflexivity|].
  intros y I. apply H. right. exact I.
Qed.
Lemma timed_in l ts c t : In (c, t) (timed_of l ts) <-> exists i, In (i, c) l /\ time_at i ts = Some t.
Proof.
  unfold timed_of. rewrite in_flat_map. split.
  - intros ([i c'] & I & J). cbn in J. destruct (time_at i ts) as [u|] eqn:T; [|contradiction]. destruct J as [[= -> ->]|[]]. exists i. split; assumption.
  - intros (i & I & T). exists (i, c). split; [exact I|]. cbn. rewrite T. left. reflexivity.
Qed.
Lemma older_sorted (l : list (qcrater * R)) : StronglySorted (fun a b => snd b <= snd a) (sort (fun a b => Rleb (snd b) (snd a)) l).
Proof.
  assert (S : StronglySorted (fun a b : qcrater * R => Rleb (snd b) (snd a) = true) (sort (fun a b => Rleb (snd b) (snd a)) l)).
  { apply sort_sorted.
    - intros x y E. apply Rleb_iff. unfold Rleb in E. destruct (Rle_dec (snd y) (snd x)); [discriminate|lra].
    - intros x y z. rewrite !Rleb_iff. lra. }
  induction S as [|x r S IH F]; constructor; [exact IH|]. eapply Forall_impl; [|exact F]. intros y. apply Rleb_iff.
Qed.
Lemma process_list dmax craters res d : process dmax craters = Ok (res, d) ->
  (exists v, picks metadata craters v /\ Permutation (map fst res) v) /\ StronglySorted (fun a b => snd b <= snd a) res.
Proof.
  intros E. destruct (process_ok _ _ _ _ E) as (ext & ts & (_ & T & _) & -> & _). split; [|apply older_sorted].
  exists (filter has_metadata craters). split; [apply picks_filter_b, has_metadata_iff|].
  transitivity (map fst (timed_of (valid craters) ts)); [apply Permutation_map, sort_perm|].
  rewrite timed_all; [unfold valid; rewrite number_from_snd; reflexivity|]. intros x I. destruct (T x I) as (t & A & _). exists t. exact A.
Qed.
Lemma result_in dmax craters res d c t : process dmax craters = Ok (res, d) -> In (c, t) res ->
  exists ext ts i, outcome craters ext ts /\ In (i, c) (valid craters) /\ time_at i ts = Some t.
Proof.
  intros E I. destruct (process_ok _ _ _ _ E) as (ext & ts & O & -> & _). apply (Permutation_in _ (sort_perm _ _)) in I.
  apply timed_in in I. destruct I as (i & I & T). exists ext, ts, i. split; [exact O|]. split; assumption.
Qed.
Lemma process_drawn dmax craters res d c t : process dmax craters = Ok (res, d) -> In (c, t) res -> q_seq c = None ->
  drawn csfd age nconv normal c t.
Proof.
  intros E I Q. destruct (result_in _ _ _ _ _ _ E I) as (ext & ts & i & (_ & T & _) & V & A).
  destruct (T _ V) as (u & B & D). cbn [fst snd] in *. rewrite A in B. injection B as <-. rewrite Q in D.
  unfold Quasi_model.draw_free in D. destruct (q_ND c) as [[[dd n] s]|] eqn:ND.
  - unfold to_N1 in D. replace (dd * 1e3) with (dd * 1000) in D by lra. unfold DSTD in D.
    destruct (Rlt_dec 0 _) as [P|P] in D.
    + eapply drawn_ND; [exact ND|exact P|exact D].
    + eapply drawn_ND_exact; [exact ND|apply Rnot_lt_le; exact P|exact D].
  - destruct (q_time c) as [[m s]|] eqn:QT; [|discriminate]. destruct (Rlt_dec 0 s) as [P|P]; injection D as <-.
    + eapply drawn_time; [exact ND|exact QT|exact P|reflexivity].
    + eapply drawn_time_exact; [exact ND|exact QT|lra|reflexivity].
Qed.
(** The upper end of the range. *)
Lemma fold_min l m : exists r, fold_left (fun m (p : qcrater * R) => min_with m (q_diam (fst p))) l m = r /\
  (l = [] -> r = m) /\
  (l <> [] -> exists x, r = Some x /\ (forall p, In p l -> x <= q_diam (fst p)) /\ (forall y, m = Some y -> x <= y) /\
     ((exists p, In p l /\ x = q_diam (fst p)) \/ m = Some x)).
Proof.
  revert m. induction l as [|p l IH]; intros m; cbn [fold_left].
  - exists m. repeat split; congruence.
  - destruct (IH (min_with m (q_diam (fst p)))) as (r & E & A & B). exists r. split; [exact E|]. split; [discriminate|]. intros _.
    destruct l as [|q l'].
    + rewrite A by reflexivity. unfold min_with. destruct m as [y|].
      * exists (Rmin y (q_diam (fst p))). split; [reflexivity|]. split; [intros z [<-|[]]; apply Rmin_r|]. split; [intros z [= <-]; apply Rmin_l|].
        unfold Rmin. destruct (Rle_dec y (q_diam (fst p))); [right; reflexivity|left; exists p; split; [left; reflexivity|reflexivity]].
      * exists (q_diam (fst p)). split; [reflexivity|]. split; [intros z [<-|[]]; lra|]. split; [discriminate|]. left. exists p. split; [left; reflexivity|reflexivity].
    + destruct B as (x & -> & B1 & B2 & B3); [discriminate|]. exists x. split; [reflexivity|]. specialize (B2 _ eq_refl). cbn in B2. split; [|split].
      * intros z [<-|I]; [|apply B1; exact I]. destruct m as [w|]; [pose proof (Rmin_r w (q_diam (fst p))); lra|exact B2].
      * intros y ->. pose proof (Rmin_l y (q_diam (fst p))). lra.
      * destruct B3 as [(z & I & ->)|E2]; [left; exists z; split; [right; exact I|reflexivity]|]. unfold min_with in E2. injection E2 as E2.
        destruct m as [y|]; [|left; exists p; split; [left; reflexivity|congruence]].
        unfold Rmin in E2. destruct (Rle_dec y (q_diam (fst p))); [right; congruence|left; exists p; split; [left; reflexivity|congruence]].
Qed.
Lemma process_range dmax craters res d : process dmax craters = Ok (res, d) -> res <> [] ->
  exists x, d = Some x /\ (forall c t, In (c, t) res -> x <= q_diam c) /\ (forall y, dmax = Some y -> x <= y) /\
   ((exists c t, In (c, t) res /\ x = q_diam c) \/ dmax = Some x).
Proof.
  intros E N. destruct (process_ok _ _ _ _ E) as (ext & ts & O & R & D). set (l := timed_of (valid craters) ts) in *.
  destruct (fold_min l dmax) as (r & F & _ & B). rewrite F in D. subst r.
  destruct B as (x & X & B1 & B2 & B3).
  { intros L. apply N. rewrite R, L. reflexivity. }
  exists x. split; [exact X|]. split; [|split; [exact B2|]].
  - intros c t I. rewrite R in I. apply (Permutation_in _ (sort_perm _ _)) in I. exact (B1 _ I).
  - destruct B3 as [([c t] & I & Y)|Y]; [left|right; exact Y]. exists c, t. split; [|exact Y]. rewrite R. apply (Permutation_in _ (Permutation_sym (sort_perm _ _))). exact I.
Qed.
(** Untagged craters alone. *)
Lemma process_untagged dmax craters : (forall c, In c craters -> q_seq c = None) ->
  (forall c n, In c craters -> q_ND c <> None -> 0 <= n -> exists t, age n = Ok t) ->
  exists r, process dmax craters = Ok r.
Proof.
  intros U A. unfold Quasi_model.process. fold (valid craters).
  assert (V : forall x, In x (valid craters) -> In (snd x) craters /\ has_metadata (snd x) = true).
  { intros x I. apply filter_In. rewrite <- (number_from_snd (filter has_metadata craters) 0). apply in_map. exact I. }
  assert (F : filter is_tagged (valid craters) = []).
  { apply filter_none. intros x I. unfold is_tagged. rewrite (U (snd x)); [reflexivity|apply V; exact I]. }
  rewrite F. rewrite (untagged_consistent _ F). cbn [rbind].
  match goal with |- context [draw_all ?f ?k] => destruct (draw_all_ok f k) as [ts ->] end.
  { intros x I. apply filter_In in I. destruct I as [I _]. destruct (V x I) as [J H]. unfold Quasi_model.draw_free.
    unfold has_metadata in H. rewrite (U _ J) in H. destruct (q_ND (snd x)) as [[[dd n] s]|] eqn:Q.
    - cbn [to_N1]. apply (A (snd x)); [exact J|rewrite Q; discriminate|apply Rmax_l].
    - destruct (q_time (snd x)) as [[m s]|]; [eexists; reflexivity|discriminate]. }
  cbn. eexists. reflexivity.
Qed.

(* ------------------------------ order from the check ------------------------------ *)
Lemma min_of_le l x : In x l -> min_of l <= x.
Proof. induction l as [|y r IH]; [intros []|]. destruct r as [|z r']; [intros [->|[]]; cbn; lra|]. change (min_of (y :: z :: r')) with (Rmin y (min_of (z :: r'))).
  intros [->|I]; [apply Rmin_l|]. eapply Rle_trans; [apply Rmin_r|]. apply IH. exact I. Qed.
Lemma max_of_ge l x : In x l -> x <= max_of l.
Proof. induction l as [|y r IH]; [intros []|]. destruct r as [|z r']; [intros [->|[]]; cbn; lra|]. change (max_of (y :: z :: r')) with (Rmax y (max_of (z :: r'))).
  intros [->|I]; [apply Rmax_l|]. eapply Rle_trans; [|apply Rmax_r]. apply IH. exact I. Qed.
Lemma min_of_in l : l <> [] -> In (min_of l) l.
Proof. induction l as [|y r IH]; [congruence|]. intros _. destruct r as [|z r']; [left; reflexivity|]. change (min_of (y :: z :: r')) with (Rmin y (min_of (z :: r'))).
  unfold Rmin. destruct (Rle_dec y (min_of (z :: r'))); [left; reflexivity|right; apply IH; discriminate]. Qed.
Lemma max_of_in l : l <> [] -> In (max_of l) l.
Proof. induction l as [|y r IH]; [congruence|]. intros _. destruct r as [|z r']; [left; reflexivity|]. change (max_of (y :: z :: r')) with (Rmax y (max_of (z :: r'))).
  unfold Rmax. destruct (Rle_dec y (max_of (z :: r'))); [right; apply IH; discriminate|left; reflexivity]. Qed.
Lemma times_in_in ts l i c t : In (i, c) l -> time_at i ts = Some t -> In t (times_in ts l).
Proof. intros I T. unfold times_in. apply in_flat_map. exists (i, c). split; [exact I|]. cbn. rewrite T. left. reflexivity. Qed.
Definition all_timed ts (g : groups) : Prop := forall s m, In (s, m) g -> times_in ts m <> [].
Lemma ordered_groups_spec ts g : all_timed ts g -> (ordered_groups ts g = true <->
  StronglySorted (fun a b => forall x y, In x (times_in ts (snd a)) -> In y (times_in ts (snd b)) -> y <= x) g).
Proof.
  induction g as [|[s a] g IH]; intros A; [split; [constructor|reflexivity]|].
  assert (A' : all_timed ts g) by (intros s' m I; apply (A s' m); right; exact I). specialize (IH A').
  destruct g as [|[s' b] r]; [split; [repeat constructor|reflexivity]|].
  change (ordered_groups ts ((s, a) :: (s', b) :: r)) with (Rleb (max_of (times_in ts b)) (min_of (times_in ts a)) && ordered_groups ts ((s', b) :: r))%bool.
  rewrite Bool.andb_true_iff, Rleb_iff, IH. split.
  - intros [H S]. constructor; [exact S|].
    assert (B : forall x y, In x (times_in ts a) -> In y (times_in ts b) -> y <= x).
    { intros x y Ix Iy. apply min_of_le in Ix. apply max_of_ge in Iy. lra. }
    constructor; [exact B|]. inversion S as [|? ? _ F]; subst. apply Forall_forall. intros z Iz x y Ix Iy. rewrite Forall_forall in F.
    assert (N : times_in ts b <> []) by (apply (A s' b); right; left; reflexivity).
    destruct (times_in ts b) as [|w k] eqn:W; [congruence|].
    specialize (F z Iz w y). cbn [snd] in F. rewrite W in F. specialize (F (or_introl eq_refl) Iy). specialize (B x w Ix (or_introl eq_refl)). lra.
  - intros S. inversion S as [|? ? S' F]; subst. split; [|exact S']. inversion F as [|? ? B _]; subst. cbn [snd] in B.
    apply B; [apply min_of_in, (A s a); left; reflexivity|apply max_of_in, (A s' b); right; left; reflexivity].
Qed.
Lemma sorted_pos {A} (P : A -> A -> Prop) (key : A -> Z) l x y : StronglySorted P l -> StronglySorted Z.lt (map key l) -> In x l -> In y l -> (key x < key y)%Z -> P x y.
Proof.
  intros S K. induction S as [|z r S IH F]; [intros []|]. cbn in K. inversion K as [|? ? K' FK]; subst. intros [->|I] [->|J] L.
  - lia.
  - rewrite Forall_forall in F. apply F. exact J.
  - rewrite Forall_forall in FK. specialize (FK (key x) (in_map _ _ _ I)). lia.
  - apply IH; assumption.
Qed.
Lemma removelast_in {A} (l : list A) x y (key : A -> Z) : StronglySorted Z.lt (map key l) -> In x l -> In y l -> (key x < key y)%Z -> In x (removelast l).
Proof.
  intros K. induction l as [|z r IH]; [intros []|]. cbn in K. inversion K as [|? ? K' F]; subst. intros I J L. destruct r as [|w r'].
  - destruct I as [->|[]], J as [->|[]]. lia.
  - cbn [removelast]. destruct I as [->|I]; [left; reflexivity|]. right. apply IH; [exact K'|exact I| |exact L]. destruct J as [->|J]; [|exact J].
    exfalso. rewrite Forall_forall in F. specialize (F _ (in_map key _ _ I)). lia.
Qed.
Lemma group_of l i c s : In (i, c) l -> q_seq c = Some s -> exists m, In (s, m) (sorted_groups l) /\ In (i, c) m.
Proof.
  intros I Q. destruct (sorted_groups_good l) as ((_ & F & K) & _).
  assert (X : In s (map fst (sorted_groups l))) by (apply K; exists (i, c); split; [exact I|exact Q]).
  apply in_map_iff in X. destruct X as ([s' m] & E & X). cbn in E. subst s'. exists m. split; [exact X|]. rewrite (proj2 (F s m X)).
  apply filter_In. split; [exact I|]. apply tag_is_iff. exact Q.
Qed.
Lemma groups_timed craters ext ts : outcome craters ext ts -> all_timed ts (sorted_groups (valid craters)).
Proof.
  intros (_ & T & _) s m I. destruct (sorted_groups_good (valid craters)) as ((_ & F & _) & _). destruct (F s m I) as [N E].
  destruct m as [|[i c] r]; [congruence|]. assert (J : In (i, c) (valid craters)) by (apply (filter_In (tag_is s)); rewrite <- E; left; reflexivity).
  destruct (T _ J) as (t & A & _). cbn in A. intros X. apply (in_nil (a := t)). rewrite <- X. apply (times_in_in ts _ i c); [left; reflexivity|exact A].
Qed.
Lemma in_removelast {A} (l : list A) x : In x (removelast l) -> In x l.
Proof. induction l as [|a l IH]; [intros []|]. destruct l; [intros []|]. cbn [removelast]. intros [->|I]; [left; reflexivity|right; apply IH; exact I]. Qed.
Lemma sorted_removelast {A} (P : A -> A -> Prop) l : StronglySorted P l -> StronglySorted P (removelast l).
Proof.
  induction 1 as [|x r S IH F]; [constructor|]. destruct r as [|y r']; [constructor|]. cbn [removelast]. constructor; [exact IH|].
  rewrite Forall_forall in *. intros z I. apply F. apply in_removelast. exact I.
Qed.
Lemma map_removelast {A B} (f : A -> B) l : map f (removelast l) = removelast (map f l).
Proof. induction l as [|a l IH]; [reflexivity|]. destruct l; [reflexivity|]. cbn [removelast map] in *. f_equal. exact IH. Qed.
Lemma process_order dmax craters res d c1 c2 c3 a b s t1 t2 : process dmax craters = Ok (res, d) ->
  In (c1, t1) res -> In (c2, t2) res -> q_seq c1 = Some a -> q_seq c2 = Some b -> (a < b)%Z ->
  In c3 craters -> q_seq c3 = Some s -> (b < s)%Z -> t2 <= t1.
Proof.
  intros E I1 I2 Q1 Q2 L I3 Q3 L3. destruct (process_ok _ _ _ _ E) as (ext & ts & O & R & _). rewrite R in I1, I2.
  apply (Permutation_in _ (sort_perm _ _)) in I1, I2. apply timed_in in I1, I2. destruct I1 as (i & V1 & T1), I2 as (j & V2 & T2).
  assert (V3 : exists k, In (k, c3) (valid craters)).
  { assert (X : In c3 (map snd (valid craters))).
    { unfold valid. rewrite number_from_snd. apply filter_In. split; [exact I3|]. apply has_metadata_iff. right. congruence. }
    apply in_map_iff in X. destruct X as ([k c] & <- & X). exists k. exact X. }
  destruct V3 as (k & V3). set (l := valid craters) in *. destruct (sorted_groups_good l) as (_ & S).
  destruct (group_of l i c1 a V1 Q1) as (m1 & G1 & M1), (group_of l j c2 b V2 Q2) as (m2 & G2 & M2), (group_of l k c3 s V3 Q3) as (m3 & G3 & _).
  pose proof (groups_timed craters ext ts O) as AT. destruct O as (_ & _ & C). fold l in C, AT. unfold sequence_is_consistent in C.
  apply ordered_groups_spec in C; [|intros x m I; apply (AT x m), in_removelast; exact I].
  eapply (sorted_pos _ fst _ (a, m1) (b, m2)) in C.
  - cbn [snd] in C. apply C; [apply (times_in_in ts m1 i c1); assumption|apply (times_in_in ts m2 j c2); assumption].
  - rewrite map_removelast. apply sorted_removelast. exact S.
  - apply (removelast_in _ (a, m1) (s, m3) fst); [exact S|exact G1|exact G3|cbn; lia].
  - apply (removelast_in _ (b, m2) (s, m3) fst); [exact S|exact G2|exact G3|cbn; lia].
  - cbn. exact L.
Qed.
End Process.
