From Coq Require Import Reals List Lia Lra Bool Arith.
From Verif Require Import Common Tally_model Tally_spec.
Import ListNotations.
Open Scope string_scope.

Section Kw.
Variable val : Type.
Variable no : val.
Notation kwargs := (kwargs val).
Notation without := (without val).
Notation others := (others val).
Notation has := (has val).
Notation option_of := (option_of val no).

Lemma without_twice k (kw : kwargs) : without k (without k kw) = without k kw.
Proof.
  unfold Tally_model.without. induction kw as [|p r IH]; [reflexivity|]. cbn.
  destruct (String.eqb (fst p) k) eqn:E; cbn; [exact IH | rewrite E; cbn; f_equal; exact IH].
Qed.
Lemma without_comm k j (kw : kwargs) : without k (without j kw) = without j (without k kw).
Proof.
  unfold Tally_model.without. induction kw as [|p r IH]; [reflexivity|]. cbn.
  destruct (String.eqb (fst p) j) eqn:E, (String.eqb (fst p) k) eqn:F; cbn; rewrite ?E, ?F; cbn; rewrite ?IH; reflexivity.
Qed.
Lemma others_twice kw : others (others kw) = others kw.
Proof.
  unfold Tally_spec.others. rewrite (without_comm "fit_center" "fit_ellipse"), without_twice, without_twice. reflexivity.
Qed.
Lemma find_without k (kw : kwargs) : find (fun p => String.eqb (fst p) k) (without k kw) = None.
Proof.
  unfold Tally_model.without. induction kw as [|p r IH]; [reflexivity|]. cbn.
  destruct (String.eqb (fst p) k) eqn:E; cbn; [exact IH | rewrite E; exact IH].
Qed.
Lemma find_other k j (kw : kwargs) : String.eqb k j = false ->
  find (fun p => String.eqb (fst p) k) (without j kw) = find (fun p => String.eqb (fst p) k) kw.
Proof.
  intros N. unfold Tally_model.without. induction kw as [|p r IH]; [reflexivity|]. cbn.
  destruct (String.eqb (fst p) j) eqn:E; cbn.
  - apply String.eqb_eq in E. rewrite E, String.eqb_sym, N. exact IH.
  - destruct (String.eqb (fst p) k); [reflexivity | exact IH].
Qed.
Lemma has_find k (kw : kwargs) : has k kw = match find (fun p => String.eqb (fst p) k) kw with Some _ => true | None => false end.
Proof. unfold Tally_model.has. induction kw as [|p r IH]; [reflexivity|]. cbn. destruct (String.eqb (fst p) k); [reflexivity|exact IH]. Qed.
Lemma has_crater kw : has "crater" (others kw) = has "crater" kw.
Proof. rewrite !has_find. unfold Tally_spec.others. rewrite !find_other by reflexivity. reflexivity. Qed.
Lemma center_others kw : option_of "fit_center" (others kw) = no.
Proof. unfold Tally_spec.option_of, Tally_spec.others. rewrite find_other by reflexivity. rewrite find_without. reflexivity. Qed.
Lemma ellipse_others kw : option_of "fit_ellipse" (others kw) = no.
Proof. unfold Tally_spec.option_of, Tally_spec.others. rewrite find_without. reflexivity. Qed.
End Kw.

Section Proofs.
Variables val measured : Type.
Variable no : val.
Variable fit : nat -> val -> val -> kwargs val -> measured -> result measured.
Variable degrade : nat -> kwargs val -> measured -> result (measured * R).
Variable visible : nat -> kwargs val -> measured -> result R.
Notation kwargs := (kwargs val).
Notation counts := (counts measured).
Notation crater_of := (crater_of measured).
Notation observed := (observed measured).
Notation emplaced := (emplaced measured).
Notation values := (values measured).
Notation loop := (loop val measured no fit degrade visible).
Notation rim := (rim val measured no fit).
Notation wear := (wear val measured degrade visible).
Notation tally := (tally val measured no fit degrade visible).
Notation known := (known measured).
Notation others := (others val).
Notation option_of := (option_of val no).
Notation calls_for := (calls_for val).
Notation measured_as := (measured_as val measured fit degrade visible).

Definition eff (mr : bool) (kw : kwargs) : kwargs := if mr then others kw else kw.
Lemma eff_twice mr kw : eff mr (eff mr kw) = eff mr kw.
Proof. destruct mr; cbn; [apply others_twice | reflexivity]. Qed.
Lemma eff_crater mr kw : has val "crater" (eff mr kw) = has val "crater" kw.
Proof. destruct mr; cbn; [apply has_crater | reflexivity]. Qed.

Lemma rim_eq mr id r kw s : rim mr id r kw s =
  if mr then
    if has val "crater" kw then ([], others kw, Err TypeError)
    else ([FitRim val id (option_of "fit_center" kw) (option_of "fit_ellipse" kw) (others kw)], others kw,
          rbind (fit id (option_of "fit_center" kw) (option_of "fit_ellipse" kw) (others kw) (values s r))
                (fun x => Ok (put measured r x s)))
  else ([], kw, Ok s).
Proof.
  destruct mr; [|reflexivity].
  unfold Tally_model.rim, Tally_model.pop. fold (others kw).
  rewrite has_crater. unfold Tally_spec.option_of.
  rewrite (find_other val "fit_ellipse" "fit_center") by reflexivity. reflexivity.
Qed.

(** Where the loop stands: after the first crater the two options are gone. *)
Lemma step_ok mr id (more : list nat) kw s r s1 s2 gone t1 kw' t2 :
  crater_of id s = Some r -> rim mr id r kw s = (t1, kw', Ok s1) -> wear id r kw' s1 = (t2, Ok (s2, gone)) ->
  kw' = eff mr kw /\
  (t1 ++ t2)%list = calls_for mr (option_of "fit_center" kw) (option_of "fit_ellipse" kw) kw id /\
  observed s2 = observed s /\ emplaced s2 = emplaced s /\ (forall q, q <> r -> values s2 q = values s q) /\
  measured_as mr (option_of "fit_center" kw) (option_of "fit_ellipse" kw) kw id (values s r) (values s2 r) (gone = true).
Proof.
  intros C E F. rewrite rim_eq in E. unfold Tally_model.wear in F. unfold Tally_spec.measured_as, Tally_spec.calls_for, eff.
  destruct mr.
  - destruct (has val "crater" kw); [discriminate|].
    destruct (fit _ _ _ _ _) as [x|] eqn:G; cbn in E; [|discriminate].
    injection E as <- <- <-.
    destruct (has val "crater" _); [discriminate|]. cbn in F. rewrite Nat.eqb_refl in F.
    destruct (degrade _ _ _) as [[x2 kd]|] eqn:D; [|discriminate].
    destruct (visible _ _ _) as [kv|] eqn:V; cbn in F; [|discriminate].
    injection F as <- <- <-. cbn. repeat split.
    + intros q N. apply Nat.eqb_neq in N. rewrite !N. reflexivity.
    + rewrite Nat.eqb_refl. exists x, kd, kv. repeat split; auto.
      * destruct (Rle_dec kv kd); [intros _; lra | discriminate].
      * intros. destruct (Rle_dec kv kd); [reflexivity | lra].
  - injection E as <- <- <-.
    destruct (has val "crater" _); [discriminate|].
    destruct (degrade _ _ _) as [[x2 kd]|] eqn:D; [|discriminate].
    destruct (visible _ _ _) as [kv|] eqn:V; cbn in F; [|discriminate].
    injection F as <- <- <-. cbn. repeat split.
    + intros q N. apply Nat.eqb_neq in N. rewrite !N. reflexivity.
    + rewrite Nat.eqb_refl. exists (values s r), kd, kv. repeat split; auto.
      * destruct (Rle_dec kv kd); [intros _; lra | discriminate].
      * intros. destruct (Rle_dec kv kd); [reflexivity | lra].
Qed.

Lemma calls_eff mr c e kw i : calls_for mr c e (eff mr kw) i = calls_for mr c e kw i.
Proof. unfold Tally_spec.calls_for, eff. destruct mr; [rewrite others_twice|]; reflexivity. Qed.
Lemma measured_eff mr c e kw i x y g : measured_as mr c e (eff mr kw) i x y g <-> measured_as mr c e kw i x y g.
Proof. unfold Tally_spec.measured_as, eff. destruct mr; [rewrite others_twice|]; reflexivity. Qed.
(** Without measuring the rim, the two options do not matter. *)
Lemma calls_any c e c' e' kw i : calls_for false c e kw i = calls_for false c' e' kw i.
Proof. reflexivity. Qed.

Lemma known_obs s s' ids : observed s' = observed s -> known s' ids = known s ids.
Proof. intros E. unfold Tally_spec.known, Tally_model.crater_of. rewrite E. reflexivity. Qed.
Lemma crater_obs s s' i : observed s' = observed s -> crater_of i s' = crater_of i s.
Proof. intros E. unfold Tally_model.crater_of. rewrite E. reflexivity. Qed.

Notation expected := (Tally_spec.expected val no).
Lemma expected_eff mr kw l : expected mr (eff mr kw) l = flat_map (calls_for mr no no kw) l.
Proof.
  destruct l as [|i r]; [reflexivity|]. cbn. rewrite calls_eff. f_equal.
  - destruct mr; [cbn [eff]; rewrite center_others, ellipse_others|]; reflexivity.
  - apply flat_map_ext. intros a. apply calls_eff.
Qed.

Ltac cases E :=
  match type of E with context [match crater_of ?i ?s with _ => _ end] =>
    let C := fresh "C" in destruct (crater_of i s) as [r|] eqn:C end.

Lemma loop_trace mr ids : forall kw s, raised _ _ (loop mr kw ids s) = None ->
  trace _ _ (loop mr kw ids s) = expected mr kw (known s ids).
Proof.
  induction ids as [|id more IH]; intros kw s H; [reflexivity|]. cbn in H |- *.
  destruct (crater_of id s) as [r|] eqn:C.
  - destruct (rim mr id r kw s) as [[t1 kw'] [s1|e]] eqn:E; [|discriminate].
    destruct (wear id r kw' s1) as [t2 [[s2 gone]|e]] eqn:F; [|discriminate]. cbn in H |- *.
    destruct (step_ok mr id more kw s r s1 s2 gone t1 kw' t2 C E F) as (-> & T & O & _).
    rewrite app_assoc, T, (IH _ _ H), expected_eff, (known_obs s s2 _ O). reflexivity.
  - cbn in H |- *. apply IH; assumption.
Qed.

Lemma loop_lists mr ids : forall kw s,
  observed (state _ _ (loop mr kw ids s)) = observed s /\ emplaced (state _ _ (loop mr kw ids s)) = emplaced s.
Proof.
  induction ids as [|id more IH]; intros kw s; [split; reflexivity|]. cbn.
  destruct (crater_of id s) as [r|] eqn:C; [|cbn; apply IH].
  rewrite rim_eq.
  assert (W : forall kw1 s1, observed s1 = observed s -> emplaced s1 = emplaced s ->
    forall t2 s2 g, wear id r kw1 s1 = (t2, Ok (s2, g)) -> observed s2 = observed s /\ emplaced s2 = emplaced s).
  { intros kw1 s1 A B t2 s2 g F. unfold Tally_model.wear in F. destruct (has val "crater" kw1); [discriminate|].
    destruct (degrade _ _ _) as [[x kd]|]; [|discriminate]. destruct (visible _ _ _); cbn in F; [|discriminate].
    injection F as <- <- <-. split; assumption. }
  destruct mr.
  - destruct (has val "crater" kw); [split; reflexivity|].
    destruct (fit _ _ _ _ _) as [x|]; cbn; [|split; reflexivity].
    destruct (wear id r (others kw) (put measured r x s)) as [t2 [[s2 g]|e]] eqn:F; cbn; [|split; reflexivity].
    destruct (W (others kw) (put measured r x s) eq_refl eq_refl _ _ _ F) as [A B].
    destruct (IH (others kw) s2) as [P Q]. rewrite P, Q. split; assumption.
  - destruct (wear id r kw s) as [t2 [[s2 g]|e]] eqn:F; cbn; [|split; reflexivity].
    destruct (W kw s eq_refl eq_refl _ _ _ F) as [A B].
    destruct (IH kw s2) as [P Q]. rewrite P, Q. split; assumption.
Qed.

(** Values of objects that no id in the list belongs to; also when an exception is raised. *)
Lemma loop_other mr ids : forall kw s q, (forall i, In i ids -> crater_of i s <> Some q) ->
  values (state _ _ (loop mr kw ids s)) q = values s q.
Proof.
  induction ids as [|id more IH]; intros kw s q H; [reflexivity|]. cbn.
  destruct (crater_of id s) as [r|] eqn:C; [|cbn; apply IH; intros i I; apply H; right; exact I].
  assert (N : Nat.eqb q r = false).
  { apply Nat.eqb_neq. intros ->. exact (H id (or_introl eq_refl) C). }
  assert (K : forall kw1 s1, observed s1 = observed s -> values s1 q = values s q ->
     forall t2 x, wear id r kw1 s1 = (t2, x) ->
     values (state _ _ (match x with Err e => mkProgress _ _ t2 s1 [] (Some e)
              | Ok (s2, g) => loop mr kw1 more s2 end)) q = values s q).
  { intros kw1 s1 A B t2 x F. unfold Tally_model.wear in F. destruct (has val "crater" kw1).
    - injection F as <- <-. exact B.
    - destruct (degrade _ _ _) as [[y kd]|]; [|injection F as <- <-; exact B].
      destruct (visible _ _ _); cbn in F; injection F as <- <-; [|exact B].
      rewrite IH; [cbn; rewrite N; exact B|].
      intros i I. rewrite (crater_obs s); [apply H; right; exact I | exact A]. }
  rewrite rim_eq. destruct mr.
  - destruct (has val "crater" kw); [reflexivity|].
    destruct (fit _ _ _ _ _) as [x|]; cbn; [|reflexivity].
    assert (B : values (put measured r x s) q = values s q) by (cbn; rewrite N; reflexivity).
    specialize (K (others kw) (put measured r x s) eq_refl B).
    destruct (wear id r (others kw) (put measured r x s)) as [t2 [[s2 g]|e]] eqn:F; cbn;
      [exact (K t2 (Ok (s2, g)) eq_refl) | exact (K t2 (Err e) eq_refl)].
  - cbn. specialize (K kw s eq_refl eq_refl).
    destruct (wear id r kw s) as [t2 [[s2 g]|e]] eqn:F; cbn;
      [exact (K t2 (Ok (s2, g)) eq_refl) | exact (K t2 (Err e) eq_refl)].
Qed.

Notation first := (Tally_spec.first measured).
Lemma option_eq_dec_first s ids i : first s ids i \/ ~ first s ids i.
Proof.
  unfold Tally_spec.first. destruct (hd_error (known s ids)) as [j|]; [|right; discriminate].
  destruct (Nat.eq_dec j i) as [->|N]; [left; reflexivity | right; intros E; injection E as ->; contradiction].
Qed.
Lemma gone_ext mr c e kw i x y g g' : (g <-> g') -> measured_as mr c e kw i x y g -> measured_as mr c e kw i x y g'.
Proof. intros E (x1 & kd & kv & A & B & D & G). exists x1, kd, kv. rewrite <- E. auto. Qed.

Notation distinct := (Tally_spec.distinct measured).

Lemma loop_values mr ids : forall kw s, raised _ _ (loop mr kw ids s) = None -> NoDup ids -> distinct s ->
  forall i r, In i ids -> crater_of i s = Some r ->
  let s' := state _ _ (loop mr kw ids s) in
  let gone := In i (to_remove _ _ (loop mr kw ids s)) in
  (first s ids i -> measured_as mr (option_of "fit_center" kw) (option_of "fit_ellipse" kw) kw i (values s r) (values s' r) gone) /\
  (~ first s ids i -> measured_as mr no no kw i (values s r) (values s' r) gone).
Proof.
  induction ids as [|id more IH]; intros kw s H ND DI i q IN CQ; [destruct IN|].
  inversion ND as [|? ? NI ND']; subst.
  cbn in H |- *. unfold Tally_spec.first. cbn [Tally_spec.known filter]. 
  destruct (crater_of id s) as [r|] eqn:C.
  - destruct (rim mr id r kw s) as [[t1 kw'] [s1|e]] eqn:E; [|discriminate].
    destruct (wear id r kw' s1) as [t2 [[s2 gone]|e]] eqn:F; [|discriminate]. cbn in H |- *.
    destruct (step_ok mr id more kw s r s1 s2 gone t1 kw' t2 C E F) as (-> & _ & O & _ & V & M).
    assert (D2 : distinct s2).
    { intros a b z. rewrite !(crater_obs s s2 _ O). apply DI. }
    destruct (Nat.eq_dec i id) as [->|NE].
    + rewrite C in CQ. injection CQ as <-.
      assert (S2 : values (state _ _ (loop mr (eff mr kw) more s2)) r = values s2 r).
      { apply loop_other. intros j J. rewrite (crater_obs s s2 _ O). intros X. apply NI.
        rewrite (DI _ _ _ C X). exact J. }
      assert (NR : ~ In id (to_remove _ _ (loop mr (eff mr kw) more s2))).
      { intros X. clear -X NI. revert X. generalize (eff mr kw), s2. clear s2. induction more as [|j l IHl]; intros k s X; [destruct X|].
        cbn in X. destruct (crater_of j s) as [rj|]; cbn in X.
        - destruct (rim mr j rj k s) as [[u1 k'] [z1|e]]; [|destruct X].
          destruct (wear j rj k' z1) as [u2 [[z2 g]|e]]; [|destruct X]. cbn in X.
          assert (Y : In id (to_remove _ _ (loop mr k' l z2)) \/ j = id) by (destruct g; [destruct X; auto | auto]).
          destruct Y as [Y|Y]; [|apply NI; left; auto].
          apply (IHl (fun z => NI (or_intror z)) _ _ Y).
        - destruct X as [X|X]; [apply NI; left; auto|]. apply (IHl (fun z => NI (or_intror z)) _ _ X). }
      split; [intros _ | intros X; exfalso; apply X; reflexivity].
      rewrite S2. refine (gone_ext _ _ _ _ _ _ _ _ _ _ M).
      destruct gone; cbn; [split; auto|]. split; intros X; [discriminate X | contradiction (NR X)].
    + destruct IN as [<-|IN]; [contradiction|].
      split; [intros X; injection X as ->; contradiction|]. intros _.
      assert (C2 : crater_of i s2 = Some q) by (rewrite (crater_obs s s2 _ O); exact CQ).
      destruct (IH (eff mr kw) s2 H ND' D2 i q IN C2) as [A B]. fold (first s2 more i) in *.
      assert (Q : q <> r) by (intros ->; apply NE; exact (DI _ _ _ CQ C)).
      rewrite (V q Q) in A, B.
      assert (R1 : measured_as mr no no kw i (values s q) (values (state _ _ (loop mr (eff mr kw) more s2)) q)
                     (In i (to_remove _ _ (loop mr (eff mr kw) more s2)))).
      { destruct (option_eq_dec_first s2 more i) as [Y|Y].
        - specialize (A Y). rewrite measured_eff in A. destruct mr; [|exact A].
          cbn [eff] in A. rewrite center_others, ellipse_others in A. exact A.
        - specialize (B Y). rewrite measured_eff in B. exact B. }
      refine (gone_ext _ _ _ _ _ _ _ _ _ _ R1). destruct gone; cbn; [|reflexivity].
      split; [auto | intros [<-|X]; [contradiction|exact X]].
  - cbn in H |- *. destruct IN as [<-|IN]; [congruence|].
    destruct (IH kw s H ND' DI i q IN CQ) as [A B].
    assert (NE : id <> i) by (intros ->; contradiction).
    split; intros X.
    + refine (gone_ext _ _ _ _ _ _ _ _ _ _ (A X)). split; [right; assumption | intros [?|?]; [contradiction|assumption]].
    + refine (gone_ext _ _ _ _ _ _ _ _ _ _ (B X)). split; [right; assumption | intros [?|?]; [contradiction|assumption]].
Qed.

(* ------------------------------ the tally ------------------------------ *)
Lemma removed_values l : forall s, values (fold_left (fun s i => remove measured i s) l s) = values s.
Proof. induction l as [|i l IH]; intros s; [reflexivity|]. cbn. rewrite IH. reflexivity. Qed.
Lemma removed_emplaced l : forall s, emplaced (fold_left (fun s i => remove measured i s) l s) = emplaced s.
Proof. induction l as [|i l IH]; intros s; [reflexivity|]. cbn. rewrite IH. reflexivity. Qed.
Lemma find_removed (l : list (nat * nat)) i j :
  find (fun p => Nat.eqb (fst p) j) (filter (fun p => negb (Nat.eqb (fst p) i)) l) =
  if Nat.eqb i j then None else find (fun p => Nat.eqb (fst p) j) l.
Proof.
  induction l as [|p l IH]; cbn; [destruct (Nat.eqb i j); reflexivity|].
  destruct (Nat.eqb (fst p) i) eqn:E; cbn.
  - rewrite IH. apply Nat.eqb_eq in E. rewrite E. destruct (Nat.eqb i j); reflexivity.
  - rewrite IH. destruct (Nat.eqb (fst p) j) eqn:F; [|reflexivity].
    apply Nat.eqb_eq in F. rewrite <- F, Nat.eqb_sym, E. reflexivity.
Qed.
Lemma removed_of l : forall s j, crater_of j (fold_left (fun s i => remove measured i s) l s) =
  if in_dec Nat.eq_dec j l then None else crater_of j s.
Proof.
  induction l as [|i l IH]; intros s j; [reflexivity|]. cbn [fold_left]. rewrite IH.
  destruct (in_dec Nat.eq_dec j l) as [A|A], (in_dec Nat.eq_dec j (i :: l)) as [B|B]; try reflexivity.
  - exfalso. apply B. right. exact A.
  - destruct B as [<-|B]; [|contradiction]. unfold Tally_model.crater_of. cbn. rewrite find_removed, Nat.eqb_refl. reflexivity.
  - unfold Tally_model.crater_of. cbn. rewrite find_removed.
    replace (Nat.eqb i j) with false; [reflexivity|]. symmetry. apply Nat.eqb_neq. intros ->. apply B. left. reflexivity.
Qed.
Lemma only_seen_removed mr ids : forall kw s j, In j (to_remove _ _ (loop mr kw ids s)) -> In j ids.
Proof.
  induction ids as [|i l IH]; intros kw s j X; [destruct X|]. cbn in X.
  destruct (crater_of i s) as [r|]; cbn in X.
  - destruct (rim mr i r kw s) as [[t1 kw'] [s1|e]]; [|destruct X].
    destruct (wear i r kw' s1) as [t2 [[s2 g]|e]]; [|destruct X]. cbn in X.
    destruct g; [destruct X as [X|X]; [left; exact X|]|]; right; exact (IH _ _ _ X).
  - destruct X as [X|X]; [left; exact X | right; exact (IH _ _ _ X)].
Qed.

Lemma tally_calls mr kw ids s t s' : tally mr kw ids s = (t, s', None) -> t = expected mr kw (known s ids).
Proof.
  unfold Tally_model.tally. intros E. injection E as <- _ H. apply loop_trace. exact H.
Qed.
Lemma tally_alike mr kw ids s t s' : tally mr kw ids s = (t, s', None) ->
  mr = false \/ (has val "fit_center" kw = false /\ has val "fit_ellipse" kw = false) ->
  t = flat_map (calls_for mr no no kw) (known s ids).
Proof.
  intros E O. rewrite (tally_calls _ _ _ _ _ _ E). destruct (known s ids) as [|i r]; [reflexivity|]. cbn. f_equal.
  destruct O as [-> | [A B]]; [reflexivity|].
  rewrite has_find in A, B. unfold Tally_spec.option_of.
  destruct (find _ kw); [discriminate|]. destruct (find _ kw); [discriminate|]. reflexivity.
Qed.
Lemma tally_first kw ids s t s' i j r : tally true kw ids s = (t, s', None) -> known s ids = i :: j :: r ->
  In (FitRim val i (option_of "fit_center" kw) (option_of "fit_ellipse" kw) (others kw)) t /\
  In (FitRim val j no no (others kw)) t.
Proof.
  intros E K. rewrite (tally_calls _ _ _ _ _ _ E), K. cbn. split; [left; reflexivity|]. right. right. right. left. reflexivity.
Qed.
Lemma tally_results mr kw ids s t s' : tally mr kw ids s = (t, s', None) -> NoDup ids -> distinct s ->
  forall i r, crater_of i s = Some r ->
  (~ In i ids -> crater_of i s' = Some r /\ values s' r = values s r) /\
  (In i ids ->
     (first s ids i -> measured_as mr (option_of "fit_center" kw) (option_of "fit_ellipse" kw) kw i (values s r) (values s' r) (crater_of i s' = None)) /\
     (~ first s ids i -> measured_as mr no no kw i (values s r) (values s' r) (crater_of i s' = None)) /\
     (crater_of i s' = None \/ crater_of i s' = Some r)).
Proof.
  unfold Tally_model.tally. intros E ND DI i r C. injection E as _ <- H. rewrite H.
  pose proof (loop_lists mr ids kw s) as [LO _].
  rewrite removed_values, removed_of, (crater_obs s _ _ LO), C.
  split.
  - intros N. destruct (in_dec _ _ _) as [X|X]; [exfalso; exact (N (only_seen_removed _ _ _ _ _ X))|].
    split; [reflexivity|]. apply loop_other. intros j J X2. apply N. rewrite (DI _ _ _ C X2). exact J.
  - intros IN. destruct (loop_values mr ids kw s H ND DI i r IN C) as [A B].
    assert (G : In i (to_remove _ _ (loop mr kw ids s)) <->
      (if in_dec Nat.eq_dec i (to_remove _ _ (loop mr kw ids s)) then None else Some r) = None).
    { destruct (in_dec _ _ _); split; intros; auto; [contradiction | discriminate]. }
    split; [intros F; exact (gone_ext _ _ _ _ _ _ _ _ _ G (A F))|].
    split; [intros F; exact (gone_ext _ _ _ _ _ _ _ _ _ G (B F))|].
    destruct (in_dec _ _ _); [left | right]; reflexivity.
Qed.
Lemma tally_raised mr kw ids s t s' e : tally mr kw ids s = (t, s', Some e) ->
  observed s' = observed s /\ emplaced s' = emplaced s /\
  (forall q, (forall i, In i ids -> crater_of i s <> Some q) -> values s' q = values s q).
Proof.
  unfold Tally_model.tally. intros E. injection E as _ <- H. rewrite H.
  pose proof (loop_lists mr ids kw s) as [A B]. split; [exact A|]. split; [exact B|].
  intros q Q. apply loop_other. exact Q.
Qed.
Lemma tally_others mr kw ids s q : (forall i, In i ids -> crater_of i s <> Some q) ->
  values (snd (fst (tally mr kw ids s))) q = values s q.
Proof.
  intros Q. unfold Tally_model.tally. cbn. destruct (raised _ _ _); [|rewrite removed_values]; apply loop_other; exact Q.
Qed.
Lemma tally_clash mr kw ids s : has val "crater" kw = true ->
  tally mr kw ids s = (if known s ids then ([], fold_left (fun s i => remove measured i s) ids s, None) else ([], s, Some TypeError)).
Proof.
  intros X. unfold Tally_model.tally.
  assert (L : loop mr kw ids s = if known s ids then mkProgress _ _ [] s ids None
    else mkProgress _ _ [] s (to_remove _ _ (loop mr kw ids s)) (Some TypeError)).
  { clear -X. induction ids as [|i l IH]; [reflexivity|]. cbn. destruct (crater_of i s) as [r|].
    - rewrite rim_eq, X. destruct mr; [reflexivity|]. unfold Tally_model.wear. rewrite X. reflexivity.
    - fold (known s l). rewrite IH. destruct (known s l); reflexivity. }
  rewrite L. destruct (known s ids); reflexivity.
Qed.

(* ------------------------------ a new morphology ------------------------------ *)
Variable promote : measured -> measured.
Notation renew_all := (renew_all measured promote).
Notation set_morphology := (set_morphology measured promote).
Notation next := (next measured).
Lemma renewed l : forall s qs s', (forall r, In r l -> r < next s) -> renew_all l s = (qs, s') ->
  qs = seq (next s) (List.length l) /\ next s' = next s + List.length l /\ observed s' = observed s /\ emplaced s' = emplaced s /\
  (forall q, q < next s -> values s' q = values s q) /\
  map (values s') qs = map (fun r => promote (values s r)) l.
Proof.
  induction l as [|r l IH]; intros s qs s' B E; cbn in E.
  - injection E as <- <-. cbn. repeat split; auto.
  - destruct (Tally_model.renew_all _ _ _ _) as [q2 s2] eqn:F. injection E as <- <-.
    set (s1 := mkCounts _ _ _ _ _) in F.
    assert (B1 : forall q, In q l -> q < next s1) by (intros q Q; cbn; specialize (B q (or_intror Q)); lia).
    destruct (IH s1 q2 s2 B1 F) as (-> & N & O & M & V & P). cbn [Tally_model.next s1] in *.
    split; [reflexivity|]. split; [cbn; lia|]. split; [exact O|]. split; [exact M|].
    assert (B0 : r < next s) by (apply B; left; reflexivity).
    split.
    + intros q Q. rewrite V by (cbn; lia). cbn. replace (Nat.eqb q (next s)) with false; [reflexivity|].
      symmetry. apply Nat.eqb_neq. lia.
    + cbn [map]. rewrite P. f_equal.
      * rewrite V by (cbn; lia). cbn. rewrite Nat.eqb_refl. reflexivity.
      * apply map_ext_in. intros q Q. cbn. specialize (B q (or_intror Q)).
        replace (Nat.eqb q (next s)) with false; [reflexivity|]. symmetry. apply Nat.eqb_neq. lia.
Qed.
Notation made := (Tally_spec.made measured).
Lemma map_fst_combine {A B} (a : list A) (b : list B) : List.length a = List.length b ->
  map fst (combine a b) = a /\ map snd (combine a b) = b.
Proof.
  revert b. induction a as [|x a IH]; intros [|y b] L; cbn in *; try discriminate; [split; reflexivity|].
  injection L as L. destruct (IH b L) as [P Q]. rewrite P, Q. split; reflexivity.
Qed.
Lemma renewed_morphology s : made s -> let s' := set_morphology s in
  List.length (emplaced s') = List.length (emplaced s) /\ map fst (observed s') = map fst (observed s) /\
  map (values s') (emplaced s') = map (fun r => promote (values s r)) (emplaced s) /\
  map (fun p => values s' (snd p)) (observed s') = map (fun p => promote (values s (snd p))) (observed s) /\
  (forall r p, In r (emplaced s') -> In p (observed s') -> r <> snd p) /\ made s'.
Proof.
  intros [ME MO]. unfold Tally_model.set_morphology.
  destruct (renew_all (emplaced s) s) as [e s1] eqn:E.
  destruct (renewed _ _ _ _ ME E) as (-> & N1 & O1 & _ & V1 & P1).
  destruct (renew_all (map snd (observed s)) s1) as [o s2] eqn:F.
  assert (B1 : forall r, In r (map snd (observed s)) -> r < next s1).
  { intros r I. apply in_map_iff in I as (p & <- & I). specialize (MO p I). lia. }
  destruct (renewed _ _ _ _ B1 F) as (-> & N2 & O2 & _ & V2 & P2). rewrite map_length in *. cbn.
  destruct (map_fst_combine (map fst (observed s)) (seq (next s1) (List.length (observed s)))) as [A B].
  { rewrite map_length, seq_length. reflexivity. }
  split; [apply seq_length|]. split; [exact A|]. split.
  - rewrite <- P1. apply map_ext_in. intros q Q. apply in_seq in Q. apply V2. lia.
  - split.
    + rewrite <- (map_map snd (values s2)), B, P2, map_map. apply map_ext_in. intros p I. f_equal. apply V1. exact (MO p I).
    + split.
      * intros r [i q] R I. apply in_seq in R. apply in_combine_r in I. apply in_seq in I. cbn. lia.
      * split; cbn; [intros r R; apply in_seq in R; lia|].
        intros [i q] I. apply in_combine_r in I. apply in_seq in I. cbn. lia.
Qed.
Lemma crater_of_in i s r : crater_of i s = Some r -> exists p, In p (observed s) /\ snd p = r.
Proof.
  unfold Tally_model.crater_of. destruct (find _ _) as [p|] eqn:F; [|discriminate]. intros E. injection E as <-.
  apply find_some in F as [F _]. exists p. auto.
Qed.
Lemma separated s mr kw ids : made s ->
  let s1 := set_morphology s in let s2 := snd (fst (tally mr kw ids s1)) in
  emplaced s2 = emplaced s1 /\ map (values s2) (emplaced s2) = map (fun r => promote (values s r)) (emplaced s).
Proof.
  intros M. cbv zeta. destruct (renewed_morphology s M) as (_ & _ & V & _ & D & _).
  assert (E : emplaced (snd (fst (tally mr kw ids (set_morphology s)))) = emplaced (set_morphology s)).
  { unfold Tally_model.tally. cbn [fst snd]. destruct (loop_lists mr ids kw (set_morphology s)) as [_ Q].
    destruct (raised _ _ _); [|rewrite removed_emplaced]; exact Q. }
  split; [exact E|]. rewrite E, <- V. apply map_ext_in. intros r R. apply tally_others.
  intros i _ C. apply crater_of_in in C as (p & P & <-). exact (D _ _ R P eq_refl).
Qed.
End Proofs.

Lemma ex_run : exists t s', tally bool nat false ex_fit ex_degrade ex_visible true ex_kw [1; 2; 5] ex_counts = (t, s', None) /\
  List.length t = 6 /\ values nat s' 0 = 100 /\ values nat s' 1 = 11 /\ values nat s' 2 = 2 /\
  crater_of nat 2 s' = Some 0 /\ crater_of nat 5 s' = None.
Proof.
  eexists _, _. split; [reflexivity|]. cbn.
  destruct (Rle_dec 3 1); [exfalso; lra|]. destruct (Rle_dec 3 5); [|exfalso; lra]. cbn. repeat split.
Qed.
Lemma ex_two : let s1 := set_morphology nat (fun x => x) ex_counts in
  let s2 := snd (fst (tally bool nat false ex_fit ex_degrade ex_visible true ex_kw [2; 5] s1)) in
  values nat s1 3 = 0 /\ values nat s2 3 = 0 /\ crater_of nat 2 s1 = Some 5 /\ values nat s2 5 = 100.
Proof.
  cbv zeta. split; [reflexivity|]. cbn.
  destruct (Rle_dec 3 1); [exfalso; lra|]. destruct (Rle_dec 3 5); [|exfalso; lra]. cbn. repeat split.
Qed.
