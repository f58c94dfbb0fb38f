(** Proofs for cleanup (C120). *)
From Coq Require Import List.
From Verif Require Import Common Paths_model Paths_spec Paths_proofs Cleanup_model Cleanup_spec.
Import ListNotations.
Open Scope string_scope.

Lemma is_file_iff f g : is_file f g = true <-> g = f.
Proof.
  unfold is_file. pose proof (strip_spec f g) as S0. destruct (strip f g) as [[|a r]|].
  - rewrite app_nil_r in S0. tauto.
  - split; [discriminate|]. intros ->. exfalso.
    assert (E : List.length f = List.length (f ++ a :: r)%list) by (rewrite <- S0; reflexivity).
    rewrite app_length in E. cbn in E. clear - E. induction (List.length f); cbn in E; [discriminate|]. injection E. auto.
  - split; [discriminate|]. intros ->. exfalso. apply S0. exists []. rewrite app_nil_r. reflexivity.
Qed.
Lemma is_below_iff d f : is_below d f = true <-> below_dir d f.
Proof.
  unfold is_below, below_dir. pose proof (strip_spec d f) as S0. destruct (strip d f) as [[|a r]|].
  - split; [discriminate|]. intros (n & r & E). rewrite S0 in E. apply app_inv_head in E. discriminate.
  - split; eauto.
  - split; [discriminate|]. intros (n & r & E). exfalso. apply S0. exists (n :: r). exact E.
Qed.
Lemma names_eq : flat_map (fun c => [c; c ++ "_images"]) component_names = cleaned.
Proof. reflexivity. Qed.
Lemma tree_ok d fs : ~ In d fs -> remove_tree d (fs, false) = (filter (fun f => negb (is_below d f)) fs, false).
Proof.
  intros N. unfold remove_tree. destruct (existsb (is_file d) fs) eqn:E; [|reflexivity].
  exfalso. apply existsb_exists in E as (f & I & F). apply is_file_iff in F. subst f. contradiction.
Qed.
Lemma trees_ok d l : forall fs, (forall n, In n l -> ~ In (d ++ [n])%list fs) ->
  exists fs', fold_left (fun s n => remove_tree (d ++ [n])%list s) l (fs, false) = (fs', false) /\
  forall f, In f fs' <-> In f fs /\ forall n, In n l -> ~ below_dir (d ++ [n])%list f.
Proof.
  induction l as [|a l IH]; intros fs N.
  - exists fs. split; [reflexivity|]. intros f. split; [intros I; split; [exact I|intros n []] | tauto].
  - cbn [fold_left]. rewrite tree_ok by (apply N; left; reflexivity).
    destruct (IH (filter (fun f => negb (is_below (d ++ [a])%list f)) fs)) as (fs' & E & H).
    { intros n I J. apply filter_In in J as (J & _). apply (N n); [right; exact I|exact J]. }
    exists fs'. split; [exact E|]. intros f. rewrite H, filter_In. split.
    + intros ((I & B) & G). split; [exact I|]. intros n [<-|J]; [|apply G, J]. intros X. apply is_below_iff in X. rewrite X in B. discriminate.
    + intros (I & G). split; [split; [exact I|]|intros n J; apply G; right; exact J].
      destruct (is_below (d ++ [a])%list f) eqn:B; [|reflexivity]. exfalso. apply (G a (or_introl eq_refl)). apply is_below_iff, B.
Qed.
Lemma cleaned_exactly cwd g fs : no_clash (place cwd g) fs ->
  snd (cleanup cwd g fs) = false /\
  forall f, In f (fst (cleanup cwd g fs)) <->
    In f fs /\ f <> (place cwd g ++ ["cratermaker.yaml"])%list /\ forall n, In n cleaned -> ~ below_dir (place cwd g ++ [n])%list f.
Proof.
  intros N. unfold cleanup. fold (place cwd g). rewrite names_eq.
  destruct (trees_ok (place cwd g) cleaned (filter (fun f => negb (is_file (place cwd g ++ [config_name])%list f)) fs)) as (fs' & E & H).
  { intros n I J. apply filter_In in J as (J & _). apply (N n I J). }
  rewrite E. split; [reflexivity|]. cbn [fst]. intros f. rewrite H, filter_In. split.
  - intros ((I & B) & G). split; [exact I|]. split; [|exact G]. intros ->.
    assert (X : is_file (place cwd g ++ [config_name])%list (place cwd g ++ ["cratermaker.yaml"])%list = true) by (apply is_file_iff; reflexivity).
    rewrite X in B. discriminate.
  - intros (I & F & G). split; [split; [exact I|]|exact G]. destruct (is_file _ f) eqn:X; [|reflexivity].
    exfalso. apply F. apply is_file_iff in X. exact X.
Qed.
Lemma trees_keep d (P : list string -> Prop) l : (forall f n, In n l -> P f -> ~ below_dir (d ++ [n])%list f) ->
  forall s f, P f -> In f (fst s) -> In f (fst (fold_left (fun s n => remove_tree (d ++ [n])%list s) l s)).
Proof.
  induction l as [|a l IH]; intros H s f Pf I; [exact I|]. cbn [fold_left]. apply IH; [intros g n J; apply H; right; exact J|exact Pf|].
  destruct s as [fs failed]. unfold remove_tree. destruct failed; [exact I|]. destruct (existsb _ fs); [exact I|]. cbn [fst] in *.
  apply filter_In. split; [exact I|]. destruct (is_below (d ++ [a])%list f) eqn:B; [|reflexivity].
  exfalso. apply (H f a (or_introl eq_refl) Pf). apply is_below_iff, B.
Qed.
Lemma keep cwd g fs f : In f fs -> f <> (place cwd g ++ ["cratermaker.yaml"])%list ->
  (forall n, In n cleaned -> ~ below_dir (place cwd g ++ [n])%list f) -> In f (fst (cleanup cwd g fs)).
Proof.
  intros I F G. unfold cleanup. fold (place cwd g). rewrite names_eq.
  apply (trees_keep (place cwd g) (fun h => h = f)).
  - intros h n J ->. apply G, J.
  - reflexivity.
  - cbn [fst]. apply filter_In. split; [exact I|]. destruct (is_file _ f) eqn:X; [|reflexivity]. exfalso. apply F. apply is_file_iff in X. exact X.
Qed.
Lemma first_name (d : dir) a b r s : (d ++ [a] ++ r)%list = (d ++ [b] ++ s)%list -> a = b.
Proof. intros E. apply app_inv_head in E. cbn in E. congruence. Qed.
Lemma exports_stay cwd g fs f : In f fs -> export_file (place cwd g) f -> In f (fst (cleanup cwd g fs)).
Proof.
  intros I (n & r & ->). apply keep; [exact I| |].
  - intros E. rewrite <- app_assoc in E. apply app_inv_head in E. discriminate.
  - intros m M (k & s & E). rewrite <- !app_assoc in E. apply app_inv_head in E. cbn in E. injection E as <- _.
    cbn in M. repeat (destruct M as [M|M]; [discriminate|]). destruct M.
Qed.
Lemma outside_stay cwd g fs f : In f fs -> ~ inside (place cwd g) f -> In f (fst (cleanup cwd g fs)).
Proof.
  intros I O. apply keep; [exact I| |].
  - intros ->. apply O. eexists. reflexivity.
  - intros m M (k & s & ->). apply O. rewrite <- app_assoc. eexists. reflexivity.
Qed.
Lemma state_gone cwd g fs f : no_clash (place cwd g) fs -> state_file (place cwd g) f -> ~ In f (fst (cleanup cwd g fs)).
Proof.
  intros N S0 I. apply (cleaned_exactly cwd g fs N) in I as (_ & F & G). destruct S0 as [->|(n & W & B)]; [contradiction|].
  apply (G n); [|exact B]. cbn in *. intuition.
Qed.
Lemma clash cwd g fs n : In n cleaned -> In (place cwd g ++ [n])%list fs -> snd (cleanup cwd g fs) = true /\ In (place cwd g ++ [n])%list (fst (cleanup cwd g fs)).
Proof.
  intros N I. set (d := place cwd g). set (x := (d ++ [n])%list). fold d x in I.
  assert (K : forall l s, In x (fst s) -> In x (fst (fold_left (fun s n => remove_tree (d ++ [n])%list s) l s))).
  { intros l s Q. apply (trees_keep d (fun h => h = x)); [|reflexivity|exact Q]. intros f m _ -> (k & r & E). unfold x in E.
    rewrite <- app_assoc in E. apply app_inv_head in E. cbn in E. discriminate. }
  assert (T : forall l s, In x (fst s) -> (snd s = true \/ In n l) -> snd (fold_left (fun s n => remove_tree (d ++ [n])%list s) l s) = true).
  { induction l as [|a l IH]; intros s Q [H|H]; [exact H|destruct H| |]; cbn [fold_left].
    - apply IH; [apply (K [a]), Q|]. left. destruct s as [fs' fl]. cbn in H. subst fl. reflexivity.
    - apply IH; [apply (K [a]), Q|]. destruct H as [->|H]; [left|right; exact H]. destruct s as [fs' fl]. unfold remove_tree. destruct fl; [reflexivity|].
      cbn [fst] in Q. assert (existsb (is_file (d ++ [n])%list) fs' = true) as ->; [|reflexivity].
      apply existsb_exists. exists x. split; [exact Q|]. apply is_file_iff. reflexivity. }
  unfold cleanup. fold (place cwd g). fold d. rewrite names_eq.
  assert (Q : In x (filter (fun f => negb (is_file (d ++ [config_name])%list f)) fs)).
  { apply filter_In. split; [exact I|]. destruct (is_file _ x) eqn:X; [|reflexivity]. exfalso. apply is_file_iff in X. unfold x in X.
    apply app_inv_head in X. injection X as X. subst n. cbn in N. repeat (destruct N as [N|N]; [discriminate|]). destruct N. }
  split; [apply T; [exact Q|right; exact N] | apply K, Q].
Qed.
Lemma foreign : forall d r n, In n ["target"; "scaling"; "production"; "morphology"; "projectile"] ->
  let f := (d ++ n :: "notes.txt" :: r)%list in
  In n cleaned /\ ~ state_file d f /\ fst (cleanup d None [f]) = [].
Proof.
  intros d r n N f.
  assert (C : In n cleaned) by (cbn in N |- *; intuition).
  assert (B : below_dir (d ++ [n])%list f) by (exists "notes.txt", r; unfold f; rewrite <- app_assoc; reflexivity).
  split; [exact C|]. split.
  - intros [E|(m & M & k & s & E)]; unfold f in E.
    + apply app_inv_head in E. injection E as E _. subst n. cbn in N. intuition discriminate.
    + rewrite <- app_assoc in E. apply app_inv_head in E. cbn in E. injection E as E _. subst m. cbn in N, M. intuition congruence.
  - assert (NC : no_clash (place d None) [f]).
    { intros m _ [E|[]]. unfold f, place in E. apply app_inv_head in E. discriminate. }
    destruct (cleaned_exactly d None [f] NC) as (_ & H). destruct (fst (cleanup d None [f])) as [|g l]; [reflexivity|]. exfalso.
    destruct (proj1 (H g) (or_introl eq_refl)) as ([<-|[]] & _ & G). exact (G n C B).
Qed.
