(** Proofs for the configuration file (C118). *)
From Coq Require Import Reals ZArith List Lia.
From Verif Require Import Common Yaml_model Yaml_spec.
Import ListNotations.
Open Scope string_scope.

Section Ind.
Variable P : obj -> Prop.
Hypothesis Hb : forall o, match o with Lst _ | Tup _ | Dict _ => False | _ => True end -> P o.
Hypothesis Hl : forall l, Forall P l -> P (Lst l).
Hypothesis Ht : forall l, Forall P l -> P (Tup l).
Hypothesis Hd : forall l, Forall (fun p => P (snd p)) l -> P (Dict l).
Fixpoint obj_rect' (o : obj) : P o :=
  match o return P o with
  | Lst l => Hl l ((fix go l : Forall P l := match l with [] => Forall_nil _ | x :: r => Forall_cons x (obj_rect' x) (go r) end) l)
  | Tup l => Ht l ((fix go l : Forall P l := match l with [] => Forall_nil _ | x :: r => Forall_cons x (obj_rect' x) (go r) end) l)
  | Dict l => Hd l ((fix go l : Forall (fun p => P (snd p)) l :=
      match l with [] => Forall_nil _ | x :: r => Forall_cons x (obj_rect' (snd x)) (go r) end) l)
  | None_ => Hb None_ I | Bool b => Hb (Bool b) I | Int z => Hb (Int z) I | Float x => Hb (Float x) I | Str s => Hb (Str s) I
  | NpInt z => Hb (NpInt z) I | NpFloat x => Hb (NpFloat x) I | NpBool b => Hb (NpBool b) I | NpStr s => Hb (NpStr s) I
  | Arr d => Hb (Arr d) I | PathOf s => Hb (PathOf s) I | Other t => Hb (Other t) I
  end.
End Ind.
Section DInd.
Variable P : data -> Prop.
Hypothesis Hb : forall o, match o with DSeq _ | DMap _ => False | _ => True end -> P o.
Hypothesis Hl : forall l, Forall P l -> P (DSeq l).
Hypothesis Hd : forall l, Forall (fun p => P (snd p)) l -> P (DMap l).
Fixpoint data_rect' (o : data) : P o :=
  match o return P o with
  | DSeq l => Hl l ((fix go l : Forall P l := match l with [] => Forall_nil _ | x :: r => Forall_cons x (data_rect' x) (go r) end) l)
  | DMap l => Hd l ((fix go l : Forall (fun p => P (snd p)) l :=
      match l with [] => Forall_nil _ | x :: r => Forall_cons x (data_rect' (snd x)) (go r) end) l)
  | DNull => Hb DNull I | DBool b => Hb (DBool b) I | DInt z => Hb (DInt z) I | DFloat x => Hb (DFloat x) I | DStr s => Hb (DStr s) I
  end.
End DInd.

Lemma all_some {A} (l : list A) : all (map Some l) = Some l.
Proof. induction l as [|x l IH]; cbn; [reflexivity|]. rewrite IH. reflexivity. Qed.
Lemma dump_load : forall d, dump (load d) = Some d.
Proof.
  apply data_rect'.
  - intros [| | | | | |]; intros H; try reflexivity; destruct H.
  - intros l H. cbn. rewrite map_map. replace (map (fun x => dump (load x)) l) with (map Some l); [rewrite all_some; reflexivity|].
    apply map_ext_in. intros x I. rewrite Forall_forall in H. symmetry. apply H, I.
  - intros l H. cbn. rewrite map_map. cbn.
    replace (map _ l) with (map Some l); [rewrite all_some; reflexivity|].
    apply map_ext_in. intros [k x] I. rewrite Forall_forall in H. cbn. rewrite (H _ I : dump (load x) = Some x). reflexivity.
Qed.
Lemma convert_load : forall d, convert (load d) = load d.
Proof.
  apply data_rect'.
  - intros [| | | | | |]; intros H; try reflexivity; destruct H.
  - intros l H. cbn. rewrite map_map. f_equal. apply map_ext_in. intros x I. rewrite Forall_forall in H. apply H, I.
  - intros l H. cbn. rewrite map_map. f_equal. apply map_ext_in. intros [k x] I. rewrite Forall_forall in H. cbn. f_equal. apply (H _ I).
Qed.
Lemma stable d : dump (convert (load d)) = Some d.
Proof. rewrite convert_load. apply dump_load. Qed.

Lemma plain_load : forall v, plain v -> exists d, load d = v.
Proof.
  apply (obj_rect' (fun v => plain v -> exists d, load d = v)).
  - intros o H P. destruct P; try (destruct H; fail); [exists DNull | exists (DBool b) | exists (DInt z) | exists (DFloat x) | exists (DStr s)]; reflexivity.
  - intros l H P. inversion P as [| | | | | l' F |]; subst. clear P. assert (exists m, map load m = l) as [m E]; [| exists (DSeq m); cbn; rewrite E; reflexivity].
    induction H as [| v l Hv H IH]; [exists []; reflexivity |]. inversion F; subst. destruct (Hv H2) as [d D]. destruct (IH H3) as [m M]. exists (d :: m). cbn. rewrite D, M. reflexivity.
  - intros l _ P. inversion P.
  - intros l H P. inversion P as [| | | | | | l' F]; subst. clear P. assert (exists m, map (fun p => (fst p, load (snd p))) m = l) as [m E]; [| exists (DMap m); cbn; rewrite E; reflexivity].
    induction H as [| [k v] l Hv H IH]; [exists []; reflexivity |]. inversion F; subst. destruct (Hv H2) as [d D]. destruct (IH H3) as [m M]. exists ((k, d) :: m). cbn. rewrite D, M. reflexivity.
Qed.
Lemma read_back v : plain v -> exists d, dump (convert v) = Some d /\ load d = v.
Proof. intros P. destruct (plain_load v P) as [d E]. exists d. split; [rewrite <- E; apply stable | exact E]. Qed.
Lemma read_tuple l : Forall plain l -> exists d, dump (convert (Tup l)) = Some d /\ load d = Lst l.
Proof. intros F. exact (read_back (Lst l) (pl_list l F)). Qed.
Lemma all_none {A} (l : list (option A)) : all l = None <-> In None l.
Proof.
  induction l as [|[x|] l IH]; cbn.
  - split; [discriminate|intros []].
  - destruct (all l); cbn.
    + split; [discriminate|]. intros [E|I]; [discriminate|]. apply IH in I. discriminate.
    + split; [|reflexivity]. intros _. right. apply IH. reflexivity.
  - split; auto.
Qed.
Lemma option_map_none {A B} (f : A -> B) x : option_map f x = None <-> x = None.
Proof. destruct x; cbn; split; congruence. Qed.
Lemma part_list P l : part P (Lst l) -> (P (Lst l)) \/ exists o, In o l /\ part P o.
Proof. intros H. inversion H; subst; eauto. Qed.
Lemma part_tuple P l : part P (Tup l) -> (P (Tup l)) \/ exists o, In o l /\ part P o.
Proof. intros H. inversion H; subst; eauto. Qed.
Lemma part_dict P l : part P (Dict l) -> (P (Dict l)) \/ exists k o, In (k, o) l /\ part P o.
Proof. intros H. inversion H; subst; eauto. Qed.
Lemma part_base P o : match o with Lst _ | Tup _ | Dict _ => False | _ => True end -> part P o -> P o.
Proof. intros H Q. inversion Q; subst; try contradiction; assumption. Qed.

Lemma refused : forall v, dump (convert v) = None <-> part np_text v.
Proof.
  apply obj_rect'.
  - intros o B. split.
    + destruct o; cbn; intros H; try discriminate; try contradiction.
      * apply p_here. eexists. reflexivity.
      * rewrite dump_load in H. discriminate.
    + intros H. apply (part_base _ _ B) in H as (s & ->). reflexivity.
  - intros l H. rewrite Forall_forall in H. cbn. rewrite option_map_none, all_none, map_map, in_map_iff. split.
    + intros (x & E & I). apply (p_list _ _ x I). apply (H x I), E.
    + intros Q. apply part_list in Q as [(s & Q)|(o & I & Q)]; [discriminate|]. exists o. split; [apply (H o I), Q|exact I].
  - intros l H. rewrite Forall_forall in H. cbn. rewrite option_map_none, all_none, map_map, in_map_iff. split.
    + intros (x & E & I). apply (p_tuple _ _ x I). apply (H x I), E.
    + intros Q. apply part_tuple in Q as [(s & Q)|(o & I & Q)]; [discriminate|]. exists o. split; [apply (H o I), Q|exact I].
  - intros l H. rewrite Forall_forall in H. cbn. rewrite option_map_none, all_none, map_map, in_map_iff. split.
    + intros ([k x] & E & I). cbn in E. apply option_map_none in E. apply (p_dict _ _ k x I). apply (H _ I), E.
    + intros Q. apply part_dict in Q as [(s & Q)|(k & o & I & Q)]; [discriminate|]. exists (k, o). split; [|exact I].
      cbn. apply option_map_none. apply (H _ I), Q.
Qed.

Lemma all_F2 {A B} (f : A -> option B) (S : B -> A -> Prop) l : (forall x, In x l -> exists d, f x = Some d /\ S d x) ->
  exists m, all (map f l) = Some m /\ Forall2 S m l.
Proof.
  induction l as [|a l IH]; intros H.
  - exists []. split; [reflexivity|constructor].
  - destruct IH as (m & E & F). { intros x I. apply H. right. exact I. }
    destruct (H a (or_introl eq_refl)) as (d & D & Q). exists (d :: m). cbn. rewrite D, E. split; [reflexivity|constructor; assumption].
Qed.
Lemma kept : forall v, good v -> exists d, dump (convert v) = Some d /\ shows d v.
Proof.
  apply (obj_rect' (fun v => good v -> exists d, dump (convert v) = Some d /\ shows d v)).
  - intros o B (G1 & G2). destruct o; try contradiction; try (eexists; split; [reflexivity|constructor]; fail).
    + exfalso. apply G2. apply p_here. left. eauto.
    + exfalso. apply G1. apply p_here. eexists. reflexivity.
    + exists d. split; [apply dump_load|constructor].
    + exfalso. apply G2. apply p_here. right. eauto.
  - intros l H (G1 & G2). rewrite Forall_forall in H.
    destruct (all_F2 (fun x => dump (convert x)) shows l) as (m & E & F).
    { intros x I. apply (H x I). split; intros Q; [apply G1 | apply G2]; apply (p_list _ _ x I Q). }
    exists (DSeq m). cbn. rewrite map_map, E. split; [reflexivity|constructor; exact F].
  - intros l H (G1 & G2). rewrite Forall_forall in H.
    destruct (all_F2 (fun x => dump (convert x)) shows l) as (m & E & F).
    { intros x I. apply (H x I). split; intros Q; [apply G1 | apply G2]; apply (p_tuple _ _ x I Q). }
    exists (DSeq m). cbn. rewrite map_map, E. split; [reflexivity|constructor; exact F].
  - intros l H (G1 & G2). rewrite Forall_forall in H.
    destruct (all_F2 (fun p => option_map (pair (fst p)) (dump (convert (snd p)))) (fun p q => fst p = fst q /\ shows (snd p) (snd q)) l) as (m & E & F).
    { intros [k x] I. destruct (H _ I) as (d & D & Q).
      { split; intros Q; [apply G1 | apply G2]; apply (p_dict _ _ k x I Q). }
      exists (k, d). cbn in *. rewrite D. split; [reflexivity|]. split; [reflexivity|exact Q]. }
    exists (DMap m). cbn. rewrite map_map. cbn. rewrite E. split; [reflexivity|constructor; exact F].
Qed.
Lemma shows_one : forall v d d', shows d v -> shows d' v -> d = d'.
Proof.
  apply (obj_rect' (fun v => forall d d', shows d v -> shows d' v -> d = d')).
  - intros o B d d' X Y. destruct o; try contradiction; inversion X; inversion Y; subst; reflexivity.
  - intros l H d d' X Y. inversion X as [| | | | | | | | | | |m m' F| |]; inversion Y as [| | | | | | | | | | |n n' F'| |]; subst. f_equal.
    clear X Y. revert m F n F'. induction l as [|a l IH]; intros m F n F'; inversion F; inversion F'; subst; [reflexivity|].
    inversion H; subst. f_equal; eauto.
  - intros l H d d' X Y. inversion X as [| | | | | | | | | | | |m m' F|]; inversion Y as [| | | | | | | | | | | |n n' F'|]; subst. f_equal.
    clear X Y. revert m F n F'. induction l as [|a l IH]; intros m F n F'; inversion F; inversion F'; subst; [reflexivity|].
    inversion H; subst. f_equal; eauto.
  - intros l H d d' X Y. inversion X as [| | | | | | | | | | | | |m m' F]; inversion Y as [| | | | | | | | | | | | |n n' F']; subst. f_equal.
    clear X Y. revert m F n F'. induction l as [|a l IH]; intros m F n F'; inversion F as [|[k x] ? m0 ? [K1 K2]]; inversion F' as [|[k' x'] ? n0 ? [L1 L2]]; subst; [reflexivity|].
    inversion H; subst. f_equal; [|eauto]. cbn in *. f_equal; [congruence|eauto].
Qed.

Lemma lookup_put k v a j : lookup j (put k v a) = if String.eqb j k then Some v else lookup j a.
Proof.
  unfold lookup, put. cbn [find fst]. destruct (String.eqb_spec j k) as [->|N].
  - rewrite String.eqb_refl. reflexivity.
  - destruct (String.eqb_spec k j); [congruence|]. f_equal.
    induction a as [|[i w] a IH]; cbn [filter find fst]; [reflexivity|].
    destruct (String.eqb_spec i k) as [->|M]; cbn [negb find fst].
    + destruct (String.eqb_spec k j); [congruence|exact IH].
    + destruct (String.eqb i j); [reflexivity|exact IH].
Qed.
Lemma none_good v : good v -> is_none (convert v) = true -> v = None_ \/ v = Arr DNull.
Proof.
  intros (_ & G) H. destruct v; try discriminate; auto.
  cbn in H. destruct d; try discriminate. auto.
Qed.
Lemma put_unique k v a : unique a -> unique (put k v a).
Proof.
  unfold unique, put. cbn. intros U. constructor.
  - intros I. apply in_map_iff in I as ([i w] & E & I). cbn in E. subst i. apply filter_In in I as (_ & I). cbn in I.
    rewrite String.eqb_refl in I. discriminate.
  - induction a as [|[i w] a IH]; cbn [filter map fst]; [constructor|]. inversion U; subst.
    destruct (negb (String.eqb i k)); cbn [map fst]; [|auto]. constructor; [|auto].
    intros I. apply in_map_iff in I as ([j x] & E & I). apply filter_In in I as (I & _). cbn in E. subst j.
    apply H1. apply in_map_iff. exists (i, x). auto.
Qed.
Lemma lookup_In {A} k (l : list (string * A)) x : NoDup (map fst l) -> (lookup k l = Some x <-> In (k, x) l).
Proof.
  unfold lookup. induction l as [|[i w] l IH]; cbn; intros U; [split; [discriminate|intros []]|].
  inversion U; subst. destruct (String.eqb_spec i k) as [->|N]; cbn.
  - split; [intros [= ->]; auto|]. intros [E|I]; [congruence|]. exfalso. apply H1. apply in_map_iff. exists (k, x). auto.
  - rewrite IH by assumption. split; [auto|]. intros [E|I]; [congruence|exact I].
Qed.
Lemma write_ok s : unique (attrs s) -> (forall k v, In (k, v) (attrs s) -> good v /\ v <> Arr DNull) ->
  snd (write s) = false /\ attrs (fst (write s)) = attrs s /\ faithful (fst (write s)).
Proof.
  intros U G. unfold write.
  destruct (all_F2 (fun p : string * obj => option_map (pair (fst p)) (dump (snd p)))
              (fun d q => fst d = fst q /\ exists v, In (fst q, v) (attrs s) /\ v <> None_ /\ shows (snd d) v) (config (attrs s))) as (m & E & F).
  { intros [k o] I. unfold config in I. apply filter_In in I as (I & N). apply in_map_iff in I as ([j v] & Q & I). cbn in Q. injection Q as -> <-.
    destruct (G _ _ I) as (Gv & NA). destruct (kept v Gv) as (d & D & S0). exists (k, d). cbn. rewrite D. split; [reflexivity|].
    split; [reflexivity|]. exists v. split; [exact I|]. split; [|exact S0]. intros ->. cbn in N. discriminate. }
  rewrite E. cbn. split; [reflexivity|]. split; [reflexivity|]. exists m. cbn. split; [reflexivity|].
  assert (KM : map fst m = map fst (config (attrs s))).
  { clear E. induction F as [|x y m l (A & _) F IH]; cbn; [reflexivity|]. f_equal; assumption. }
  assert (KC : forall k, In k (map fst (config (attrs s))) <-> exists v, In (k, v) (attrs s) /\ is_none (convert v) = false).
  { intros k. unfold config. rewrite in_map_iff. split.
    - intros ([k' o] & Q & I). cbn in Q. subst k'. apply filter_In in I as (I & N). apply in_map_iff in I as ([j v] & Q & I). cbn in Q. injection Q as -> <-.
      exists v. split; [exact I|]. cbn in N. destruct (is_none (convert v)); [discriminate|reflexivity].
    - intros (v & I & N). exists (k, convert v). split; [reflexivity|]. apply filter_In. split; [apply in_map_iff; exists (k, v); auto|]. cbn. rewrite N. reflexivity. }
  assert (UC : NoDup (map fst m)).
  { rewrite KM. unfold config. clear - U. unfold unique in U. induction (attrs s) as [|[k v] a IH]; cbn; [constructor|]. inversion U; subst.
    destruct (negb (is_none (convert v))); cbn; [|auto]. constructor; [|auto]. intros I. apply in_map_iff in I as ([j o] & Q & I). cbn in Q. subst j.
    apply filter_In in I as (I & _). apply in_map_iff in I as ([j w] & Q & I). cbn in Q. injection Q as -> _. apply H1. apply in_map_iff. exists (k, w). auto. }
  intros k. destruct (lookup k (attrs s)) as [v|] eqn:L.
  - apply (lookup_In _ _ _ U) in L. destruct (is_none (convert v)) eqn:N.
    + destruct (G _ _ L) as (Gv & NA). destruct (none_good v Gv N) as [-> | ->]; [|contradiction].
      destruct (lookup k m) as [d|] eqn:D; [|reflexivity]. exfalso. apply (lookup_In _ _ _ UC) in D.
      assert (I : In k (map fst m)) by (apply in_map_iff; exists (k, d); auto). rewrite KM in I. apply KC in I as (w & I & W).
      assert (w = None_). { apply (lookup_In _ _ _ U) in I, L. congruence. } subst w. discriminate.
    + assert (I : In k (map fst m)) by (rewrite KM; apply KC; eauto). apply in_map_iff in I as ([j d] & Q & I). cbn in Q. subst j.
      assert (S0 : shows d v).
      { assert (X : forall x, In x m -> exists w, In (fst x, w) (attrs s) /\ shows (snd x) w).
        { clear - F. induction F as [|x y m l (A & w & B & _ & C) F IH]; intros z Z; [destruct Z|]. destruct Z as [<-|Z]; [|auto]. exists w. rewrite A. auto. }
        destruct (X _ I) as (w & W & Sw). cbn in W, Sw. assert (w = v). { apply (lookup_In _ _ _ U) in W, L. congruence. } subst w. exact Sw. }
      apply (lookup_In _ _ _ UC) in I. destruct v; try (exists d; split; [exact I | exact S0]). discriminate.
  - destruct (lookup k m) as [d|] eqn:D; [|reflexivity]. exfalso. apply (lookup_In _ _ _ UC) in D.
    assert (I : In k (map fst m)) by (apply in_map_iff; exists (k, d); auto). rewrite KM in I. apply KC in I as (w & I & W).
    apply (lookup_In _ _ _ U) in I. congruence.
Qed.


Section Store.
Variable store : string -> obj -> obj.
Notation assign := (assign store).
Notation assignments := (assignments store).
Definition sound_value (k : string) (v : obj) := good (store k v) /\ store k v <> Arr DNull.
Lemma assign_attrs k v s : attrs (fst (assign k v s)) = put k (store k v) (attrs s).
Proof. unfold Yaml_model.assign, write. destruct (is_none (convert v)); [reflexivity|]. destruct (all _); reflexivity. Qed.
Lemma put_In k v a j w : In (j, w) (put k v a) -> (j = k /\ w = v) \/ In (j, w) a.
Proof. intros [E|I]; [left; split; congruence|]. apply filter_In in I as (I & _). auto. Qed.
Lemma tidy_assign k v s : tidy s -> sound_value k v -> tidy (fst (assign k v s)).
Proof.
  intros (U & G) (Gv & N). split; rewrite assign_attrs; [apply put_unique, U|]. intros j w I. apply put_In in I as [(_ & ->)|I]; eauto.
Qed.
Lemma tidy_all l : forall s, tidy s -> (forall k v, In (k, v) l -> sound_value k v) -> tidy (assignments l s).
Proof.
  induction l as [|[k v] l IH]; intros s T G; [exact T|]. cbn. 
  apply IH; [apply tidy_assign; [assumption|]; apply G; left; reflexivity|]. intros j w I. apply (G j w). right. exact I.
Qed.
Lemma assigned l k v s : tidy s -> (forall j w, In (j, w) ((k, v) :: l) -> good (store j w) /\ store j w <> Arr DNull) ->
  v <> Arr DNull -> v <> None_ ->
  let s' := fst (assign k v (assignments l s)) in
  snd (assign k v (assignments l s)) = false /\ faithful s' /\ lookup k (attrs s') = Some (store k v) /\
  forall j, j <> k -> lookup j (attrs s') = lookup j (attrs (assignments l s)).
Proof.
  intros T G NA NN s'.
  assert (T1 : tidy (assignments l s)). { apply tidy_all; [exact T|]. intros j w I. apply (G j w). right. exact I. }
  pose proof (tidy_assign k v _ T1 (G k v (or_introl eq_refl))) as T'.
  assert (C : is_none (convert v) = false).
  { destruct v; try reflexivity; [contradiction|]. cbn. destruct d; try reflexivity. contradiction. }
  assert (A : attrs s' = put k (store k v) (attrs (assignments l s))) by apply assign_attrs.
  assert (W : assign k v (assignments l s) = write (mkSim (put k (store k v) (attrs (assignments l s))) (conf (assignments l s)))).
  { unfold Yaml_model.assign. rewrite C. reflexivity. }
  destruct (write_ok (mkSim (put k (store k v) (attrs (assignments l s))) (conf (assignments l s)))) as (E & _ & F).
  { cbn [attrs]. rewrite <- A. apply T'. } { cbn [attrs]. rewrite <- A. apply T'. }
  rewrite <- W in E, F. split; [exact E|]. split; [exact F|]. rewrite A. split.
  - rewrite lookup_put, String.eqb_refl. reflexivity.
  - intros j N. rewrite lookup_put. destruct (String.eqb_spec j k); [contradiction|reflexivity].
Qed.
Lemma none_kept k s : conf (fst (assign k None_ s)) = conf s /\ lookup k (attrs (fst (assign k None_ s))) = Some (store k None_).
Proof. split; [reflexivity|]. rewrite assign_attrs, lookup_put, String.eqb_refl. reflexivity. Qed.
Lemma broken k v s : v <> None_ -> v <> Arr DNull -> part np_text (store k v) ->
  assign k v s = (mkSim (put k (store k v) (attrs s)) Broken, true).
Proof.
  intros NN NA P. assert (D := proj2 (refused _) P). unfold Yaml_model.assign.
  assert (is_none (convert v) = false) as ->.
  { destruct v; try reflexivity; [contradiction|]. cbn. destruct d; try reflexivity. contradiction. }
  unfold write. cbn [attrs].
  assert (is_none (convert (store k v)) = false) as C.
  { destruct (convert (store k v)); cbn in D |- *; congruence. }
  assert (all (map (fun p => option_map (pair (fst p)) (dump (snd p))) (config (put k (store k v) (attrs s)))) = None) as ->; [|reflexivity].
  apply all_none, in_map_iff. exists (k, convert (store k v)). cbn [fst snd]. rewrite D. split; [reflexivity|].
  unfold config. apply filter_In. cbn [fst snd]. rewrite C. split; [|reflexivity]. apply in_map_iff. exists (k, store k v). split; [reflexivity|].
  left. reflexivity.
Qed.
End Store.
Lemma odd_text : (forall b, dump (convert (NpBool b)) = Some (DStr (if b then "True" else "False")) /\ ~ shows (DStr (if b then "True" else "False")) (NpBool b)) /\
  (forall t, dump (convert (Other t)) = Some (DStr t)).
Proof. split; [|reflexivity]. intros b. split; [reflexivity|]. intros H. inversion H. Qed.
