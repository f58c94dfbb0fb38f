(** Proofs for C04 and for the construction of targets (C19). *)
From Coq Require Import QArith Qreals Reals Lra.
From Verif Require Import Common Conf_model Conf_spec.
Open Scope string_scope.

(* ---------- dictionaries ---------- *)
Lemma eqb_true a b : String.eqb a b = true <-> a = b. Proof. apply String.eqb_eq. Qed.
Lemma eqb_sym' a b : String.eqb a b = String.eqb b a. Proof. apply String.eqb_sym. Qed.
Lemma pget_pset {A} k v (d : pairs A) a : pget a (pset k v d) = if String.eqb a k then Some v else pget a d.
Proof.
  induction d as [|[k' w] r IH]; simpl.
  - reflexivity.
  - destruct (String.eqb_spec k k') as [->|N]; simpl.
    + destruct (String.eqb a k'); reflexivity.
    + rewrite IH. destruct (String.eqb_spec a k') as [->|N']; [|reflexivity].
      destruct (String.eqb_spec k' k); [congruence|reflexivity].
Qed.
Lemma keys_pset {A} k v (d : pairs A) x : In x (map fst (pset k v d)) <-> x = k \/ In x (map fst d).
Proof.
  induction d as [|[k' w] r IH]; simpl; [intuition|].
  destruct (String.eqb_spec k k') as [->|N]; simpl; [intuition|]. rewrite IH. intuition.
Qed.
Lemma dict_pset {A} k v (d : pairs A) : is_dict d -> is_dict (pset k v d).
Proof.
  unfold is_dict. induction d as [|[k' w] r IH]; simpl; intros H; [constructor; [intros []|constructor]|].
  inversion H as [|x l N D]; subst. destruct (String.eqb_spec k k') as [->|NE]; simpl; [assumption|].
  constructor; [|auto]. rewrite keys_pset. intuition.
Qed.
Lemma pget_pupdate {A} (e : pairs A) : forall d a, is_dict e -> pget a (pupdate d e) = orelse (pget a e) (pget a d).
Proof.
  unfold pupdate. induction e as [|[k v] r IH]; intros d a D; simpl; [reflexivity|].
  inversion D as [|x l N D']; subst. rewrite IH by assumption. rewrite pget_pset.
  destruct (String.eqb_spec a k) as [->|NE]; [|destruct (pget a r); reflexivity].
  assert (X : pget k r = None); [|rewrite X; reflexivity].
  clear -N. induction r as [|[k' w] r IH]; simpl in *; [reflexivity|].
  destruct (String.eqb_spec k k'); [subst; intuition|]. apply IH. intuition.
Qed.
Lemma dict_pupdate {A} (e : pairs A) : forall d, is_dict d -> is_dict (pupdate d e).
Proof. unfold pupdate. induction e as [|[k v] r IH]; intros d D; simpl; [assumption|]. apply IH, dict_pset, D. Qed.
Lemma pget_none {A} a (d : pairs A) : pget a d = None <-> ~ In a (map fst d).
Proof.
  induction d as [|[k v] r IH]; simpl; [intuition|].
  destruct (String.eqb_spec a k) as [->|N]; [intuition discriminate|]. rewrite IH. intuition congruence.
Qed.
Lemma pget_pdel {A} k (d : pairs A) a : pget a (pdel k d) = if String.eqb a k then None else pget a d.
Proof.
  unfold pdel. induction d as [|[k' w] r IH]; simpl; [destruct (String.eqb a k); reflexivity|].
  destruct (String.eqb_spec k k') as [->|N]; simpl.
  - rewrite IH. destruct (String.eqb a k'); reflexivity.
  - rewrite IH. destruct (String.eqb_spec a k') as [->|]; [|reflexivity].
    destruct (String.eqb_spec k' k); [congruence|reflexivity].
Qed.
Lemma dict_filter {A} (d : pairs A) f : is_dict d -> is_dict (filter f d).
Proof.
  unfold is_dict. induction d as [|[k v] r IH]; simpl; intros H; [constructor|]. inversion H; subst.
  destruct (f (k, v)); simpl; [|auto]. constructor; [|auto].
  intros X. apply H2. apply in_map_iff in X. destruct X as (p & E & X). apply filter_In in X.
  apply in_map_iff. exists p. tauto.
Qed.
Lemma pget_filter_key {A} (d : pairs A) (f : string -> bool) a :
  pget a (filter (fun p => f (fst p)) d) = if f a then pget a d else None.
Proof.
  induction d as [|[k v] r IH]; simpl; [destruct (f a); reflexivity|].
  destruct (f k) eqn:E; simpl; rewrite IH; destruct (String.eqb_spec a k) as [->|N]; auto; rewrite E; reflexivity.
Qed.
Lemma pget_some {A B} (g : A -> B) (d : pairs A) a :
  pget a (map (fun p => (fst p, g (snd p))) d) = match pget a d with Some v => Some (g v) | None => None end.
Proof. induction d as [|[k v] r IH]; simpl; [reflexivity|]. destruct (String.eqb a k); auto. Qed.
Lemma keys_some {A B} (g : A -> B) (d : pairs A) : map fst (map (fun p => (fst p, g (snd p))) d) = map fst d.
Proof. induction d as [|[k v] r IH]; simpl; [reflexivity|]. f_equal. exact IH. Qed.
Lemma pget_app {A} (d e : pairs A) a : pget a (d ++ e)%list = orelse (pget a d) (pget a e).
Proof. induction d as [|[k v] r IH]; simpl; [reflexivity|]. destruct (String.eqb a k); auto. Qed.
Lemma pset_same {A} k (v : A) d : pget k d = Some v -> pset k v d = d.
Proof.
  induction d as [|[k' w] r IH]; simpl; [discriminate|].
  destruct (String.eqb_spec k k') as [->|N]; intros H; [injection H as ->; reflexivity|]. f_equal. auto.
Qed.
Lemma pdel_pset {A} k (v : A) d : pget k d = None -> pdel k (pset k v d) = d.
Proof.
  unfold pdel. induction d as [|[k' w] r IH]; simpl; intros H.
  - rewrite String.eqb_refl. reflexivity.
  - destruct (String.eqb_spec k k') as [->|N]; [discriminate|]. simpl.
    destruct (String.eqb_spec k k'); [contradiction|]. simpl. f_equal. auto.
Qed.
Lemma dict_app {A} (d e : pairs A) : is_dict d -> is_dict e -> (forall k, In k (map fst d) -> In k (map fst e) -> False) -> is_dict (d ++ e)%list.
Proof.
  unfold is_dict. rewrite map_app. induction d as [|[k v] r IH]; simpl; intros D E X; [assumption|].
  inversion D; subst. constructor.
  - rewrite in_app_iff. intros [Y|Y]; [contradiction|]. apply (X k); auto.
  - apply IH; auto. intros k' Y Z. apply (X k'); auto.
Qed.

(* ---------- C04 ---------- *)
Section Store.
Variables V obj : Type.
Variable settable : string -> bool.
Variable setter : string -> V -> obj -> obj * option exn.
Variable attr : obj -> string -> option V.
Variable acc : string -> V -> bool.
Hypothesis WB : well_behaved settable setter attr acc.
Notation from_args := (from_args V obj settable setter).

Definition putall (kw : kwargs V) (o : obj) (a : string) : option V :=
  if settable a then orelse (given kw a) (attr o a) else attr o a.

Lemma pget_fst_none {A} k v (r : pairs A) : is_dict ((k, v) :: r) -> pget k r = None.
Proof. intros D. inversion D; subst. apply pget_none. assumption. Qed.

Definition all_acc (kw : kwargs V) : Prop := forall a v, given kw a = Some v -> settable a = true -> acc a v = true.

Lemma all_acc_tail k x r : is_dict ((k, x) :: r) -> all_acc ((k, x) :: r) -> all_acc r.
Proof.
  intros D H a v G S. apply (H a v); [|exact S]. unfold given in *. simpl.
  destruct (String.eqb_spec a k) as [->|]; [|exact G]. rewrite (pget_fst_none _ _ _ D) in G. discriminate.
Qed.

Lemma from_args_ok kw : is_dict kw -> all_acc kw -> forall o, exists o' m u, from_args kw o = (o', Ok (m, u)) /\
  (forall a, attr o' a = putall kw o a) /\
  (forall a, pget a m = if settable a then given kw a else None) /\
  (forall a, pget a u = if settable a then None else given kw a) /\ is_dict m /\ is_dict u /\
  (forall a, In a (map fst m) -> In a (map fst kw)) /\ (forall a, In a (map fst u) -> In a (map fst kw)).
Proof.
  induction kw as [|[k [v|]] r IH]; intros D AC o.
  - exists o, [], []. unfold putall, given. simpl. intuition (try constructor); destruct (settable a); reflexivity.
  - assert (N := pget_fst_none _ _ _ D). assert (D' : is_dict r) by (inversion D; assumption).
    assert (AC' := all_acc_tail _ _ _ D AC).
    cbn [Conf_model.from_args]. destruct (settable k) eqn:S.
    + assert (AV : acc k v = true). { apply AC; [|exact S]. unfold given. simpl. rewrite String.eqb_refl. reflexivity. }
      destruct (wb_ok _ _ _ _ WB k v o S AV) as (o1 & E1 & A1). rewrite E1.
      destruct (IH D' AC' o1) as (o' & m & u & E & A & B & C & Dm & Du & Km & Ku).
      rewrite E. exists o', ((k, v) :: m), u. split; [reflexivity|].
      split; [|split; [|split; [|split; [|split; [|split]]]]].
      * intros a. rewrite A. unfold putall, given. rewrite A1. simpl. destruct (String.eqb_spec a k) as [->|NE].
        -- rewrite S, N. reflexivity.
        -- reflexivity.
      * intros a. simpl. unfold given. simpl. destruct (String.eqb_spec a k) as [->|NE]; [rewrite S; reflexivity|apply B].
      * intros a. rewrite C. unfold given. simpl. destruct (String.eqb_spec a k) as [->|NE]; [rewrite S; reflexivity|reflexivity].
      * unfold is_dict. simpl. constructor; [|exact Dm]. intros X. apply Km in X. inversion D; subst. contradiction.
      * exact Du.
      * simpl. intros a [->|X]; auto.
      * simpl. intros a X; auto.
    + destruct (IH D' AC' o) as (o' & m & u & E & A & B & C & Dm & Du & Km & Ku).
      rewrite E. exists o', m, ((k, v) :: u). split; [reflexivity|].
      split; [|split; [|split; [|split; [|split; [|split]]]]].
      * intros a. rewrite A. unfold putall, given. simpl. destruct (String.eqb_spec a k) as [->|NE]; [rewrite S; reflexivity|reflexivity].
      * intros a. rewrite B. unfold given. simpl. destruct (String.eqb_spec a k) as [->|NE]; [rewrite S; reflexivity|reflexivity].
      * intros a. simpl. unfold given. simpl. destruct (String.eqb_spec a k) as [->|NE]; [rewrite S; reflexivity|apply C].
      * exact Dm.
      * unfold is_dict. simpl. constructor; [|exact Du]. intros X. apply Ku in X. inversion D; subst. contradiction.
      * simpl. intros a X; auto.
      * simpl. intros a [->|X]; auto.
  - assert (N := pget_fst_none _ _ _ D). assert (D' : is_dict r) by (inversion D; assumption).
    cbn [Conf_model.from_args]. destruct (IH D' (all_acc_tail _ _ _ D AC) o) as (o' & m & u & E & A & B & C & Dm & Du & Km & Ku).
    exists o', m, u. split; [exact E|].
    assert (GE : forall a, given ((k, None) :: r) a = given r a).
    { intros a. unfold given. simpl. destruct (String.eqb_spec a k) as [->|]; [rewrite N|]; reflexivity. }
    split; [|split; [|split; [|split; [|split; [|split]]]]]; auto.
    + intros a. rewrite A. unfold putall. rewrite GE. reflexivity.
    + intros a. rewrite B, GE. reflexivity.
    + intros a. rewrite C, GE. reflexivity.
    + simpl. intros a X; auto.
    + simpl. intros a X; auto.
Qed.

Lemma from_args_bad kw : forall o a v, given kw a = Some v -> settable a = true -> acc a v = false ->
  exists o' e, from_args kw o = (o', Err e).
Proof.
  induction kw as [|[k [w|]] r IH]; intros o a v G S B; [discriminate| |].
  - cbn [Conf_model.from_args]. unfold given in G. simpl in G. destruct (String.eqb_spec a k) as [->|NE].
    + injection G as ->. rewrite S. destruct (wb_err _ _ _ _ WB k v o S B) as (o' & e & E & _). rewrite E. eauto.
    + destruct (settable k).
      * destruct (setter k w o) as [o1 [e|]]; [eauto|].
        destruct (IH o1 a v G S B) as (o' & e & E). rewrite E. eauto.
      * destruct (IH o a v G S B) as (o' & e & E). rewrite E. eauto.
  - cbn [Conf_model.from_args]. unfold given in G. simpl in G. destruct (String.eqb_spec a k); [discriminate|].
    exact (IH o a v G S B).
Qed.

Variable as_key : V -> option string.
Variable of_key : string -> V.
Hypothesis key_of_as : forall v k, as_key v = Some k -> of_key k = v.
Notation set_properties := (set_properties V obj settable setter as_key of_key).
Notation from_catalogue := (from_catalogue V obj settable setter as_key of_key).

Lemma given_app (d : pairs V) kw a : given (map (fun p => (fst p, Some (snd p))) d ++ kw)%list a = orelse (pget a d) (given kw a).
Proof.
  unfold given. rewrite pget_app, (pget_some Some). destruct (pget a d); reflexivity.
Qed.
Lemma given_filter (kw : kwargs V) f a : given (filter (fun p => f (fst p)) kw) a = if f a then given kw a else None.
Proof. unfold given. rewrite pget_filter_key. destruct (f a); reflexivity. Qed.
Lemma given_nn (kw : kwargs V) : is_dict kw -> forall a,
  pget a (filter (fun p => match snd p with Some _ => true | None => false end) kw) = match given kw a with Some v => Some (Some v) | None => None end.
Proof.
  induction kw as [|[k [v|]] r IH]; intros D a; unfold given in *; simpl; [reflexivity| |].
  - assert (D' : is_dict r) by (inversion D; assumption). destruct (String.eqb a k); [reflexivity|]. apply IH, D'.
  - assert (D' : is_dict r) by (inversion D; assumption). rewrite (IH D').
    destruct (String.eqb_spec a k) as [->|]; [|reflexivity]. rewrite (pget_fst_none _ _ _ D). reflexivity.
Qed.

Definition wf_cat (ck : string) (cat : catalogue V) : Prop :=
  forall k e, pget k cat = Some e -> is_dict e /\ pget ck e = None.

(** What one source contributes. *)
Definition contrib (src : string -> option V) (o o' : obj) (m u : pairs V) : Prop :=
  (forall a, attr o' a = if settable a then orelse (src a) (attr o a) else attr o a) /\
  (forall a, pget a m = if settable a then src a else None) /\
  (forall a, pget a u = if settable a then None else src a) /\ is_dict m /\ is_dict u.

Lemma catalogue_step ck cat kw o : is_dict kw -> wf_cat ck cat -> all_acc kw ->
  (forall a v, from_entry (selected as_key ck cat kw) a = Some v -> settable a = true -> acc a v = true) ->
  exists o' m u, from_catalogue ck cat None kw o = ((o', cat), Ok (m, u)) /\
   contrib (fun a => match selected as_key ck cat kw with
                     | Some (k, e) => orelse (from_entry (Some (k, e)) a) (given kw a)
                     | None => None end) o o' m u.
Proof.
  intros D W AK. unfold Conf_model.from_catalogue, selected, given.
  assert (TRIV : exists (o' : obj) (m u : pairs V), (o, cat, Ok ([], [])) = (o', cat, Ok (m, u)) /\ contrib (fun _ => None) o o' m u).
  { exists o, [], []. split; [reflexivity|]. repeat split; try (intros a; simpl; destruct (settable a); reflexivity); constructor. }
  destruct (pget ck kw) as [[v|]|] eqn:G; try (intros _; exact TRIV).
  destruct (as_key v) as [k|] eqn:K; [|intros _; exact TRIV]. destruct (pget k cat) as [e|] eqn:E; [|intros _; exact TRIV].
  simpl from_entry. intros AE.
  destruct (W k e E) as [De Ne]. set (P := pset ck (of_key k) e).
  set (kw' := filter (fun p => negb (pmem (fst p) P)) (pdel ck kw)).
  assert (DP : is_dict P) by (apply dict_pset, De).
  assert (DA : is_dict (map (fun p => (fst p, Some (snd p))) P ++ kw')%list).
  { apply dict_app.
    - unfold is_dict. rewrite keys_some. exact DP.
    - apply dict_filter. apply dict_filter, D.
    - rewrite keys_some. intros x X Y. apply in_map_iff in Y. destruct Y as ([x' w] & E1 & Y). simpl in E1. subst x'.
      apply filter_In in Y. destruct Y as [_ Y]. simpl in Y. unfold pmem in Y.
      destruct (pget x P) eqn:Z; [discriminate|]. apply pget_none in Z. contradiction. }
  assert (GE : forall a, given (map (fun p => (fst p, Some (snd p))) P ++ kw')%list a =
                           orelse (pget a e) (match pget a kw with Some x => x | None => None end)).
  { intros a. rewrite given_app. unfold P at 1. rewrite pget_pset.
      unfold kw'. rewrite (given_filter (pdel ck kw) (fun x => negb (pmem x P))). unfold given. rewrite pget_pdel. unfold pmem, P. rewrite pget_pset.
      destruct (String.eqb_spec a ck) as [->|NE].
      - rewrite Ne, G. simpl. f_equal. apply key_of_as, K.
      - destruct (pget a e); reflexivity. }
  assert (AA : all_acc (map (fun p => (fst p, Some (snd p))) P ++ kw')%list).
  { intros a w X S. rewrite GE in X. destruct (pget a e) eqn:Y; simpl in X.
    - injection X as ->. apply (AE a w); assumption.
    - apply (AK a w); assumption. }
  destruct (from_args_ok _ DA AA o) as (o' & m & u & F & A & B & C & Dm & Du & _ & _). rewrite F.
  exists o', m, u. split.
  - unfold P. rewrite pdel_pset by exact Ne. rewrite pset_same by exact E. reflexivity.
  - split; [|split; [|split; [|split]]]; auto; intros a.
    + rewrite A. unfold putall. rewrite GE. reflexivity.
    + rewrite B, GE. reflexivity.
    + rewrite C, GE. reflexivity.
Qed.

Lemma file_step file kw o : is_dict kw -> (forall d, file = Some (Some d) -> is_dict d) -> all_acc kw ->
  (forall a v, in_file file a = Some v -> settable a = true -> acc a v = true) ->
  exists o' m u, (match file with None => (o, Ok ([], [])) | Some f => from_file V obj settable setter f kw o end) = (o', Ok (m, u)) /\
   contrib (fun a => match file with Some (Some d) => orelse (given kw a) (pget a d) | _ => None end) o o' m u.
Proof.
  intros D W AK AF.
  assert (TRIV : exists (o' : obj) (m u : pairs V), (o, Ok ([], [])) = (o', Ok (m, u)) /\ contrib (fun _ => None) o o' m u).
  { exists o, [], []. split; [reflexivity|]. repeat split; try (intros a; simpl; destruct (settable a); reflexivity); constructor. }
  destruct file as [[d|]|]; try exact TRIV. unfold from_file. specialize (W d eq_refl). simpl in_file in AF.
  set (kw' := filter (fun p => match snd p with Some _ => true | None => false end) kw).
  assert (Dk : is_dict kw') by (apply dict_filter, D).
  assert (Dd : is_dict (map (fun p : string * V => (fst p, Some (snd p))) d)) by (unfold is_dict; rewrite keys_some; exact W).
  assert (GE : forall a, given (pupdate (map (fun p => (fst p, Some (snd p))) d) kw') a = orelse (given kw a) (pget a d)).
  { intros a. unfold given at 1. rewrite pget_pupdate by exact Dk. rewrite (pget_some Some).
    unfold kw'. rewrite given_nn by exact D. destruct (given kw a); simpl; [reflexivity|]. destruct (pget a d); reflexivity. }
  assert (AA : all_acc (pupdate (map (fun p => (fst p, Some (snd p))) d) kw')).
  { intros a w X S. rewrite GE in X. destruct (given kw a) eqn:Y; simpl in X.
    - injection X as ->. apply (AK a w); assumption.
    - apply (AF a w); assumption. }
  destruct (from_args_ok _ (dict_pupdate kw' _ Dd) AA o) as (o' & m & u & F & A & B & C & Dm & Du & _ & _).
  rewrite F. exists o', m, u. split; [reflexivity|].
  split; [|split; [|split; [|split]]]; auto; intros a.
  - rewrite A. unfold putall. rewrite GE. reflexivity.
  - rewrite B, GE. reflexivity.
  - rewrite C, GE. reflexivity.
Qed.

Lemma precedence ck cat file kw o : is_dict kw -> wf_cat ck cat -> (forall d, file = Some (Some d) -> is_dict d) -> all_acc kw ->
  (forall a v, from_entry (selected as_key ck cat kw) a = Some v -> settable a = true -> acc a v = true) ->
  (forall a v, in_file file a = Some v -> settable a = true -> acc a v = true) ->
  exists o' m u, set_properties ck cat file kw o = ((o', cat), Ok (m, u)) /\
  forall a, let v := orelse (given kw a) (orelse (from_entry (selected as_key ck cat kw) a) (in_file file a)) in
    (settable a = true -> attr o' a = orelse v (attr o a) /\ pget a m = v /\ pget a u = None) /\
    (settable a = false -> attr o' a = attr o a /\ pget a m = None /\ pget a u = v).
Proof.
  intros D W WF AK AE AF. unfold Conf_model.set_properties.
  destruct (file_step file kw o D WF AK AF) as (o1 & m1 & u1 & E1 & A1 & B1 & C1 & Dm1 & Du1). rewrite E1.
  assert (CAT : exists o2 m2 u2,
     (match cat with [] => ((o1, cat), Ok ([], [])) | _ => from_catalogue ck cat None kw o1 end) = ((o2, cat), Ok (m2, u2)) /\
     contrib (fun a => match selected as_key ck cat kw with
                     | Some (k, e) => orelse (from_entry (Some (k, e)) a) (given kw a)
                     | None => None end) o1 o2 m2 u2).
  { destruct cat as [|p c].
    - exists o1, [], []. split; [reflexivity|]. unfold selected.
      assert (X : match given kw ck with Some v => match as_key v with Some k => match pget k ([] : catalogue V) with Some e => Some (k, e) | None => None end | None => None end | None => None end = None).
      { destruct (given kw ck) as [v|]; [destruct (as_key v)|]; reflexivity. }
      rewrite X. repeat split; try (intros a; simpl; destruct (settable a); reflexivity); constructor.
    - apply catalogue_step; assumption. }
  destruct CAT as (o2 & m2 & u2 & E2 & A2 & B2 & C2 & Dm2 & Du2). rewrite E2.
  destruct (from_args_ok kw D AK o2) as (o3 & m3 & u3 & E3 & A3 & B3 & C3 & Dm3 & Du3 & _ & _). rewrite E3.
  eexists o3, _, _. split; [reflexivity|]. intros a. cbv zeta. set (v := orelse (given kw a) _).
  assert (FU : forall (m u : pairs V), pget a (filter (fun p => negb (pmem (fst p) m)) u) = if negb (pmem a m) then pget a u else None).
  { intros m u. apply (pget_filter_key u (fun k => negb (pmem k m)) a). }
  rewrite FU. unfold pmem. rewrite !pget_pupdate by assumption.
  rewrite A3, B1, B2, B3, C1, C2, C3. unfold putall. rewrite A2, A1.
  assert (SEL : forall x y : option V, orelse (given kw a) (orelse (match selected as_key ck cat kw with
        | Some (k, e) => orelse (from_entry (Some (k, e)) a) (given kw a) | None => None end)
        (orelse (match file with Some (Some d) => orelse (given kw a) (pget a d) | _ => None end) y))
      = orelse v y).
  { intros _ y. unfold v, in_file. destruct (given kw a) as [g|]; [reflexivity|].
    destruct (selected as_key ck cat kw) as [[k e]|]; simpl.
    - destruct (pget a e); simpl; [reflexivity|]. destruct file as [[d|]|]; simpl; try reflexivity; destruct (pget a d); reflexivity.
    - destruct file as [[d|]|]; simpl; try reflexivity; destruct (pget a d); reflexivity. }
  assert (SEL' : orelse (given kw a) (orelse (match selected as_key ck cat kw with
        | Some (k, e) => orelse (from_entry (Some (k, e)) a) (given kw a) | None => None end)
        (match file with Some (Some d) => orelse (given kw a) (pget a d) | _ => None end)) = v).
  { specialize (SEL None None). destruct v eqn:Y; simpl in SEL; rewrite <- SEL;
      destruct (given kw a); simpl; auto; destruct (selected as_key ck cat kw) as [[k e]|]; simpl;
      try (destruct (pget a e); simpl; auto); destruct file as [[d|]|]; simpl; auto; destruct (pget a d); auto. }
  split; intros S; rewrite S.
  - split; [apply (SEL None)|]. split; [exact SEL'|]. destruct (negb _); reflexivity.
  - split; [reflexivity|]. split; [reflexivity|]. simpl. exact SEL'.
Qed.

Lemma rejected ck cat file kw o a v : given kw a = Some v -> settable a = true -> acc a v = false ->
  exists oc e, set_properties ck cat file kw o = (oc, Err e).
Proof.
  intros G S B. unfold Conf_model.set_properties.
  destruct (match file with None => _ | Some f => _ end) as [o1 [[m1 u1]|e]]; [|eauto].
  destruct (match cat with [] => _ | _ => _ end) as [[o2 cat2] [[m2 u2]|e]]; [|eauto].
  destruct (from_args_bad kw o2 a v G S B) as (o3 & e & E). rewrite E. eauto.
Qed.

Lemma from_args_err kw : forall o o' e, from_args kw o = (o', Err e) ->
  exists k v o1 o2, In (k, Some v) kw /\ settable k = true /\ setter k v o1 = (o2, Some e).
Proof.
  induction kw as [|[k [w|]] r IH]; intros o o' e; cbn [Conf_model.from_args]; [discriminate| |].
  - destruct (settable k) eqn:S.
    + destruct (setter k w o) as [o1 [e1|]] eqn:E.
      * intros X. injection X as <- <-. exists k, w, o, o1. simpl. auto.
      * destruct (from_args r o1) as [o2 [[m u]|e2]] eqn:F; [discriminate|]. intros X. injection X as <- <-.
        destruct (IH _ _ _ F) as (k' & v' & p & q & I & A). exists k', v', p, q. simpl. tauto.
    + destruct (from_args r o) as [o2 [[m u]|e2]] eqn:F; [discriminate|]. intros X. injection X as <- <-.
      destruct (IH _ _ _ F) as (k' & v' & p & q & I & A). exists k', v', p, q. simpl. tauto.
  - intros F. destruct (IH _ _ _ F) as (k' & v' & p & q & I & A). exists k', v', p, q. simpl. tauto.
Qed.

(** Without a file, an error comes from a keyword or from the selected entry. *)
Lemma set_properties_err ck cat kw o oc e : is_dict kw ->
  set_properties ck cat None kw o = (oc, Err e) ->
  exists k v o1 o2, (In (k, Some v) kw \/ (exists n en, selected as_key ck cat kw = Some (n, en) /\ In (k, v) (pset ck (of_key n) en)))
     /\ settable k = true /\ setter k v o1 = (o2, Some e).
Proof.
  intros D. unfold Conf_model.set_properties.
  destruct (match cat with [] => _ | _ => _ end) as [[o2 cat2] r] eqn:C.
  destruct r as [[m2 u2]|e2].
  - destruct (from_args kw o2) as [o3 [[m u]|e3]] eqn:F; [discriminate|]. intros X. injection X as <- <-.
    destruct (from_args_err _ _ _ _ F) as (k & v & p & q & I & A). exists k, v, p, q. tauto.
  - intros X. injection X as <- <-.
    assert (C' : from_catalogue ck cat None kw o = (o2, cat2, Err e2)) by (destruct cat; [discriminate|exact C]).
    clear C. revert C'. unfold Conf_model.from_catalogue. unfold selected, given.
    destruct (pget ck kw) as [[v|]|] eqn:G; try discriminate.
    destruct (as_key v) as [k|]; [|discriminate]. destruct (pget k cat) as [en|]; [|discriminate].
    destruct (from_args _ o) as [o3 [mu|e3]] eqn:F; [discriminate|]. intros X. injection X as _ _ ->.
    destruct (from_args_err _ _ _ _ F) as (k' & v' & p & q & I & A). exists k', v', p, q. split; [|exact A].
    apply in_app_iff in I. destruct I as [I|I].
    + right. exists k, en. split; [reflexivity|]. apply in_map_iff in I. destruct I as ([x y] & E & I). injection E as -> ->. exact I.
    + left. apply filter_In in I. destruct I as [I _]. unfold pdel in I. apply filter_In in I. apply I.
Qed.
End Store.

(* ---------- targets ---------- *)
Definition tacc (k : string) (v : val) : bool :=
  match v with
  | VNum q => existsb (String.eqb k) ["radius"; "mass"; "density"] && qpos q
  | VStr s => existsb (String.eqb k) ["name"; "material"]
              || (String.eqb k "transition_scale_type" && (String.eqb s "silicate" || String.eqb s "ice"))
  end.

Lemma existsb_In k l : existsb (String.eqb k) l = true <-> In k l.
Proof.
  rewrite existsb_exists. split.
  - intros (x & I & E). apply String.eqb_eq in E. congruence.
  - intros I. exists k. split; [exact I|apply String.eqb_refl].
Qed.
Lemma qpos_lt q : qpos q = true <-> (0 < q)%Q.
Proof.
  unfold qpos. rewrite Bool.negb_true_iff. split; intros H.
  - apply Qnot_le_lt. intros X. apply Qle_bool_iff in X. congruence.
  - destruct (Qle_bool q 0) eqn:E; [|reflexivity]. apply Qle_bool_iff in E. exfalso. apply (Qlt_not_le _ _ H E).
Qed.

Ltac six H := apply existsb_In in H; cbn in H;
  destruct H as [<-|[<-|[<-|[<-|[<-|[<-|[]]]]]]].

Lemma attribute_mark n t a : attribute (mark n t) a = attribute t a. Proof. reflexivity. Qed.

Lemma six_cases a : In a ["radius"; "mass"; "name"; "material"; "density"; "transition_scale_type"] \/
  (forall t, attribute t a = None).
Proof.
  unfold attribute.
  destruct (String.eqb_spec a "radius"); [left; subst; simpl; auto|].
  destruct (String.eqb_spec a "mass"); [left; subst; simpl; auto|].
  destruct (String.eqb_spec a "name"); [left; subst; simpl; auto|].
  destruct (String.eqb_spec a "material"); [left; subst; simpl; auto|].
  destruct (String.eqb_spec a "density"); [left; subst; simpl; auto 6|].
  destruct (String.eqb_spec a "transition_scale_type"); [left; subst; simpl; auto 8|].
  right. reflexivity.
Qed.

(** One assignment: accepted exactly when acceptable; it then changes that attribute only. *)
Lemma upd_radius q t a : attribute (set_radius q t) a = if String.eqb a "radius" then vnum q else attribute t a.
Proof. unfold attribute. destruct (String.eqb a "radius"); reflexivity. Qed.
Lemma upd_mass q t a : attribute (set_mass q t) a = if String.eqb a "mass" then vnum q else attribute t a.
Proof. unfold attribute. destruct (String.eqb_spec a "mass") as [->|]; reflexivity. Qed.
Lemma upd_name q t a : attribute (set_name q t) a = if String.eqb a "name" then vstr q else attribute t a.
Proof. unfold attribute. destruct (String.eqb_spec a "name") as [->|]; reflexivity. Qed.
Lemma upd_material' q t a : attribute (set_material q t) a = if String.eqb a "material" then vstr q else attribute t a.
Proof. unfold attribute. destruct (String.eqb_spec a "material") as [->|]; reflexivity. Qed.
Lemma upd_density q t a : attribute (set_density q t) a = if String.eqb a "density" then vnum q else attribute t a.
Proof. unfold attribute. destruct (String.eqb_spec a "density") as [->|]; reflexivity. Qed.
Lemma upd_scale q t a : attribute (set_scale q t) a = if String.eqb a "transition_scale_type" then vstr q else attribute t a.
Proof. unfold attribute. destruct (String.eqb_spec a "transition_scale_type") as [->|]; reflexivity. Qed.
Lemma attribute_same t a k : (if String.eqb a k then attribute t k else attribute t a) = attribute t a.
Proof. destruct (String.eqb_spec a k) as [->|]; reflexivity. Qed.

Lemma assign_cases k v t :
  (acceptable k v /\ snd (target_assign k v t) = None /\
     forall a, attribute (fst (target_assign k v t)) a = if String.eqb a k then v else attribute t a) \/
  (~ acceptable k v /\ snd (target_assign k v t) <> None /\
     forall a, attribute (fst (target_assign k v t)) a = attribute t a).
Proof.
  unfold target_assign.
  destruct (String.eqb_spec k "radius") as [->|N1]; [|
  destruct (String.eqb_spec k "mass") as [->|N2]; [|
  destruct (String.eqb_spec k "name") as [->|N3]; [|
  destruct (String.eqb_spec k "material") as [->|N4]; [|
  destruct (String.eqb_spec k "density") as [->|N5]; [|
  destruct (String.eqb_spec k "transition_scale_type") as [->|N6]]]]]].
  - destruct v as [[q|s]|].
    + destruct (qpos q) eqn:E.
      * left. apply qpos_lt in E. split; [simpl; auto|]. split; [reflexivity|]. intros a. etransitivity; [apply upd_radius|reflexivity].
      * right. split; [|split; [simpl; congruence|reflexivity]]. simpl. intros [_ X]. apply qpos_lt in X. congruence.
    + right. split; [|split; [simpl; congruence|reflexivity]]. simpl. intros [[X|[X|[]]]|[X _]]; discriminate.
    + right. split; [|split; [simpl; congruence|reflexivity]]. simpl. intros [X|[X|[X|[X|[]]]]]; discriminate.
  - destruct v as [[q|s]|].
    + destruct (qpos q) eqn:E.
      * left. apply qpos_lt in E. split; [simpl; auto|]. split; [reflexivity|]. intros a. etransitivity; [apply upd_mass|reflexivity].
      * right. split; [|split; [simpl; congruence|reflexivity]]. simpl. intros [_ X]. apply qpos_lt in X. congruence.
    + right. split; [|split; [simpl; congruence|reflexivity]]. simpl. intros [[X|[X|[]]]|[X _]]; discriminate.
    + right. split; [|split; [simpl; congruence|reflexivity]]. simpl. intros [X|[X|[X|[X|[]]]]]; discriminate.
  - destruct v as [[q|s]|].
    + right. split; [|split; [simpl; congruence|reflexivity]]. simpl. intros [[X|[X|[X|[]]]] _]; discriminate.
    + left. split; [simpl; auto|]. split; [reflexivity|]. intros a. etransitivity; [apply upd_name|reflexivity].
    + left. split; [simpl; auto|]. split; [reflexivity|]. intros a. etransitivity; [apply upd_name|reflexivity].
  - destruct v as [[q|s]|].
    + right. split; [|split; [simpl; congruence|reflexivity]]. simpl. intros [[X|[X|[X|[]]]] _]; discriminate.
    + left. split; [simpl; auto|]. split; [reflexivity|]. intros a. etransitivity; [apply upd_material'|reflexivity].
    + left. split; [simpl; auto|]. split; [reflexivity|]. intros a. etransitivity; [apply upd_material'|reflexivity].
  - destruct v as [[q|s]|].
    + destruct (qpos q) eqn:E.
      * left. apply qpos_lt in E. split; [simpl; auto|]. split; [reflexivity|]. intros a. etransitivity; [apply upd_density|reflexivity].
      * right. split; [|split; [simpl; congruence|reflexivity]]. simpl. intros [_ X]. apply qpos_lt in X. congruence.
    + right. split; [|split; [simpl; congruence|reflexivity]]. simpl. intros [[X|[X|[]]]|[X _]]; discriminate.
    + left. split; [simpl; auto|]. split; [reflexivity|]. intros a. etransitivity; [apply upd_density|reflexivity].
  - destruct v as [[q|s]|].
    + right. split; [|split; [simpl; congruence|reflexivity]]. simpl. intros [[X|[X|[X|[]]]] _]; discriminate.
    + destruct (String.eqb_spec s "silicate") as [->|S1]; [|destruct (String.eqb_spec s "ice") as [->|S2]].
      * left. split; [simpl; auto|]. split; [reflexivity|]. intros a. etransitivity; [apply upd_scale|reflexivity].
      * left. split; [simpl; auto|]. split; [reflexivity|]. intros a. etransitivity; [apply upd_scale|reflexivity].
      * right. split; [|split; [simpl; congruence|reflexivity]]. simpl. intros [[X|[X|[]]]|[_ [X|X]]]; congruence.
    + left. split; [simpl; auto|]. split; [reflexivity|]. intros a. etransitivity; [apply upd_scale|reflexivity].
  - right. split; [|split; [simpl; congruence|reflexivity]]. destruct v as [[q|s]|]; simpl; intuition congruence.
Qed.

Lemma tacc_ok k v : tacc k v = true <-> acceptable k (Some v).
Proof.
  destruct v as [q|s]; unfold tacc, acceptable.
  - rewrite Bool.andb_true_iff, existsb_In, qpos_lt. reflexivity.
  - rewrite Bool.orb_true_iff, existsb_In, Bool.andb_true_iff, Bool.orb_true_iff, !String.eqb_eq. reflexivity.
Qed.
Lemma target_wb : well_behaved target_settable target_setter attribute tacc.
Proof.
  constructor; intros k v o S A; unfold target_setter;
    destruct (assign_cases k (Some v) o) as [(B & E & F)|(B & E & F)];
    destruct (target_assign k (Some v) o) as [o' [e|]]; simpl in *; try congruence.
  - exists o'. auto.
  - apply tacc_ok in A. contradiction.
  - apply tacc_ok in B. congruence.
  - exists o', e. auto.
Qed.

(* ---------- construction ---------- *)
Definition good_entry (e : pairs val) : bool :=
  match e with
  | [(k1, VNum r); (k2, VNum m); (k3, VStr mat); (k4, VStr s)] =>
      String.eqb k1 "radius" && String.eqb k2 "mass" && String.eqb k3 "material" && String.eqb k4 "transition_scale_type"
      && qpos r && qpos m && (String.eqb s "silicate" || String.eqb s "ice") && pmem mat density_catalogue
  | _ => false
  end.
Lemma good_entry_ok e : good_entry e = true -> exists r m mat s,
  e = [("radius", VNum r); ("mass", VNum m); ("material", VStr mat); ("transition_scale_type", VStr s)] /\
  (0 < r)%Q /\ (0 < m)%Q /\ (s = "silicate" \/ s = "ice") /\ pget mat density_catalogue <> None.
Proof.
  unfold good_entry.
  destruct e as [|[k1 [r|]] [|[k2 [m|]] [|[k3 [|mat]] [|[k4 [|s]] [|]]]]]; try discriminate.
  rewrite !Bool.andb_true_iff, Bool.orb_true_iff, !String.eqb_eq, !qpos_lt.
  intros [[[[[[[-> ->] ->] ->] A] B] C] D]. exists r, m, mat, s. repeat split; auto.
  unfold pmem in D. destruct (pget mat density_catalogue); [discriminate|discriminate D].
Qed.
Lemma pget_In {A} k (v : A) d : pget k d = Some v -> In (k, v) d.
Proof.
  induction d as [|[k' w] r IH]; simpl; [discriminate|].
  destruct (String.eqb_spec k k') as [->|]; [intros H; injection H as ->; auto|auto].
Qed.
Lemma catalogue_good : forallb (fun p => good_entry (snd p)) target_catalogue = true.
Proof. vm_compute. reflexivity. Qed.
Lemma catalogue_entry n e : pget n target_catalogue = Some e -> exists r m mat s,
  e = [("radius", VNum r); ("mass", VNum m); ("material", VStr mat); ("transition_scale_type", VStr s)] /\
  (0 < r)%Q /\ (0 < m)%Q /\ (s = "silicate" \/ s = "ice") /\ pget mat density_catalogue <> None.
Proof.
  intros H. apply good_entry_ok. apply pget_In in H.
  assert (X := catalogue_good). rewrite forallb_forall in X. exact (X _ H).
Qed.
Lemma target_wf : wf_cat val "name" target_catalogue.
Proof.
  intros k e H. destruct (catalogue_entry k e H) as (r & m & mat & s & -> & _).
  split; [|reflexivity]. unfold is_dict. simpl. repeat constructor; simpl; intuition discriminate.
Qed.

Definition tkw (n : string) (a : target_args) : kwargs val :=
  [("name", Some (VStr n)); ("radius", vnum (size_arg a)); ("mass", vnum (a_mass a));
   ("material", vstr (a_material a)); ("density", vnum (a_density a)); ("transition_scale_type", vstr (a_scale a))].
Lemma tkw_dict n a : is_dict (tkw n a).
Proof. unfold is_dict. simpl. repeat constructor; simpl; intuition discriminate. Qed.
Notation tset := (set_properties val target target_settable target_setter val_key VStr).
Definition finish (t : target) : result target :=
  match t_name t, t_radius t, t_mass t, t_scale t with
  | Some _, Some _, Some _, Some _ =>
      Ok (match t_density t, t_material t with
          | None, Some m => match pget m density_catalogue with Some d => set_density (Some d) t | None => t end
          | _, _ => t
          end)
  | _, _, _, _ => Err ValueError
  end.
Definition run_init (cat : catalogue val) n a : catalogue val * result target :=
  match tset "name" cat None (tkw n a) target0 with
  | ((t, cat'), Err e) => (cat', Err e)
  | ((t, cat'), Ok _) => (cat', finish t)
  end.
Lemma init_eq cat n a : target_init cat n a =
  match a_radius a, a_diameter a with Some _, Some _ => (cat, Err ValueError) | _, _ => run_init cat n a end.
Proof.
  unfold target_init, run_init, tkw, size_arg, finish. destruct (a_radius a), (a_diameter a); reflexivity.
Qed.

Lemma given_tkw_valid n a : valid_args a -> all_acc val target_settable tacc (tkw n a).
Proof.
  intros (V0 & V1 & V2 & V3 & V4) k v G S. apply tacc_ok. six S; unfold given, tkw in G; cbn in G.
  - unfold pos_or_none in V1. destruct (size_arg a); [|discriminate]. injection G as <-. simpl. auto.
  - unfold pos_or_none in V2. destruct (a_mass a); [|discriminate]. injection G as <-. simpl. auto.
  - injection G as <-. simpl. auto.
  - destruct (a_material a); [|discriminate]. injection G as <-. simpl. auto.
  - unfold pos_or_none in V3. destruct (a_density a); [|discriminate]. injection G as <-. simpl. auto.
  - destruct (a_scale a); [|discriminate]. injection G as <-. simpl. right. split; [reflexivity|].
    destruct V4 as [X|[X|X]]; [discriminate|injection X as ->|injection X as ->]; auto.
Qed.
Lemma given_tkw_invalid n a : (a_radius a = None \/ a_diameter a = None) -> ~ valid_args a ->
  exists k v, given (tkw n a) k = Some v /\ target_settable k = true /\ tacc k v = false.
Proof.
  intros V0 NV.
  assert (X : forall k v, ~ acceptable k (Some v) -> tacc k v = false).
  { intros k v H. destruct (tacc k v) eqn:E; [|reflexivity]. apply tacc_ok in E. contradiction. }
  assert (P : forall o : option Q, pos_or_none o \/ exists q, o = Some q /\ ~ (0 < q)%Q).
  { intros [q|]; simpl; [|auto]. destruct (Qlt_le_dec 0 q); [auto|]. right. exists q. split; [reflexivity|]. apply Qle_not_lt, q0. }
  destruct (P (size_arg a)) as [P1|(q & E & N)].
  2:{ exists "radius", (VNum q). split; [unfold given; simpl; rewrite E; reflexivity|]. split; [reflexivity|]. apply X. simpl. tauto. }
  destruct (P (a_mass a)) as [P2|(q & E & N)].
  2:{ exists "mass", (VNum q). split; [unfold given; simpl; rewrite E; reflexivity|]. split; [reflexivity|]. apply X. simpl. tauto. }
  destruct (P (a_density a)) as [P3|(q & E & N)].
  2:{ exists "density", (VNum q). split; [unfold given; simpl; rewrite E; reflexivity|]. split; [reflexivity|]. apply X. simpl. tauto. }
  destruct (a_scale a) as [s|] eqn:E.
  2:{ exfalso. apply NV. unfold valid_args. rewrite E. tauto. }
  exists "transition_scale_type", (VStr s). split; [unfold given; simpl; rewrite E; reflexivity|]. split; [reflexivity|].
  apply X. simpl. intros [[Y|[Y|[]]]|[_ Y]]; try discriminate. apply NV. unfold valid_args. rewrite E.
  destruct Y as [->| ->]; tauto.
Qed.

Lemma selected_tkw n a : selected val_key "name" target_catalogue (tkw n a) =
  match pget n target_catalogue with Some e => Some (n, e) | None => None end.
Proof. reflexivity. Qed.
Lemma entry_acc n a k v : from_entry (selected val_key "name" target_catalogue (tkw n a)) k = Some v ->
  target_settable k = true -> tacc k v = true.
Proof.
  rewrite selected_tkw. destruct (pget n target_catalogue) as [e|] eqn:E; [|discriminate]. simpl.
  destruct (catalogue_entry n e E) as (r & m & mat & s & -> & A & B & C & _). intros G S. apply tacc_ok.
  six S; cbn in G; try discriminate; injection G as <-; simpl; auto.
Qed.
Lemma entry_attr n k : from_entry (match pget n target_catalogue with Some e => Some (n, e) | None => None end) k =
  match pget n target_catalogue with Some e => pget k e | None => None end.
Proof. destruct (pget n target_catalogue); reflexivity. Qed.

Lemma vnum_orelse x y z : vnum x = orelse (vnum y) (vnum z) -> x = orelse y z.
Proof. destruct x, y, z; simpl; congruence. Qed.
Lemma vstr_orelse x y z : vstr x = orelse (vstr y) (vstr z) -> x = orelse y z.
Proof. destruct x, y, z; simpl; congruence. Qed.

(** The attributes after the assignments of the constructor. *)
Lemma tset_valid n a : valid_args a -> exists t mu, tset "name" target_catalogue None (tkw n a) target0 = ((t, target_catalogue), Ok mu) /\
  t_name t = Some n /\
  t_radius t = orelse (size_arg a) (entry_num n "radius") /\
  t_mass t = orelse (a_mass a) (entry_num n "mass") /\
  t_scale t = orelse (a_scale a) (entry_str n "transition_scale_type") /\
  t_material t = orelse (a_material a) (entry_str n "material") /\
  t_density t = a_density a.
Proof.
  intros V.
  destruct (precedence val target _ _ _ _ target_wb val_key VStr
     ltac:(intros [q|s] k H; simpl in H; [discriminate|injection H as ->; reflexivity])
     "name" target_catalogue None (tkw n a) target0 (tkw_dict n a) target_wf
     ltac:(discriminate) (given_tkw_valid n a V) (entry_acc n a) ltac:(simpl; discriminate)) as (t & m & u & E & P).
  exists t, (m, u). split; [exact E|].
  assert (Q : forall k, target_settable k = true ->
     attribute t k = orelse (given (tkw n a) k) (match pget n target_catalogue with Some e => pget k e | None => None end)).
  { intros k S. destruct (P k) as [P1 _]. destruct (P1 S) as (X & _ & _). rewrite X.
    rewrite selected_tkw, entry_attr. unfold in_file.
    assert (Z : attribute target0 k = None) by (six S; reflexivity). rewrite Z.
    destruct (given (tkw n a) k); [reflexivity|]. destruct (match pget n target_catalogue with Some e => pget k e | None => None end); reflexivity. }
  assert (EN : forall k, match pget n target_catalogue with Some e => pget k e | None => None end =
      if existsb (String.eqb k) ["radius"; "mass"] then vnum (entry_num n k) else vstr (entry_str n k)).
  { intros k. unfold entry_num, entry_str, num_in. destruct (pget n target_catalogue) as [e|] eqn:E0.
    - destruct (catalogue_entry n e E0) as (r & mm & mat & s & -> & _).
      cbn [existsb]. unfold pget. destruct (String.eqb k "radius") eqn:K1; [reflexivity|].
      destruct (String.eqb k "mass") eqn:K2; [reflexivity|]. destruct (String.eqb k "material"); [reflexivity|].
      destruct (String.eqb k "transition_scale_type"); reflexivity.
    - destruct (existsb _ _); reflexivity. }
  clear P E. split; [|split; [|split; [|split; [|split]]]].
  - specialize (Q "name" eq_refl). unfold attribute, given in Q. cbn in Q. destruct (t_name t); [injection Q as ->; reflexivity|discriminate].
  - specialize (Q "radius" eq_refl). rewrite EN in Q. apply vnum_orelse, Q.
  - specialize (Q "mass" eq_refl). rewrite EN in Q. apply vnum_orelse, Q.
  - specialize (Q "transition_scale_type" eq_refl). rewrite EN in Q. apply vstr_orelse, Q.
  - specialize (Q "material" eq_refl). rewrite EN in Q. apply vstr_orelse, Q.
  - specialize (Q "density" eq_refl). rewrite EN in Q.
    assert (Z : entry_str n "density" = None).
    { unfold entry_str. destruct (pget n target_catalogue) as [e|] eqn:E0; [|reflexivity].
      destruct (catalogue_entry n e E0) as (r & mm & mat & s & -> & _). reflexivity. }
    rewrite Z in Q. apply (vnum_orelse _ _ None) in Q. rewrite Q. destruct (a_density a); reflexivity.
Qed.

Lemma tset_invalid n a : (a_radius a = None \/ a_diameter a = None) -> ~ valid_args a ->
  exists oc, tset "name" target_catalogue None (tkw n a) target0 = (oc, Err ValueError).
Proof.
  intros V0 NV. destruct (given_tkw_invalid n a V0 NV) as (k & v & G & S & B).
  destruct (rejected val target _ _ _ _ target_wb val_key VStr "name" target_catalogue None (tkw n a) target0 k v G S B) as (oc & e & E).
  exists oc. rewrite E. f_equal. f_equal.
  destruct (set_properties_err val target target_settable target_setter val_key VStr "name" target_catalogue (tkw n a) target0 oc e (tkw_dict n a) E)
    as (k' & v' & o1 & o2 & I & S' & X).
  assert (T : forall q, v' = VNum q -> In k' ["radius"; "mass"; "density"] -> e = ValueError).
  { intros q -> I'. cbn in I'. destruct I' as [<-|[<-|[<-|[]]]]; cbn in X; destruct (qpos q); congruence. }
  assert (T2 : forall s, v' = VStr s -> In k' ["name"; "material"; "transition_scale_type"] -> e = ValueError).
  { intros s -> I'. cbn in I'. destruct I' as [<-|[<-|[<-|[]]]]; cbn in X; try congruence.
    destruct ((s =? "silicate") || (s =? "ice")); congruence. }
  destruct I as [I|(nn & en & SE & I)].
  - unfold tkw in I. cbn [In] in I.
    destruct I as [I|[I|[I|[I|[I|[I|[]]]]]]]; injection I as <- I.
    + subst v'. eapply T2; [reflexivity|simpl; auto].
    + destruct (size_arg a); [|discriminate]. injection I as <-. eapply T; [reflexivity|simpl; auto].
    + destruct (a_mass a); [|discriminate]. injection I as <-. eapply T; [reflexivity|simpl; auto].
    + destruct (a_material a); [|discriminate]. injection I as <-. eapply T2; [reflexivity|simpl; auto].
    + destruct (a_density a); [|discriminate]. injection I as <-. eapply T; [reflexivity|simpl; auto].
    + destruct (a_scale a); [|discriminate]. injection I as <-. eapply T2; [reflexivity|simpl; auto].
  - rewrite selected_tkw in SE. destruct (pget n target_catalogue) as [e0|] eqn:E0; [|discriminate].
    injection SE as <- <-. destruct (catalogue_entry n e0 E0) as (r & m & mat & s & -> & _). cbn [In pset String.eqb Ascii.eqb Bool.eqb] in I.
    destruct I as [I|[I|[I|[I|[I|[]]]]]]; injection I as <- <-;
      solve [eapply T; [reflexivity|simpl; auto] | eapply T2; [reflexivity|simpl; auto]].
Qed.

Lemma finish_made n a t t' :
  t_name t = Some n -> t_radius t = orelse (size_arg a) (entry_num n "radius") ->
  t_mass t = orelse (a_mass a) (entry_num n "mass") ->
  t_scale t = orelse (a_scale a) (entry_str n "transition_scale_type") ->
  t_material t = orelse (a_material a) (entry_str n "material") -> t_density t = a_density a ->
  finish t = Ok t' -> made n a t' /\ t_user t' = t_user t.
Proof.
  intros A B C D E F. unfold finish. rewrite A.
  destruct (t_radius t) eqn:R1; [|discriminate]. destruct (t_mass t) eqn:M1; [|discriminate].
  destruct (t_scale t) eqn:S1; [|discriminate]. rewrite F, E.
  destruct (a_density a) eqn:AD.
  - intros X; injection X as <-. split; [|reflexivity]. unfold made. rewrite A, R1, M1, S1, AD, F. repeat split; auto; discriminate.
  - destruct (orelse (a_material a) (entry_str n "material")) as [mm|] eqn:OM.
    + destruct (pget mm density_catalogue) eqn:PD.
      * intros X; injection X as <-. split; [|reflexivity]. unfold made. cbn [set_density t_name t_radius t_mass t_scale t_material t_density t_user]. rewrite A, R1, M1, S1, AD, E, OM. cbn [orelse]. rewrite PD. repeat split; auto; discriminate.
      * intros X; injection X as <-. split; [|reflexivity]. unfold made. rewrite A, R1, M1, S1, AD, F, E, OM, PD. repeat split; auto; discriminate.
    + intros X; injection X as <-. split; [|reflexivity]. unfold made. rewrite A, R1, M1, S1, AD, F, E, OM. repeat split; auto; discriminate.
Qed.

Definition tmk (n : string) (a : target_args) := target_maker target_catalogue (TName n) a.

Lemma construction n a :
  (forall t, snd (tmk n a) = Ok t -> valid_args a /\ made n a t /\ fst (tmk n a) = target_catalogue) /\
  (valid_args a -> orelse (size_arg a) (entry_num n "radius") <> None ->
     orelse (a_mass a) (entry_num n "mass") <> None -> orelse (a_scale a) (entry_str n "transition_scale_type") <> None ->
     exists t, snd (tmk n a) = Ok t) /\
  (forall e, snd (tmk n a) = Err e -> e = ValueError).
Proof.
  unfold tmk, target_maker. rewrite init_eq.
  assert (MAIN : (a_radius a = None \/ a_diameter a = None) ->
    let r := run_init target_catalogue n a in
    (forall t, snd r = Ok t -> valid_args a /\ made n a t /\ fst r = target_catalogue) /\
    (valid_args a -> orelse (size_arg a) (entry_num n "radius") <> None ->
     orelse (a_mass a) (entry_num n "mass") <> None -> orelse (a_scale a) (entry_str n "transition_scale_type") <> None ->
     exists t, snd r = Ok t) /\
    (forall e, snd r = Err e -> e = ValueError)).
  { intros V0. unfold run_init.
    assert (DEC : valid_args a \/ ~ valid_args a).
    { unfold valid_args. assert (P : forall o, pos_or_none o \/ ~ pos_or_none o).
      { intros [q|]; simpl; [destruct (Qlt_le_dec 0 q); [auto|right; apply Qle_not_lt, q0]|auto]. }
      destruct (P (size_arg a)), (P (a_mass a)), (P (a_density a)); try (right; tauto).
      destruct (a_scale a) as [s|]; [|tauto].
      destruct (String.eqb_spec s "silicate") as [->|N1]; [tauto|]. destruct (String.eqb_spec s "ice") as [->|N2]; [tauto|].
      right. intros (_ & _ & _ & _ & [X|[X|X]]); congruence. }
    destruct DEC as [V|NV].
    - destruct (tset_valid n a V) as (t & mu & E & A1 & A2 & A3 & A4 & A5 & A6). rewrite E. cbv zeta. cbn [fst snd].
      split; [|split].
      + intros t' F. destruct (finish_made n a t t' A1 A2 A3 A4 A5 A6 F) as [M _]. auto.
      + intros _ H1 H2 H3. unfold finish. rewrite A1, A2, A3, A4.
        destruct (orelse (size_arg a) _); [|congruence]. destruct (orelse (a_mass a) _); [|congruence].
        destruct (orelse (a_scale a) _); [|congruence]. eauto.
      + intros e F. unfold finish in F. destruct (t_name t), (t_radius t), (t_mass t), (t_scale t); congruence.
    - destruct (tset_invalid n a V0 NV) as ([o c] & E). rewrite E. cbv zeta. cbn [fst snd].
      split; [discriminate|]. split; [contradiction|]. intros e X. congruence. }
  destruct (a_radius a) eqn:R1.
  - destruct (a_diameter a) eqn:D1.
    + cbn [fst snd]. split; [discriminate|]. split; [|intros e X; congruence].
      intros (V0 & _). rewrite R1, D1 in V0. destruct V0; discriminate.
    + specialize (MAIN (or_intror eq_refl)). cbv zeta in MAIN.
      destruct (run_init target_catalogue n a) as [c [t|[| | | | | | | | | |]]]; exact MAIN || (destruct MAIN as (_ & _ & M3); specialize (M3 _ eq_refl); discriminate).
  - specialize (MAIN (or_introl eq_refl)). cbv zeta in MAIN.
      destruct (run_init target_catalogue n a) as [c [t|[| | | | | | | | | |]]]; exact MAIN || (destruct MAIN as (_ & _ & M3); specialize (M3 _ eq_refl); discriminate).
Qed.
