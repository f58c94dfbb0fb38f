(** Proofs about the shapes of lunar craters. *)
From Coq Require Import Reals Lra Lia.
From Verif Require Import Common Crater_model Lunar_model Lunar_spec.
Open Scope R_scope.

Lemma get_del_other k j d : k <> j -> get k (del j d) = get k d.
Proof.
  intros N. induction d as [|[q v] d IH]; [reflexivity|]. unfold del in *. cbn.
  destruct (String.eqb_spec j q) as [->|E]; cbn.
  - rewrite IH. now destruct (String.eqb_spec k q).
  - now rewrite IH.
Qed.
Lemma get_del_same k d : get k (del k d) = None.
Proof.
  induction d as [|[q v] d IH]; [reflexivity|]. unfold del in *. cbn.
  destruct (String.eqb_spec k q) as [->|E]; cbn; [exact IH|].
  now destruct (String.eqb_spec k q).
Qed.
Lemma get_set_same k v d : get k (set k v d) = Some v.
Proof. cbn. now rewrite String.eqb_refl. Qed.
Lemma get_set_other k j v d : k <> j -> get k (set j v d) = get k d.
Proof. intros N. cbn. destruct (String.eqb_spec k j); [contradiction|]. now apply get_del_other. Qed.
Lemma get_app k a b : get k (a ++ b)%list = match get k a with Some v => Some v | None => get k b end.
Proof. induction a as [|[q v] a IH]; [reflexivity|]. cbn. now destruct (String.eqb k q). Qed.
Lemma get_filter k (g : string -> bool) d : g k = true -> get k (filter (fun p => g (fst p)) d) = get k d.
Proof.
  intros G. induction d as [|[q v] d IH]; [reflexivity|]. cbn.
  destruct (String.eqb_spec k q) as [->|E].
  - rewrite G. cbn. now rewrite String.eqb_refl.
  - destruct (g q); cbn; [|exact IH]. destruct (String.eqb_spec k q); [contradiction|exact IH].
Qed.

(** What a field is after the loop: the keyword where nothing was there before. *)
Definition fill (old new : option value) : option value :=
  match new with
  | Some v => match old with None | Some VNone => Some v | _ => old end
  | None => old
  end.

Lemma take_other names : forall k fixed kw, ~ In k (map fst names) -> get k (take names fixed kw) = get k fixed.
Proof.
  induction names as [|[f i] names IH]; intros k fixed kw N; [reflexivity|]. cbn in N |- *.
  assert (k <> f) by (intro; apply N; now left). assert (~ In k (map fst names)) by (intro; apply N; now right).
  destruct (get f kw) as [v|]; [|now apply IH].
  destruct (i && _); [|now apply IH]. rewrite IH by assumption. now apply get_set_other.
Qed.

Lemma take_get names : NoDup (map fst names) -> forall k fixed kw, In (k, true) names ->
  get k (take names fixed kw) = fill (get k fixed) (get k kw).
Proof.
  induction names as [|[f i] names IH]; intros ND k fixed kw I; [destruct I|].
  cbn in ND. inversion ND as [|? ? NI ND']; subst. cbn [take].
  destruct I as [[= -> ->]|I].
  - unfold fill. destruct (get k kw) as [v|] eqn:K; [|now apply take_other].
    cbn [andb]. destruct (get k fixed) as [[| | |]|] eqn:F; try (rewrite take_other by exact NI; exact F);
      rewrite take_other by exact NI; apply get_set_same.
  - assert (k <> f) by (intros ->; apply NI, (in_map fst _ _ I)).
    destruct (get f kw) as [v|]; [|now apply IH].
    destruct (i && _); [|now apply IH]. rewrite (IH ND' k _ _ I), get_set_other, get_del_other by assumption. reflexivity.
Qed.

Lemma fields_nodup : NoDup (map fst fields).
Proof.
  assert (D : forall l : list string, (fix nd l := match l with [] => true | a :: l => negb (existsb (String.eqb a) l) && nd l end) l = true -> NoDup l).
  { induction l as [|a l IH]; intros H; [constructor|]. apply andb_prop in H. destruct H as [H1 H2].
    constructor; [|now apply IH]. intros I. apply negb_true_iff in H1.
    assert (existsb (String.eqb a) l = true); [|congruence].
    apply existsb_exists. exists a. split; [exact I|apply String.eqb_refl]. }
  apply D. vm_compute. reflexivity.
Qed.

Lemma complete_get k d : In (k, true) fields -> get k (complete d) = Some (match get k d with Some v => v | None => VNone end).
Proof.
  intros I. unfold complete.
  assert (I' : In (k, true) (filter (fun f => snd f) fields)) by (apply filter_In; auto).
  revert I'. induction (filter (fun f => snd f) fields) as [|[f i] l IH]; intros I'; [destruct I'|].
  cbn. destruct (String.eqb_spec k f) as [->|N]; [reflexivity|].
  destruct I' as [[= -> ->]|I']; [contradiction|]. now apply IH.
Qed.

Lemma shape_field k : of_shape k -> In (k, true) fields.
Proof.
  intros H. unfold fields. apply in_or_app. right. apply in_or_app. right.
  apply (in_map (fun n => (n, true))). exact H.
Qed.
Lemma base_field k : In k base_init_names -> In (k, true) fields.
Proof. intros H. unfold fields. apply in_or_app. left. now apply (in_map (fun n => (n, true))). Qed.

Lemma ok_inj {A} (a b : A) : Ok a = Ok b -> a = b.
Proof. congruence. Qed.

Definition value_of (o : option value) : value := match o with Some v => v | None => VNone end.

Lemma init_none k kw c : In (k, true) fields -> init None kw = Ok c -> get k c = Some (value_of (get k kw)).
Proof.
  intros I E. apply ok_inj in E. subst c. rewrite complete_get by exact I. rewrite (take_get _ fields_nodup) by exact I. unfold fill, value_of.
  cbn [get]. now destruct (get k kw).
Qed.

Definition measured_name (k : string) : Prop :=
  In k ["measured_diameter"; "measured_radius"; "measured_semimajor_axis"; "measured_semiminor_axis"]%string.

Lemma scrub_get k kw kw' : ~ measured_name k -> scrub kw = Ok kw' -> get k kw' = get k kw.
Proof.
  intros N. assert (N1 : forall n, measured_name n -> k <> n) by (intros n M ->; contradiction).
  assert (A : k <> "measured_diameter"%string) by (apply N1; cbn; tauto).
  assert (B : k <> "measured_radius"%string) by (apply N1; cbn; tauto).
  assert (C : k <> "measured_semimajor_axis"%string) by (apply N1; cbn; tauto).
  assert (D : k <> "measured_semiminor_axis"%string) by (apply N1; cbn; tauto).
  unfold scrub. destruct (get "measured_diameter" kw) as [[| d | |]|]; try discriminate.
  - intros [= <-]. now rewrite !get_set_other, get_del_other by assumption.
  - destruct (get "measured_radius" kw).
    + intros [= <-]. now rewrite !get_set_other, get_del_other by assumption.
    + now intros [= <-].
Qed.

Lemma field_not_measured k : In (k, true) fields -> ~ measured_name k.
Proof. intros I M. cbn in I, M. intuition congruence. Qed.

Lemma init_some k c kw c' : In (k, true) fields -> init (Some c) kw = Ok c' ->
  get k c' = Some (value_of (fill (get k c) (get k kw))).
Proof.
  intros I. unfold init. destruct (scrub kw) as [kw'|] eqn:S; [|discriminate]. cbn [rbind]. intros E. apply ok_inj in E. subst c'.
  rewrite complete_get by exact I. rewrite (take_get _ fields_nodup) by exact I.
  now rewrite (scrub_get k kw kw' (field_not_measured k I) S).
Qed.

Lemma shape_plain k : of_shape k -> is_explicit k = false /\ k <> "morphology_type"%string.
Proof.
  intros H. cbn in H. destruct H as [<-|[<-|[<-|[<-|[<-|[<-|[]]]]]]]; split; try reflexivity; discriminate.
Qed.

Section Made.
Context (core : option dict -> dict -> result (dict * bool)).
Hypothesis plain : plain_core core.

Lemma crater_shape old kw c k : of_shape k -> crater_maker core old kw = Ok c ->
  get k c = Some (value_of (get k kw)).
Proof.
  intros H. unfold crater_maker. destruct (core old _) as [[args popped]|] eqn:Co; [|discriminate]. cbn [rbind].
  destruct (plain _ _ _ _ Co) as [_ P]. specialize (P k H). destruct (shape_plain k H) as [E M].
  set (rest := if popped then _ else _).
  assert (G : get k rest = get k kw).
  { unfold rest. destruct popped; [rewrite get_del_other by exact M|];
      apply (get_filter k (fun n => negb (is_explicit n))); now rewrite E. }
  destruct (existsb _ rest); [discriminate|]. intros I.
  rewrite (init_none k _ _ (shape_field k H) I), get_app. unfold has in P.
  destruct (get k args); [discriminate|]. now rewrite G.
Qed.

Lemma morphology_shape old kw c k : of_shape k -> morphology_maker core old kw = Ok c ->
  get k c = Some (value_of (get k kw)).
Proof.
  intros H. unfold morphology_maker. destruct (has "scaling" kw); [discriminate|].
  destruct (crater_maker core old kw) as [c0|] eqn:C; [|discriminate]. cbn [rbind]. intros I.
  rewrite (init_some k _ _ _ (shape_field k H) I). cbn [get fill]. rewrite (crater_shape _ _ _ _ H C). reflexivity.
Qed.

Lemma standard_get mt d args k : of_shape k -> standard mt d = Ok args ->
  exists v, get k args = Some v /\ standard_value mt d k v.
Proof.
  intros H. unfold standard.
  destruct (existsb (String.eqb mt) ["simple"; "transitional"]%string) eqn:B;
    [|destruct (existsb (String.eqb mt) ["complex"; "peakring"; "multiring"]%string) eqn:F; [|discriminate]].
  - assert (Bw : bowl mt).
    { apply existsb_exists in B. destruct B as (x & I & E). apply String.eqb_eq in E. subst x.
      cbn in I. unfold bowl. intuition congruence. }
    intros [= <-]. cbn in H. destruct H as [<-|[<-|[<-|[<-|[<-|[<-|[]]]]]]]; eexists; (split; [reflexivity|]);
      constructor; auto.
  - assert (Fl : floored mt).
    { apply existsb_exists in F. destruct F as (x & I & E). apply String.eqb_eq in E. subst x.
      cbn in I. unfold floored. intuition congruence. }
    intros [= <-]. cbn in H. destruct H as [<-|[<-|[<-|[<-|[<-|[<-|[]]]]]]]; eexists; (split; [reflexivity|]);
      constructor; auto.
Qed.

Lemma lunar_inv old kw c : lunar_maker core old kw = Ok c ->
  exists c0 mt d args, morphology_maker core old kw = Ok c0 /\ diameter_of c0 = Some d /\
    get "morphology_type" c0 = Some (VStr mt) /\ standard mt d = Ok args /\ init (Some c0) (merge args kw) = Ok c.
Proof.
  unfold lunar_maker. destruct (morphology_maker core old kw) as [c0|] eqn:M; [|discriminate]. cbn [rbind].
  destruct (diameter_of c0) as [d|] eqn:D; [|discriminate].
  destruct (get "morphology_type" c0) as [[| | mt |]|] eqn:T; try discriminate.
  destruct (standard mt d) as [args|] eqn:S; [|discriminate]. cbn [rbind]. intros I.
  exists c0, mt, d, args. exact (conj eq_refl (conj D (conj T (conj S I)))).
Qed.

Lemma num_stays k c x kw c' : In (k, true) fields -> init (Some c) kw = Ok c' -> get k c = Some x -> x <> VNone ->
  get k c' = Some x.
Proof.
  intros I E G N. rewrite (init_some _ _ _ _ I E), G. unfold fill. destruct (get k kw); [|reflexivity].
  destruct x; [contradiction|reflexivity..].
Qed.

Lemma lunar_shape old kw c : lunar_maker core old kw = Ok c ->
  exists mt d, get "morphology_type" c = Some (VStr mt) /\ diameter_of c = Some d /\
    forall k, of_shape k ->
      exists v, get k c = Some v /\
        match get k kw with Some given => v = given | None => standard_value mt d k v end.
Proof.
  intros L. destruct (lunar_inv _ _ _ L) as (c0 & mt & d & args & M & D & T & S & I).
  exists mt, d. split; [|split].
  - apply (num_stays _ _ _ _ _ (base_field "morphology_type" ltac:(cbn; tauto)) I T). discriminate.
  - unfold diameter_of in *. 
    destruct (get "semimajor_axis" c0) as [[| a | |]|] eqn:A; try discriminate.
    destruct (get "semiminor_axis" c0) as [[| b | |]|] eqn:B; try discriminate.
    rewrite (num_stays "semimajor_axis" _ _ _ _ (base_field "semimajor_axis" ltac:(cbn; tauto)) I A ltac:(discriminate)).
    rewrite (num_stays "semiminor_axis" _ _ _ _ (base_field "semiminor_axis" ltac:(cbn; tauto)) I B ltac:(discriminate)). exact D.
  - intros k H. rewrite (init_some _ _ _ _ (shape_field k H) I), (morphology_shape _ _ _ _ H M).
    unfold merge. rewrite get_app. destruct (standard_get _ _ _ _ H S) as (v & G & V).
    destruct (get k kw) as [g|] eqn:K.
    + exists g. split; [|reflexivity]. cbn. now destruct g.
    + exists v. rewrite G. split; [reflexivity|exact V].
Qed.

Lemma lunar_type_known old kw c : lunar_maker core old kw = Ok c ->
  exists mt, get "morphology_type" c = Some (VStr mt) /\ (bowl mt \/ floored mt).
Proof.
  intros L. destruct (lunar_inv _ _ _ L) as (c0 & mt & d & args & M & D & T & S & I).
  exists mt. split.
  - apply (num_stays _ _ _ _ _ (base_field "morphology_type" ltac:(cbn; tauto)) I T). discriminate.
  - destruct (standard_get _ _ _ "ejrim" ltac:(cbn; tauto) S) as (v & _ & V). now inversion V.
Qed.

Lemma rest_get k kw : is_explicit k = false -> get k (filter (fun p => negb (is_explicit (fst p))) kw) = get k kw.
Proof. intros E. apply (get_filter k (fun n => negb (is_explicit n))). now rewrite E. Qed.

Lemma get_in k d v : get k d = Some v -> In (k, v) d.
Proof.
  induction d as [|[q w] d IH]; [discriminate|]. cbn. destruct (String.eqb_spec k q) as [->|N].
  - intros [= ->]. now left.
  - intros G. right. now apply IH.
Qed.

Lemma type_keyword old kw v args :
  core old (filter (fun p => is_explicit (fst p)) kw) = Ok (args, false) ->
  has "scaling" kw = false -> get "morphology_type" kw = Some v -> lunar_maker core old kw = Err TypeError.
Proof.
  intros Co Sc G. unfold lunar_maker, morphology_maker, crater_maker. rewrite Sc, Co. cbn [rbind].
  destruct (plain _ _ _ _ Co) as [P _].
  replace (existsb _ _) with true; [reflexivity|]. symmetry. apply existsb_exists.
  exists ("morphology_type"%string, v). split; [|exact P].
  apply get_in. now rewrite rest_get.
Qed.

Lemma scaling_keyword old kw : has "scaling" kw = true -> lunar_maker core old kw = Err TypeError.
Proof. intros H. unfold lunar_maker, morphology_maker. now rewrite H. Qed.

Lemma standard_no_measured mt d args : standard mt d = Ok args -> get "measured_diameter" args = None.
Proof.
  unfold standard. destruct (existsb (String.eqb mt) ["simple"; "transitional"]%string); [now intros [= <-]|].
  destruct (existsb _ _); [now intros [= <-]|discriminate].
Qed.

Lemma measured_none old kw c : get "measured_diameter" kw = Some VNone -> lunar_maker core old kw <> Ok c.
Proof.
  intros G L. destruct (lunar_inv _ _ _ L) as (c0 & mt & d & args & _ & _ & _ & _ & I).
  unfold init, scrub, merge in I. rewrite get_app, G in I. discriminate.
Qed.

Definition clean (args kw : dict) : Prop := forall p, In p kw -> is_explicit (fst p) = false -> has (fst p) args = false.

Lemma lunar_makes old kw args a b mt :
  core old (filter (fun p => is_explicit (fst p)) kw) = Ok (args, false) ->
  get "semimajor_axis" args = Some (VNum a) -> get "semiminor_axis" args = Some (VNum b) ->
  get "morphology_type" args = Some (VStr mt) -> bowl mt \/ floored mt ->
  has "scaling" kw = false -> clean args kw ->
  (get "measured_diameter" kw = None \/ exists m, get "measured_diameter" kw = Some (VNum m)) ->
  exists c, lunar_maker core old kw = Ok c /\ get "morphology_type" c = Some (VStr mt) /\
    diameter_of c = Some (sqrt (a * b) * 2).
Proof.
  intros Co A B T K Sc Cl Me.
  assert (M : exists c0, morphology_maker core old kw = Ok c0 /\ get "morphology_type" c0 = Some (VStr mt) /\
            get "semimajor_axis" c0 = Some (VNum a) /\ get "semiminor_axis" c0 = Some (VNum b)).
  { unfold morphology_maker, crater_maker. rewrite Sc, Co. cbn [rbind].
    set (rest := filter _ kw).
    destruct (existsb (fun p => has (fst p) args) rest) eqn:X.
    - apply existsb_exists in X. destruct X as (p & I & H). apply filter_In in I. destruct I as [I N].
      apply negb_true_iff in N. rewrite (Cl p I N) in H. discriminate.
    - destruct (init None (args ++ rest)) as [c1|] eqn:I1; [|discriminate]. cbn [rbind].
      destruct (init (Some c1) []) as [c0|] eqn:I0; [|discriminate].
      exists c0. split; [reflexivity|].
      assert (Q : forall k v, In k base_init_names -> get k args = Some v -> v <> VNone -> get k c0 = Some v).
      { intros k v Ik G N. apply (num_stays k c1 v [] c0 (base_field k Ik) I0); [|exact N].
        rewrite (init_none k _ _ (base_field k Ik) I1), get_app, G. reflexivity. }
      split; [|split]; apply Q; auto; try discriminate; cbn; tauto. }
  destruct M as (c0 & M & T0 & A0 & B0).
  assert (S : exists sargs, standard mt (sqrt (a * b) * 2) = Ok sargs).
  { unfold standard. destruct K as [[->| ->]|[->|[->| ->]]]; eexists; reflexivity. }
  destruct S as (sargs & S).
  assert (Scr : exists kw', scrub (merge sargs kw) = Ok kw').
  { unfold scrub, merge. rewrite get_app. rewrite (standard_no_measured _ _ _ S).
    destruct Me as [-> | (m & ->)]; [|eexists; reflexivity].
    destruct (get "measured_radius" (kw ++ sargs)); eexists; reflexivity. }
  destruct Scr as (kw' & Scr).
  assert (L : lunar_maker core old kw = Ok (complete (take fields c0 kw'))).
  { unfold lunar_maker. rewrite M. cbn [rbind]. unfold diameter_of. rewrite A0, B0, T0, S. cbn [rbind].
    unfold init. rewrite Scr. reflexivity. }
  exists (complete (take fields c0 kw')). split; [exact L|].
  destruct (lunar_inv _ _ _ L) as (c0' & mt' & d' & args' & M' & D' & T' & S' & I').
  rewrite M in M'. injection M' as <-.
  split.
  - apply (num_stays _ _ _ _ _ (base_field "morphology_type" ltac:(cbn; tauto)) I' T0). discriminate.
  - unfold diameter_of.
    rewrite (num_stays "semimajor_axis" _ _ _ _ (base_field "semimajor_axis" ltac:(cbn; tauto)) I' A0 ltac:(discriminate)).
    now rewrite (num_stays "semiminor_axis" _ _ _ _ (base_field "semiminor_axis" ltac:(cbn; tauto)) I' B0 ltac:(discriminate)).
Qed.

Lemma standard_unique mt d k v w : standard_value mt d k v -> standard_value mt d k w -> v = w.
Proof.
  intros V W. inversion V; subst; inversion W; subst; try reflexivity; exfalso;
    repeat match goal with H : bowl _ |- _ => unfold bowl in H | H : floored _ |- _ => unfold floored in H end;
    intuition congruence.
Qed.

Lemma copy_standard c0 c mt d : lunar_maker core (Some c0) [] = Ok c ->
  get "morphology_type" c = Some (VStr mt) -> diameter_of c = Some d ->
  (forall k v, of_shape k -> get k c0 = Some v -> standard_value mt d k v) ->
  forall k v, of_shape k -> get k c0 = Some v -> get k c = Some v.
Proof.
  intros L T D St k v H G. destruct (lunar_shape _ _ _ L) as (mt' & d' & T' & D' & Sh).
  rewrite T in T'. injection T' as <-. rewrite D in D'. injection D' as <-.
  destruct (Sh k H) as (w & W & Sw). cbn in Sw. rewrite W. f_equal.
  apply (standard_unique mt d k); [exact Sw|now apply St].
Qed.
End Made.

(** ** A concrete case *)
(** Copies the fixed attributes of the crater it is given, or makes a simple crater of the
    given radius. *)
Definition keep_core (old : option dict) (kw : dict) : result (dict * bool) :=
  match old with
  | Some c => Ok (filter (fun p => existsb (String.eqb (fst p)) base_init_names) c, false)
  | None =>
      match get "radius" kw with
      | Some (VNum r) => Ok ([("semimajor_axis", VNum r); ("semiminor_axis", VNum r);
                              ("morphology_type", VStr "simple")]%string, false)
      | _ => Err ValueError
      end
  end.
(** As [keep_core], with the type always there. *)
Definition case_core (old : option dict) (kw : dict) : result (dict * bool) :=
  match keep_core old kw with
  | Ok (args, p) => if has "morphology_type" args then Ok (args, p) else Err TypeError
  | Err e => Err e
  end.

Lemma case_plain : plain_core case_core.
Proof.
  intros old kw args p. unfold case_core. destruct (keep_core old kw) as [[a q]|] eqn:K; [|discriminate].
  destruct (has "morphology_type" a) eqn:H; [|discriminate]. intros [= <- <-]. split; [exact H|].
  intros k S. unfold keep_core in K. destruct old as [c|].
  - injection K as <- <-. unfold has.
    destruct (get k _) eqn:G; [|reflexivity]. apply get_in in G. apply filter_In in G. destruct G as [_ G].
    cbn [fst] in G. cbn in S. destruct S as [<-|[<-|[<-|[<-|[<-|[<-|[]]]]]]]; discriminate.
  - destruct (get "radius" kw) as [[| r | |]|]; try discriminate. injection K as <- <-.
    cbn in S. destruct S as [<-|[<-|[<-|[<-|[<-|[<-|[]]]]]]]; reflexivity.
Qed.

Definition case_kw : dict := [("radius", VNum 1000); ("rim_height", VNum 5)]%string.

Lemma case_made kw : kw = case_kw \/ kw = [("radius", VNum 1000); ("rim_height", VNum (-5)); ("floor_depth", VNum 5)]%string ->
  exists c, lunar_maker case_core None kw = Ok c /\ get "morphology_type" c = Some (VStr "simple") /\
    diameter_of c = Some (sqrt (1000 * 1000) * 2).
Proof.
  intros H. apply (lunar_makes case_core None kw
    [("semimajor_axis", VNum 1000); ("semiminor_axis", VNum 1000); ("morphology_type", VStr "simple")]%string 1000 1000 "simple").
  - now destruct H as [->| ->].
  - reflexivity.
  - reflexivity.
  - reflexivity.
  - left. now left.
  - now destruct H as [->| ->].
  - intros p I E. destruct H as [->| ->]; cbn in I; destruct I as [<-|[<-|I]]; cbn in E; try discriminate; try reflexivity;
      try destruct I as [<-|[]]; try reflexivity; destruct I.
  - left. now destruct H as [->| ->].
Qed.

Lemma base_value_kept c c' k v : crater_maker case_core (Some c) [] = Ok c' -> In k base_init_names ->
  get k c = Some v -> get k c' = Some v.
Proof.
  unfold crater_maker, case_core, keep_core. cbn [filter].
  set (a := filter _ c). destruct (has "morphology_type" a); [|discriminate]. cbn [rbind existsb].
  intros I K G. rewrite (init_none k _ _ (base_field k K) I), app_nil_r.
  unfold a. rewrite (get_filter k (fun n => existsb (String.eqb n) base_init_names)).
  - now rewrite G.
  - apply existsb_exists. exists k. split; [exact K|apply String.eqb_refl].
Qed.

Lemma rim_two_km d : d = sqrt (1000 * 1000) * 2 -> law (43 / 1000) (1014 / 1000) d <> 5.
Proof.
  intros ->. rewrite sqrt_square by lra. unfold law. replace (1000 * 2 / 1000) with 2 by lra.
  assert (1 < Rpower 2 (1014 / 1000)).
  { rewrite <- (Rpower_O 2) at 1 by lra. apply Rpower_lt; lra. }
  lra.
Qed.

Lemma copy_loses : exists c c', lunar_maker case_core None case_kw = Ok c /\
  lunar_maker case_core (Some c) [] = Ok c' /\
  get "rim_height" c = Some (VNum 5) /\ get "rim_height" c' <> Some (VNum 5) /\
  get "morphology_type" c' = get "morphology_type" c /\ diameter_of c' = diameter_of c.
Proof.
  destruct (case_made case_kw (or_introl eq_refl)) as (c & L & T & D).
  assert (AB : exists a b, get "semimajor_axis" c = Some (VNum a) /\ get "semiminor_axis" c = Some (VNum b) /\ sqrt (a * b) * 2 = sqrt (1000 * 1000) * 2).
  { unfold diameter_of in D. destruct (get "semimajor_axis" c) as [[| a | |]|]; try discriminate.
    destruct (get "semiminor_axis" c) as [[| b | |]|]; try discriminate. exists a, b. repeat split. now injection D. }
  destruct AB as (a & b & A & B & E).
  set (args := filter (fun p => existsb (String.eqb (fst p)) base_init_names) c).
  assert (G : forall k v, In k base_init_names -> get k c = Some v -> get k args = Some v).
  { intros k v K G. unfold args. rewrite (get_filter k (fun n => existsb (String.eqb n) base_init_names)); [exact G|].
    apply existsb_exists. exists k. split; [exact K|apply String.eqb_refl]. }
  assert (Co : case_core (Some c) [] = Ok (args, false)).
  { unfold case_core, keep_core. fold args. unfold has. rewrite (G "morphology_type"%string _ ltac:(cbn; tauto) T). reflexivity. }
  destruct (lunar_makes case_core (Some c) [] args a b "simple") as (c' & L' & T' & D').
  - exact Co.
  - apply G; [cbn; tauto|exact A].
  - apply G; [cbn; tauto|exact B].
  - apply G; [cbn; tauto|exact T].
  - left. now left.
  - reflexivity.
  - intros p [].
  - now left.
  - exists c, c'. split; [exact L|]. split; [exact L'|].
    destruct (lunar_shape case_core case_plain _ _ _ L) as (mt & d & _ & _ & Sh).
    destruct (Sh "rim_height"%string ltac:(cbn; tauto)) as (v & V & W). cbn in W. subst v.
    split; [exact V|].
    destruct (lunar_shape case_core case_plain _ _ _ L') as (mt' & d' & T2 & D2 & Sh').
    destruct (Sh' "rim_height"%string ltac:(cbn; tauto)) as (v & V' & W'). cbn in W'.
    rewrite T' in T2. injection T2 as <-. rewrite D' in D2. injection D2 as <-.
    split; [|split; [now rewrite T, T'|rewrite D, D'; now rewrite E]].
    rewrite V'. intros [= ->]. inversion W'.
    + apply (rim_two_km (sqrt (a * b) * 2)); [exact E|]. congruence.
    + match goal with F : floored _ |- _ => destruct F as [F|[F|F]]; discriminate F end.
Qed.

Lemma none_given core (plain : plain_core core) old kw c k : of_shape k -> get k kw = Some VNone ->
  lunar_maker core old kw = Ok c -> get k c = Some VNone.
Proof.
  intros H G L. destruct (lunar_shape core plain _ _ _ L) as (mt & d & _ & _ & Sh).
  destruct (Sh k H) as (v & V & W). rewrite G in W. now subst v.
Qed.

Lemma copy_ignores core (plain : plain_core core) c0 c : lunar_maker core (Some c0) [] = Ok c ->
  exists mt d, get "morphology_type" c = Some (VStr mt) /\ diameter_of c = Some d /\
    forall k, of_shape k -> exists v, get k c = Some v /\ standard_value mt d k v.
Proof. intros L. exact (lunar_shape core plain _ _ _ L). Qed.

Lemma unchecked : exists c, lunar_maker case_core None
    [("radius", VNum 1000); ("rim_height", VNum (-5)); ("floor_depth", VNum 5)]%string = Ok c /\
  get "rim_height" c = Some (VNum (-5)) /\ get "floor_depth" c = Some (VNum 5).
Proof.
  destruct (case_made _ (or_intror eq_refl)) as (c & L & _ & _). exists c. split; [exact L|].
  destruct (lunar_shape case_core case_plain _ _ _ L) as (mt & d & _ & _ & Sh).
  destruct (Sh "rim_height"%string ltac:(cbn; tauto)) as (v & V & W). cbn in W. subst v.
  destruct (Sh "floor_depth"%string ltac:(cbn; tauto)) as (v & V' & W'). cbn in W'. subst v. now split.
Qed.

Lemma shape_case : exists c, lunar_maker case_core None case_kw = Ok c /\
  get "rim_height" c = Some (VNum 5) /\ get "peak_height" c = Some VNone /\
  get "floor_diameter" c = Some (VNum (law (200 / 1000) (1143 / 1000) 2000)).
Proof.
  destruct (case_made case_kw (or_introl eq_refl)) as (c & L & T & D). exists c. split; [exact L|].
  destruct (lunar_shape case_core case_plain _ _ _ L) as (mt & d & T' & D' & Sh).
  rewrite T in T'. injection T' as <-. rewrite D in D'. injection D' as <-.
  rewrite sqrt_square in Sh by lra. replace (1000 * 2) with 2000 in Sh by lra.
  destruct (Sh "rim_height"%string ltac:(cbn; tauto)) as (v & V & W). cbn in W. subst v.
  destruct (Sh "peak_height"%string ltac:(cbn; tauto)) as (w & V1 & W1). cbn in W1.
  destruct (Sh "floor_diameter"%string ltac:(cbn; tauto)) as (x & V2 & W2). cbn in W2.
  split; [exact V|split].
  - rewrite V1. f_equal. apply (standard_unique "simple" 2000 "peak_height"); [exact W1|]. constructor. now left.
  - rewrite V2. f_equal. apply (standard_unique "simple" 2000 "floor_diameter"); [exact W2|]. constructor. now left.
Qed.

Lemma scrub_sizes kw kw' : scrub kw = Ok kw' ->
  (forall d, get "measured_diameter" kw = Some (VNum d) ->
     get "measured_semimajor_axis" kw' = Some (VNum (d / 2)) /\ get "measured_semiminor_axis" kw' = Some (VNum (d / 2)) /\ get "measured_diameter" kw' = None) /\
  (forall r, get "measured_diameter" kw = None -> get "measured_radius" kw = Some r ->
     get "measured_semimajor_axis" kw' = Some r /\ get "measured_semiminor_axis" kw' = Some r /\ get "measured_radius" kw' = None) /\
  (get "measured_diameter" kw = None -> get "measured_radius" kw = None -> kw' = kw).
Proof.
  intros H. unfold scrub in H. split; [|split].
  - intros d E. rewrite E in H. injection H as <-.
    rewrite get_set_other by discriminate. rewrite get_set_same. rewrite get_set_same.
    split; [reflexivity|]. split; [reflexivity|]. rewrite !get_set_other by discriminate. apply get_del_same.
  - intros r E1 E2. rewrite E1, E2 in H. injection H as <-.
    rewrite get_set_other by discriminate. rewrite get_set_same. rewrite get_set_same.
    split; [reflexivity|]. split; [reflexivity|]. rewrite !get_set_other by discriminate. apply get_del_same.
  - intros E1 E2. rewrite E1, E2 in H. now injection H as <-.
Qed.
