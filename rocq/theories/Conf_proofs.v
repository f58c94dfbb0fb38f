(** Proofs for C05, C19 and C59. *)
From Coq Require Import QArith Qreals Reals Lra.
From Verif Require Import Common Conf_model Conf_spec Conf_base.
Open Scope string_scope.

(* ---------- which parameters are recorded ---------- *)
Lemma mark_In x n t : In x (t_user (mark n t)) <-> In x (t_user t) \/ x = n.
Proof.
  unfold mark. cbn [t_user]. destruct (existsb (String.eqb n) (t_user t)) eqn:E.
  - apply existsb_In in E. intuition congruence.
  - rewrite in_app_iff. simpl. intuition.
Qed.
Lemma assign_user k v t x : In x (t_user (fst (target_assign k v t))) <-> In x (t_user t) \/ (x = k /\ In k params).
Proof.
  unfold target_assign, params.
  destruct (String.eqb_spec k "radius") as [->|N1]; [|
  destruct (String.eqb_spec k "mass") as [->|N2]; [|
  destruct (String.eqb_spec k "name") as [->|N3]; [|
  destruct (String.eqb_spec k "material") as [->|N4]; [|
  destruct (String.eqb_spec k "density") as [->|N5]; [|
  destruct (String.eqb_spec k "transition_scale_type") as [->|N6]]]]]].
  - assert (X := mark_In x "radius" t). destruct v as [[q|s]|]; try destruct (qpos q); unfold set_radius; cbn [fst t_user In]; rewrite X; intuition.
  - destruct v as [[q|s]|]; try destruct (qpos q); cbn [fst t_user set_mass In]; intuition discriminate.
  - destruct v as [[q|s]|]; cbn [fst t_user set_name In]; intuition discriminate.
  - assert (X := mark_In x "material" t). destruct v as [[q|s]|]; unfold set_material; cbn [fst t_user In]; rewrite X; intuition.
  - assert (X := mark_In x "density" t). destruct v as [[q|s]|]; try destruct (qpos q); unfold set_density; cbn [fst t_user In]; rewrite X; intuition.
  - destruct v as [[q|s]|]; try destruct (String.eqb s "silicate" || String.eqb s "ice"); cbn [fst t_user set_scale In]; intuition discriminate.
  - cbn [fst In]. intuition congruence.
Qed.

Lemma from_args_user kw : forall o o' r, from_args val target target_settable target_setter kw o = (o', Ok r) ->
  forall x, In x (t_user o') <-> In x (t_user o) \/ (In x params /\ exists v, In (x, Some v) kw).
Proof.
  assert (PS : forall x, In x params -> target_settable x = true).
  { intros x. unfold params. cbn. intros [<-|[<-|[<-|[]]]]; reflexivity. }
  induction kw as [|[k [v|]] r IH]; intros o o' rr; cbn [from_args].
  - intros X x. injection X as <- _. simpl. firstorder.
  - destruct (target_settable k) eqn:S.
    + unfold target_setter. assert (U := assign_user k (Some v) o).
      destruct (target_assign k (Some v) o) as [o1 [e|]]; [discriminate|]. cbn [fst] in U.
      destruct (from_args _ _ _ _ r o1) as [o2 [[m u]|e]] eqn:F; [|discriminate]. intros X x. injection X as <- _.
      rewrite (IH _ _ _ F x), U. simpl. split.
      * intros [[A|[-> A]]|[A [w B]]]; eauto 8.
      * intros [A|[A [w [B|B]]]]; eauto. injection B as -> ->. auto.
    + destruct (from_args _ _ _ _ r o) as [o2 [[m u]|e]] eqn:F; [|discriminate]. intros X x. injection X as <- _.
      rewrite (IH _ _ _ F x). simpl. split.
      * intros [A|[A [w B]]]; eauto 8.
      * intros [A|[A [w [B|B]]]]; eauto. injection B as -> ->. apply PS in A. congruence.
  - intros F x. rewrite (IH _ _ _ F x). simpl. split.
    + intros [A|[A [w B]]]; eauto 8.
    + intros [A|[A [w [B|B]]]]; eauto. discriminate.
Qed.

Lemma tset_user n a t c r : tset "name" target_catalogue None (tkw n a) target0 = ((t, c), Ok r) ->
  forall x, In x (t_user t) <-> In x params /\
    ((exists v, In (x, Some v) (tkw n a)) \/ (exists e v, pget n target_catalogue = Some e /\ In (x, v) e)).
Proof.
  intros E.
  assert (C1 : exists o2 c2 r2, from_catalogue val target target_settable target_setter val_key VStr "name" target_catalogue None (tkw n a) target0 = ((o2, c2), Ok r2)
     /\ exists r3, from_args val target target_settable target_setter (tkw n a) o2 = (t, Ok r3)).
  { unfold set_properties in E.
    change (match target_catalogue with [] => (target0, target_catalogue, Ok ([], [])) | _ :: _ => from_catalogue val target target_settable target_setter val_key VStr "name" target_catalogue None (tkw n a) target0 end)
      with (from_catalogue val target target_settable target_setter val_key VStr "name" target_catalogue None (tkw n a) target0) in E.
    destruct (from_catalogue _ _ _ _ _ _ _ _ _ _ _) as [[o2 c2] [[m2 u2]|e2]]; [|discriminate].
    exists o2, c2, (m2, u2). split; [reflexivity|].
    destruct (from_args _ _ _ _ (tkw n a) o2) as [o3 [[m3 u3]|e3]]; [|discriminate]. injection E as <- _ _. eauto. }
  destruct C1 as (o2 & c2 & r2 & C1 & r3 & C2). intros x. rewrite (from_args_user _ _ _ _ C2 x). clear C2 E.
  assert (C3 : In x (t_user o2) <-> In x params /\ exists e, pget n target_catalogue = Some e /\
     ((exists v, In (x, v) e) \/ (exists v, In (x, Some v) (tkw n a) /\ pget x e = None))).
  { unfold from_catalogue in C1. change (pget "name" (tkw n a)) with (Some (Some (VStr n))) in C1. cbv iota beta in C1. cbn [val_key] in C1.
    destruct (pget n target_catalogue) as [e|] eqn:EN.
    - destruct (from_args _ _ _ _ _ target0) as [o3 [r4|e4]] eqn:F; [|discriminate]. injection C1 as <- _ _.
      rewrite (from_args_user _ _ _ _ F x). cbn [t_user target0 In]. split.
      + intros [[]|[P [v I]]]. split; [exact P|]. exists e. split; [reflexivity|].
        apply in_app_iff in I. destruct I as [I|I].
        * apply in_map_iff in I. destruct I as ([y w] & Y & I). injection Y as -> ->. 
          destruct (catalogue_entry n e EN) as (er & em & mat & es & -> & _). cbn [pset String.eqb Ascii.eqb Bool.eqb In] in I.
          left. exists v. destruct I as [I|[I|[I|[I|[I|[]]]]]]; simpl; auto.
          injection I as <- _. unfold params in P. cbn in P. intuition discriminate.
        * apply filter_In in I. destruct I as [I J]. unfold pdel in I. apply filter_In in I. destruct I as [I _].
          right. exists v. split; [exact I|]. cbn [fst] in J. unfold pmem in J. rewrite pget_pset in J.
          destruct (String.eqb x "name"); [discriminate|]. destruct (pget x e); [discriminate|reflexivity].
      + intros [P (e' & E' & I)]. injection E' as <-. right. split; [exact P|].
        destruct I as [[v I]|[v [I J]]].
        * exists v. apply in_app_iff. left. apply in_map_iff. exists (x, v). split; [reflexivity|].
          destruct (catalogue_entry n e EN) as (er & em & mat & es & -> & _). cbn [pset String.eqb Ascii.eqb Bool.eqb In]. cbn [In] in I. tauto.
        * exists v. apply in_app_iff. right. apply filter_In. split.
          -- unfold pdel. apply filter_In. split; [exact I|]. cbn [fst]. destruct (String.eqb_spec "name" x) as [<-|]; [|reflexivity].
             unfold params in P. cbn in P. intuition discriminate.
          -- cbn [fst]. unfold pmem. rewrite pget_pset. destruct (String.eqb_spec x "name") as [->|]; [unfold params in P; cbn in P; intuition discriminate|].
             rewrite J. reflexivity.
    - injection C1 as <- _ _. cbn [t_user target0 In]. split; [intros []|]. intros [_ (e & X & _)]. discriminate. }
  rewrite C3. split.
  - intros [[P (e & EE & [[v I]|[v [I _]]])]|[P [v I]]]; eauto 10.
  - intros [P [[v I]|(e & v & EE & I)]]; eauto 10.
Qed.

Lemma made_user n a t : snd (tmk n a) = Ok t ->
  forall x, In x (t_user t) <-> x = "radius" \/ (x = "material" /\ t_material t <> None) \/ (x = "density" /\ a_density a <> None).
Proof.
  intros H. destruct (construction n a) as (K & _ & _). destruct (K t H) as (V & M & _).
  unfold tmk, target_maker in H. rewrite init_eq in H.
  assert (H' : snd (run_init target_catalogue n a) = Ok t).
  { destruct V as ([V|V] & _); rewrite V in H.
    - destruct (run_init target_catalogue n a) as [c [t'|[]]]; exact H || discriminate.
    - destruct (a_radius a); destruct (run_init target_catalogue n a) as [c [t'|[]]]; exact H || discriminate. }
  unfold run_init in H'. destruct (tset_valid n a V) as (t0 & mu & E & A1 & A2 & A3 & A4 & A5 & A6). rewrite E in H'. cbn [snd] in H'.
  destruct (finish_made n a t0 t A1 A2 A3 A4 A5 A6 H') as [_ U]. rewrite U. intros x.
  rewrite (tset_user _ _ _ _ _ E x). destruct M as (M1 & M2 & M3 & M4 & M5 & M6 & M7 & M8 & M9).
  unfold params, tkw. cbn [In]. split.
  - intros [[<-|[<-|[<-|[]]]] I].
    + auto.
    + right. left. split; [reflexivity|]. rewrite M8. destruct I as [[v I]|(e & v & EE & I)].
      * destruct I as [I|[I|[I|[I|[I|[I|[]]]]]]]; try discriminate I. destruct (a_material a); [discriminate|discriminate I].
      * unfold entry_str. rewrite EE. destruct (catalogue_entry n e EE) as (er & em & mat & es & -> & _). cbn. destruct (a_material a); discriminate.
    + right. right. split; [reflexivity|]. destruct I as [[v I]|(e & v & EE & I)].
      * destruct I as [I|[I|[I|[I|[I|[I|[]]]]]]]; try discriminate I. destruct (a_density a); [discriminate|discriminate I].
      * destruct (catalogue_entry n e EE) as (er & em & mat & es & -> & _). cbn in I. intuition discriminate.
  - intros [->|[[-> N]|[-> N]]].
    + split; [auto|]. rewrite M2 in M3. destruct (size_arg a); [left; eexists; right; left; reflexivity|].
      right. unfold entry_num in M3. destruct (pget n target_catalogue) as [e|] eqn:EE; [|exfalso; apply M3; reflexivity].
      destruct (catalogue_entry n e EE) as (er & em & mat & es & -> & _). exists (("radius", VNum er) :: [("mass", VNum em); ("material", VStr mat); ("transition_scale_type", VStr es)]), (VNum er). split; [reflexivity|simpl; auto].
    + split; [auto|]. rewrite M8 in N. destruct (a_material a); [left; eexists; do 3 right; left; reflexivity|].
      right. unfold entry_str in N. destruct (pget n target_catalogue) as [e|] eqn:EE; [|exfalso; apply N; reflexivity].
      destruct (catalogue_entry n e EE) as (er & em & mat & es & -> & _). eexists _, (VStr mat). split; [reflexivity|simpl; auto].
    + split; [auto|]. destruct (a_density a); [left; eexists; do 4 right; left; reflexivity|congruence].
Qed.

(* ---------- C05 ---------- *)
Lemma pget_config t k : pget k (target_config t) = if existsb (String.eqb k) (t_user t) then target_attr t k else None.
Proof.
  unfold target_config. induction (t_user t) as [|x l IH]; [reflexivity|]. simpl flat_map. rewrite pget_app, IH. cbn [existsb].
  destruct (String.eqb_spec k x) as [<-|N].
  - simpl orb. destruct (target_attr t k) as [v|]; cbn [pget orelse].
    + rewrite String.eqb_refl. reflexivity.
    + destruct (existsb _ _); reflexivity.
  - simpl orb. destruct (target_attr t x) as [v|]; [|reflexivity]. cbn [pget].
    destruct (String.eqb_spec k x); [contradiction|]. reflexivity.
Qed.
Lemma target_attr_param t k : target_attr t k = if existsb (String.eqb k) params then attribute t k else None.
Proof.
  unfold target_attr, params, attribute. cbn [existsb].
  destruct (String.eqb_spec k "radius"); [reflexivity|].
  destruct (String.eqb_spec k "material") as [->|]; [reflexivity|].
  destruct (String.eqb_spec k "density") as [->|]; reflexivity.
Qed.
Lemma assign_all_user l : forall t x, In x (t_user (assign_all l t)) <-> In x (t_user t) \/ (In x params /\ exists v, In (x, v) l).
Proof.
  unfold assign_all. induction l as [|[k v] r IH]; intros t x; cbn [fold_left fst snd].
  - simpl. firstorder.
  - rewrite IH, assign_user. simpl. split.
    + intros [[A|[-> A]]|[A [w B]]]; eauto 8.
    + intros [A|[A [w [B|B]]]]; eauto. injection B as -> ->. auto.
Qed.
Lemma saved_parameters l t k :
  (In k params -> (In k (t_user t) \/ exists v, In (k, v) l) ->
     pget k (target_config (assign_all l t)) = attribute (assign_all l t) k) /\
  ((~ In k params \/ (~ In k (t_user t) /\ forall v, ~ In (k, v) l)) -> pget k (target_config (assign_all l t)) = None).
Proof.
  rewrite pget_config, target_attr_param. split.
  - intros P H. assert (I : In k (t_user (assign_all l t))) by (apply assign_all_user; tauto).
    apply existsb_In in I. rewrite I. apply existsb_In in P. rewrite P. reflexivity.
  - intros H. destruct (existsb (String.eqb k) (t_user (assign_all l t))) eqn:E; [|reflexivity].
    destruct (existsb (String.eqb k) params) eqn:P; [|reflexivity].
    apply existsb_In in E. apply existsb_In in P. apply assign_all_user in E.
    destruct H as [H|[H1 H2]]; [contradiction|]. destruct E as [E|[_ [v E]]]; [contradiction|]. exfalso. apply (H2 v E).
Qed.

Lemma num_vnum (x : option Q) : match vnum x with Some (VNum q) => Some q | _ => None end = x.
Proof. destruct x; reflexivity. Qed.
Lemma str_vstr (x : option string) : match vstr x with Some (VStr q) => Some q | _ => None end = x.
Proof. destruct x; reflexivity. Qed.

(** The arguments read back from the configuration of a constructed target. *)
Lemma config_args_made n a t : snd (tmk n a) = Ok t ->
  config_args (target_config t) =
  {| a_radius := t_radius t; a_diameter := None; a_mass := None; a_scale := None;
     a_material := t_material t; a_density := a_density a |}.
Proof.
  intros H. assert (U := made_user n a t H). destruct (construction n a) as (K & _ & _). destruct (K t H) as (V & M & _).
  destruct M as (M1 & M2 & M3 & M4 & M5 & M6 & M7 & M8 & M9).
  assert (NP : forall k, ~ In k params -> pget k (target_config t) = None).
  { intros k N. apply (saved_parameters [] t k). auto. }
  unfold config_args. rewrite (NP "diameter"), (NP "mass"), (NP "transition_scale_type") by (unfold params; cbn; intuition discriminate).
  f_equal.
  - rewrite pget_config. assert (I : In "radius" (t_user t)) by (apply U; auto). apply existsb_In in I. rewrite I. apply num_vnum.
  - rewrite pget_config. destruct (existsb (String.eqb "material") (t_user t)) eqn:E; [apply str_vstr|].
    destruct (t_material t) eqn:TM; [|reflexivity]. exfalso.
    assert (I : In "material" (t_user t)) by (apply U; right; left; split; [reflexivity|congruence]).
    apply existsb_In in I. congruence.
  - rewrite pget_config. destruct (existsb (String.eqb "density") (t_user t)) eqn:E.
    + apply existsb_In in E. apply U in E. destruct E as [E|[[E _]|[_ E]]]; try discriminate.
      change (target_attr t "density") with (vnum (t_density t)). rewrite num_vnum, M9. destruct (a_density a); [reflexivity|congruence].
    + destruct (a_density a) eqn:AD; [|reflexivity]. exfalso.
      assert (I : In "density" (t_user t)) by (apply U; right; right; split; [reflexivity|congruence]).
      apply existsb_In in I. congruence.
Qed.

Lemma entry_pos n : (forall q, entry_num n "radius" = Some q -> 0 < q)%Q /\ (forall q, entry_num n "mass" = Some q -> 0 < q)%Q /\
  (forall s, entry_str n "transition_scale_type" = Some s -> s = "silicate" \/ s = "ice").
Proof.
  unfold entry_num, entry_str, num_in. destruct (pget n target_catalogue) as [e|] eqn:E.
  - destruct (catalogue_entry n e E) as (r & m & mat & s & -> & A & B & C & _). cbn.
    repeat split; intros q X; injection X as <-; assumption.
  - repeat split; discriminate.
Qed.
Lemma made_sound n a t : valid_args a -> made n a t -> sound t.
Proof.
  intros (V0 & V1 & V2 & V3 & V4) (M1 & M2 & M3 & M4 & M5 & M6 & M7 & M8 & M9).
  destruct (entry_pos n) as (P1 & P2 & P3). unfold sound. repeat split.
  - destruct (t_radius t) as [r|]; [|congruence]. exists r. split; [reflexivity|].
    destruct (size_arg a); simpl in M2; [injection M2 as ->; exact V1|apply P1; congruence].
  - destruct (t_mass t) as [r|]; [|congruence]. exists r. split; [reflexivity|].
    destruct (a_mass a); simpl in M4; [injection M4 as ->; exact V2|apply P2; congruence].
  - destruct (a_density a); cbn [orelse] in M9; [rewrite M9; exact V3|]. rewrite M9. destruct (t_material t) as [mm|]; [|exact I].
    assert (X : forallb (fun p => qpos (snd p)) density_catalogue = true) by reflexivity.
    rewrite forallb_forall in X. destruct (pget mm density_catalogue) as [d|] eqn:D; [|exact I].
    apply pget_In in D. apply X in D. apply qpos_lt in D. exact D.
  - destruct (t_scale t) as [s|]; [|congruence]. right.
    destruct (a_scale a) as [s'|]; simpl in M6.
    + injection M6 as ->. destruct V4 as [V4|[V4|V4]]; [discriminate|left|right]; exact V4.
    + destruct (P3 s (eq_sym M6)) as [->| ->]; auto.
Qed.

(** Resuming with the saved configuration, under a possibly different name. *)
Lemma resume_made n n' a t g : snd (tmk n a) = Ok t ->
  (match g with Some x => x | None => n end) = n' -> pget n' target_catalogue <> None ->
  exists t', snd (resume_target target_catalogue (n, target_config t) g) = Ok t' /\
    made n' {| a_radius := t_radius t; a_diameter := None; a_mass := None; a_scale := None;
               a_material := t_material t; a_density := a_density a |} t'.
Proof.
  intros H G N. assert (C := config_args_made n a t H).
  destruct (construction n a) as (K & _ & _). destruct (K t H) as (V & M & _). assert (S := made_sound n a t V M).
  unfold resume_target. cbn [fst snd]. rewrite G, C. fold (tmk n' {| a_radius := t_radius t; a_diameter := None; a_mass := None; a_scale := None;
               a_material := t_material t; a_density := a_density a |}).
  set (b := {| a_radius := t_radius t; a_diameter := None; a_mass := None; a_scale := None; a_material := t_material t; a_density := a_density a |}).
  destruct (construction n' b) as (K1 & K2 & _).
  destruct S as ((r & Er & Pr) & _). destruct V as (V0 & V1 & V2 & V3 & V4).
  destruct K2 as [t' T].
  - unfold valid_args, b, size_arg. cbn. rewrite Er. cbn. auto 8.
  - unfold b, size_arg. cbn. rewrite Er. discriminate.
  - unfold b, entry_num, num_in. cbn [a_mass orelse]. destruct (pget n' target_catalogue) as [e|] eqn:E; [|congruence].
    destruct (catalogue_entry n' e E) as (? & ? & ? & ? & -> & _). discriminate.
  - unfold b, entry_str. cbn [a_scale orelse]. destruct (pget n' target_catalogue) as [e|] eqn:E; [|congruence].
    destruct (catalogue_entry n' e E) as (? & ? & ? & ? & -> & _). discriminate.
  - exists t'. split; [exact T|]. apply (K1 t' T).
Qed.

Lemma made_known n a t : made n a t -> a_mass a = None -> pget n target_catalogue <> None.
Proof.
  intros (M1 & M2 & M3 & M4 & M5 & _) A E. rewrite M4, A in M5. apply M5. cbn [orelse]. unfold entry_num. rewrite E. reflexivity.
Qed.
Lemma rebuild n a t : snd (tmk n a) = Ok t -> a_mass a = None -> a_scale a = None ->
  exists t', snd (resume_target target_catalogue (n, target_config t) None) = Ok t' /\ forall k, attribute t' k = attribute t k.
Proof.
  intros H A B. destruct (construction n a) as (K & _ & _). destruct (K t H) as (V & M & _).
  destruct (resume_made n n a t None H eq_refl (made_known n a t M A)) as (t' & R & M').
  exists t'. split; [exact R|]. intros k.
  destruct M as (M1 & M2 & M3 & M4 & M5 & M6 & M7 & M8 & M9). destruct M' as (N1 & N2 & N3 & N4 & N5 & N6 & N7 & N8 & N9).
  cbn [a_radius a_diameter a_mass a_scale a_material a_density size_arg] in *.
  unfold size_arg in N2. cbn in N2.
  assert (ER : t_radius t' = t_radius t) by (rewrite N2; destruct (t_radius t); [reflexivity|congruence]).
  assert (EM : t_mass t' = t_mass t) by (rewrite N4, M4, A; reflexivity).
  assert (ES : t_scale t' = t_scale t) by (rewrite N6, M6, B; reflexivity).
  assert (ET : t_material t' = t_material t).
  { rewrite N8. destruct (t_material t) eqn:X; [reflexivity|]. cbn. destruct (a_material a); cbn in M8; [discriminate|]. symmetry. exact M8. }
  unfold attribute. rewrite N1, M1, ER, EM, ES, ET, N9, M9, ET. reflexivity.
Qed.

Lemma resume_mass n a t : snd (tmk n a) = Ok t ->
  pget "mass" (target_config t) = None /\
  (pget n target_catalogue = None -> snd (resume_target target_catalogue (n, target_config t) None) = Err ValueError) /\
  (pget n target_catalogue <> None -> exists t', snd (resume_target target_catalogue (n, target_config t) None) = Ok t' /\
     t_mass t' = entry_num n "mass").
Proof.
  intros H. split; [|split].
  - apply (saved_parameters [] t "mass"). left. unfold params. cbn. intuition discriminate.
  - intros N. unfold resume_target. cbn [fst snd]. rewrite (config_args_made n a t H).
    match goal with |- snd (target_maker _ (TName n) ?b) = _ => destruct (construction n b) as (K1 & _ & K3); unfold tmk in K1, K3;
      destruct (snd (target_maker target_catalogue (TName n) b)) as [t'|e] eqn:E end.
    + destruct (K1 t' eq_refl) as (_ & M & _). apply made_known in M; [contradiction|reflexivity].
    + f_equal. apply K3. reflexivity.
  - intros N. destruct (resume_made n n a t None H eq_refl N) as (t' & R & M). exists t'. split; [exact R|].
    destruct M as (_ & _ & _ & M & _). exact M.
Qed.

Lemma resume_other n n' : pget n target_catalogue <> None -> pget n' target_catalogue <> None ->
  exists t t', snd (tmk n no_args) = Ok t /\
    snd (resume_target target_catalogue (n, target_config t) (Some n')) = Ok t' /\
    t_name t' = Some n' /\ t_mass t' = entry_num n' "mass" /\ t_scale t' = entry_str n' "transition_scale_type" /\
    t_radius t' = entry_num n "radius" /\ t_material t' = entry_str n "material".
Proof.
  intros N N'.
  assert (T : exists t, snd (tmk n no_args) = Ok t).
  { destruct (construction n no_args) as (_ & K2 & _). destruct (pget n target_catalogue) as [e|] eqn:E; [|congruence].
    destruct (catalogue_entry n e E) as (? & ? & ? & ? & -> & _). apply K2.
    - unfold valid_args. cbn. auto 8.
    - unfold entry_num. rewrite E. discriminate.
    - unfold entry_num. rewrite E. discriminate.
    - unfold entry_str. rewrite E. discriminate. }
  destruct T as [t T]. exists t. destruct (resume_made n n' no_args t (Some n') T eq_refl N') as (t' & R & M). exists t'.
  destruct (construction n no_args) as (K & _ & _). destruct (K t T) as (V & M0 & _).
  destruct M0 as (M1 & M2 & M3 & M4 & M5 & M6 & M7 & M8 & M9). destruct M as (N1 & N2 & N3 & N4 & N5 & N6 & N7 & N8 & N9).
  unfold size_arg in N2. cbn in M2, M8, N2, N4, N6, N8.
  repeat split; auto.
  - rewrite N2, M2 in *. destruct (entry_num n "radius"); [reflexivity|congruence].
  - rewrite N8, M8. destruct (pget n target_catalogue) as [e|] eqn:E; [|congruence].
    destruct (catalogue_entry n e E) as (? & ? & ? & ? & -> & _). unfold entry_str. rewrite E. reflexivity.
Qed.

(* ---------- C19: histories ---------- *)
Lemma assign_all_app l1 l2 t : assign_all (l1 ++ l2)%list t = assign_all l2 (assign_all l1 t).
Proof. unfold assign_all. apply fold_left_app. Qed.
Lemma assign_none l : forall t k, (forall v, In (k, v) l -> ~ acceptable k v) -> attribute (assign_all l t) k = attribute t k.
Proof.
  unfold assign_all. induction l as [|[k' v] r IH]; intros t k H; [reflexivity|]. cbn [fold_left fst snd].
  rewrite IH by (intros w I; apply H; simpl; auto).
  destruct (assign_cases k' v t) as [(A & _ & B)|(_ & _ & B)]; rewrite B; [|reflexivity].
  destruct (String.eqb_spec k k') as [->|]; [|reflexivity]. exfalso. apply (H v); simpl; auto.
Qed.
Lemma last_assignment t k :
  (forall l1 v l2, acceptable k v -> (forall w, In (k, w) l2 -> ~ acceptable k w) ->
     attribute (assign_all (l1 ++ (k, v) :: l2)%list t) k = v) /\
  (forall l, (forall w, In (k, w) l -> ~ acceptable k w) -> attribute (assign_all l t) k = attribute t k).
Proof.
  split; [|intros l; apply assign_none].
  intros l1 v l2 A H. rewrite assign_all_app. change (assign_all ((k, v) :: l2) (assign_all l1 t)) with (assign_all l2 (fst (target_assign k v (assign_all l1 t)))).
  rewrite assign_none by exact H.
  destruct (assign_cases k v (assign_all l1 t)) as [(_ & _ & B)|(B & _)]; [|contradiction]. rewrite B, String.eqb_refl. reflexivity.
Qed.
Lemma raised k v t : snd (target_assign k v t) = None <-> acceptable k v.
Proof. destruct (assign_cases k v t) as [(A & B & _)|(A & B & _)]; tauto. Qed.

Lemma sound_attr t : sound t <-> (exists r, attribute t "radius" = Some (VNum r) /\ 0 < r)%Q /\
  (exists m, attribute t "mass" = Some (VNum m) /\ 0 < m)%Q /\
  (attribute t "density" = None \/ exists q, attribute t "density" = Some (VNum q) /\ 0 < q)%Q /\
  (attribute t "transition_scale_type" = None \/ attribute t "transition_scale_type" = Some (VStr "silicate") \/ attribute t "transition_scale_type" = Some (VStr "ice")).
Proof.
  unfold sound, attribute. cbn [String.eqb Ascii.eqb Bool.eqb].
  destruct (t_radius t) as [r|], (t_mass t) as [m|], (t_density t) as [d|], (t_scale t) as [s|]; cbn [vnum vstr pos_or_none];
  (split; intros ((r' & A & B) & (m' & C & D) & E & F); try discriminate;
   (split; [injection A as <-; eauto|]); (split; [injection C as <-; eauto|]);
   (split; [try (destruct E as [E|(q & E & E')]; [discriminate|injection E as <-; assumption]); eauto|]);
   first [left; reflexivity | right; destruct F as [F|[F|F]]; [discriminate|left|right]; congruence]).
Qed.
Lemma sound_assign k v t : sound t -> sound (fst (target_assign k v t)).
Proof.
  rewrite !sound_attr. destruct (assign_cases k v t) as [(A & _ & B)|(_ & _ & B)]; rewrite !B; [|tauto].
  intros (P1 & P2 & P3 & P4).
  destruct v as [[q|s]|]; cbn [acceptable] in A.
  - destruct A as [[<-|[<-|[<-|[]]]] Q]; cbn [String.eqb Ascii.eqb Bool.eqb]; eauto 10.
  - destruct A as [[<-|[<-|[]]]|[-> S]]; cbn [String.eqb Ascii.eqb Bool.eqb]; eauto 10.
    repeat split; auto. right. destruct S as [->| ->]; auto.
  - destruct A as [<-|[<-|[<-|[<-|[]]]]]; cbn [String.eqb Ascii.eqb Bool.eqb]; eauto 10.
Qed.
Lemma sound_all l : forall t, sound t -> sound (assign_all l t).
Proof. unfold assign_all. induction l as [|[k v] r IH]; intros t S; [exact S|]. apply IH, sound_assign, S. Qed.
