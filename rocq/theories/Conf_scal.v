(** Proofs for C20 and for derived quantities of C19. *)
From Coq Require Import QArith Qreals Reals Lra.
From Verif Require Import Common Conf_model Conf_spec Conf_base Conf_proofs.
Open Scope string_scope.


(* ---------- C20 ---------- *)
Definition tchar (prev : bool) (c : Ascii.ascii) : Ascii.ascii :=
  if prev then (if is_upper c then Ascii.ascii_of_nat (Ascii.nat_of_ascii c + 32) else c)
  else (if is_lower c then Ascii.ascii_of_nat (Ascii.nat_of_ascii c - 32) else c).
Lemma tchar_letter prev c : (is_lower (tchar prev c) || is_upper (tchar prev c)) = (is_lower c || is_upper c).
Proof. destruct prev, c as [[] [] [] [] [] [] [] []]; reflexivity. Qed.
Lemma tchar_idem prev c : tchar prev (tchar prev c) = tchar prev c.
Proof. destruct prev, c as [[] [] [] [] [] [] [] []]; reflexivity. Qed.
Lemma title_from_idem s : forall prev, title_from prev (title_from prev s) = title_from prev s.
Proof.
  induction s as [|c r IH]; intros prev; [reflexivity|].
  change (title_from prev (String c r)) with (String (tchar prev c) (title_from (is_lower c || is_upper c) r)).
  change (title_from prev (String (tchar prev c) (title_from (is_lower c || is_upper c) r)))
    with (String (tchar prev (tchar prev c)) (title_from (is_lower (tchar prev c) || is_upper (tchar prev c)) (title_from (is_lower c || is_upper c) r))).
  rewrite tchar_idem, tchar_letter, IH. reflexivity.
Qed.
Lemma title_idem s : title (title s) = title s. Proof. apply title_from_idem. Qed.

Definition good_mat (p : string * pairs val) : bool :=
  match snd p with
  | [(k1, VNum a); (k2, VNum b); (k3, VNum c); (k4, VNum d)] =>
      String.eqb k1 "K1" && String.eqb k2 "mu" && String.eqb k3 "Ybar" && String.eqb k4 "density"
      && negb (qneg a) && negb (qneg b) && negb (qneg c) &&
      match pget (fst p) density_catalogue with Some d' => (Z.eqb (Qnum d) (Qnum d') && Pos.eqb (Qden d) (Qden d'))%bool | None => false end
  | _ => false
  end.
Lemma mats_good : forallb good_mat material_catalogue = true.
Proof. vm_compute. reflexivity. Qed.
Lemma mat_entry m e : pget m material_catalogue = Some e -> exists a b c d,
  e = [("K1", VNum a); ("mu", VNum b); ("Ybar", VNum c); ("density", VNum d)] /\
  qneg a = false /\ qneg b = false /\ qneg c = false /\ known_density m = Some d.
Proof.
  intros H. apply pget_In in H. assert (X := mats_good). rewrite forallb_forall in X. specialize (X _ H).
  unfold good_mat in X. cbn [fst snd] in X.
  destruct e as [|[k1 [a|]] [|[k2 [b|]] [|[k3 [c|]] [|[k4 [d|]] [|]]]]]; try discriminate.
  rewrite !Bool.andb_true_iff, !Bool.negb_true_iff, !String.eqb_eq in X.
  destruct X as [[[[[[[-> ->] ->] ->] A] B] C] D]. exists a, b, c, d. repeat split; auto.
  unfold known_density. destruct (pget m density_catalogue) as [[x y]|]; [|discriminate]. destruct d as [x' y']. cbn in D.
  rewrite Bool.andb_true_iff, Z.eqb_eq, Pos.eqb_eq in D. destruct D as [-> ->]. reflexivity.
Qed.
Lemma mat_none m : pget m material_catalogue = None -> known_density m = None.
Proof.
  unfold known_density. cbn [pget material_catalogue density_catalogue].
  destruct (m =? "Water"); [discriminate|]. destruct (m =? "Sand"); [discriminate|]. destruct (m =? "Dry Soil"); [discriminate|].
  destruct (m =? "Wet Soil"); [discriminate|]. destruct (m =? "Soft Rock"); [discriminate|]. destruct (m =? "Hard Rock"); [discriminate|].
  destruct (m =? "Ice"); [discriminate|]. reflexivity.
Qed.

Lemma set_mat_target m s : t_density (s_target (set_scal_material m s)) = orelse (known_density (title m)) (t_density (s_target s)) /\
  s_material (set_scal_material m s) = Some (title m) /\
  (forall k, k <> "density" -> attribute (s_target (set_scal_material m s)) k = attribute (s_target s) k) /\
  match pget (title m) material_catalogue with
  | Some e => s_K1 (set_scal_material m s) = num_in e "K1" /\ s_mu (set_scal_material m s) = num_in e "mu" /\ s_Ybar (set_scal_material m s) = num_in e "Ybar"
  | None => s_K1 (set_scal_material m s) = s_K1 s /\ s_mu (set_scal_material m s) = s_mu s /\ s_Ybar (set_scal_material m s) = s_Ybar s
  end.
Proof.
  unfold set_scal_material. destruct (pget (title m) material_catalogue) as [e|] eqn:E.
  - destruct (mat_entry _ _ E) as (a & b & c & d & -> & _ & _ & _ & K). rewrite K. cbn. repeat split.
    intros k N. etransitivity; [apply upd_density|]. destruct (String.eqb_spec k "density"); [contradiction|reflexivity].
  - rewrite (mat_none _ E). cbn. repeat split.
Qed.

(** Assigning K1, mu and Ybar keeps the material and the target. *)
Lemma scal_args_rest l : (forall k v, In (k, v) l -> k <> "material") -> forall s s' r,
  from_args val scal scal_settable scal_setter l s = (s', Ok r) -> s_target s' = s_target s /\ s_material s' = s_material s.
Proof.
  induction l as [|[k [v|]] r IH]; intros H s s' rr; cbn [from_args].
  - intros X. injection X as <- _. auto.
  - assert (H' : forall k v, In (k, v) r -> k <> "material") by (intros; apply (H k0 v0); simpl; auto).
    destruct (scal_settable k) eqn:S.
    + unfold scal_setter. destruct (String.eqb_spec k "material") as [->|N]; [exfalso; apply (H "material" (Some v)); simpl; auto|].
      destruct v as [q|x]; [|discriminate]. destruct (qneg q); [discriminate|].
      destruct (String.eqb k "K1"); [|destruct (String.eqb k "mu"); [|destruct (String.eqb k "Ybar"); [|discriminate]]];
      (destruct (from_args _ _ _ _ r _) as [s2 [[mm u]|e]] eqn:F; [|discriminate]; intros X; injection X as <- _;
       apply (IH H') in F; exact F).
    + destruct (from_args _ _ _ _ r s) as [s2 [[mm u]|e]] eqn:F; [|discriminate]. intros X; injection X as <- _. apply (IH H') in F. exact F.
  - intros F. apply (IH ltac:(intros; apply (H k0 v); simpl; auto)) in F. exact F.
Qed.

Notation sset := (set_properties val scal scal_settable scal_setter val_key VStr).
Lemma scal_from_material m rest s s' r : (forall k v, In (k, v) rest -> k <> "material") ->
  from_args val scal scal_settable scal_setter (("material", Some (VStr m)) :: rest) s = (s', Ok r) ->
  s_target s' = s_target (set_scal_material m s) /\ s_material s' = Some (title m).
Proof.
  intros H. cbn [from_args]. change (scal_settable "material") with true. cbv iota.
  change (scal_setter "material" (VStr m) s) with (set_scal_material m s, @None exn). cbv iota beta.
  destruct (from_args _ _ _ _ rest _) as [s2 [[mm u]|e]] eqn:F; [|discriminate]. intros X; injection X as <- _.
  apply (scal_args_rest _ H) in F. destruct F as [A B]. split; [exact A|]. rewrite B. apply set_mat_target.
Qed.

Lemma scal_only m l : (forall v, In ("material", Some v) l -> v = VStr m) -> forall s s' r,
  from_args val scal scal_settable scal_setter l s = (s', Ok r) ->
  (t_density (s_target s') = t_density (s_target s) \/ t_density (s_target s') = orelse (known_density (title m)) (t_density (s_target s))) /\
  (forall k, k <> "density" -> attribute (s_target s') k = attribute (s_target s) k).
Proof.
  induction l as [|[k [v|]] r IH]; intros H s s' rr; cbn [from_args].
  - intros X. injection X as <- _. auto.
  - assert (H' : forall v, In ("material", Some v) r -> v = VStr m) by (intros; apply H; simpl; auto). specialize (IH H').
    assert (NM : k <> "material" -> scal_settable k = true -> match scal_setter k v s with
                 | (o', Some e) => (o', Err e)
                 | (o', None) => match from_args val scal scal_settable scal_setter r o' with
                                 | (o'', Ok (m0, u)) => (o'', Ok ((k, v) :: m0, u)) | (o'', Err e) => (o'', Err e) end end = (s', Ok rr) ->
          exists s1 r1, s_target s1 = s_target s /\ from_args val scal scal_settable scal_setter r s1 = (s', Ok r1)).
    { intros N _. unfold scal_setter. destruct (String.eqb_spec k "material"); [contradiction|].
      destruct v as [q|x]; [|discriminate]. destruct (qneg q); [discriminate|].
      destruct (String.eqb k "K1"); [|destruct (String.eqb k "mu"); [|destruct (String.eqb k "Ybar"); [|discriminate]]];
      (destruct (from_args _ _ _ _ r _) as [s2 [[mm u]|e]] eqn:F; [|discriminate]; intros X; injection X as <- _;
       eexists _, _; split; [|exact F]; reflexivity). }
    destruct (scal_settable k) eqn:S.
    + destruct (String.eqb_spec k "material") as [->|N].
      * rewrite (H v) by (simpl; auto). change (scal_setter "material" (VStr m) s) with (set_scal_material m s, @None exn). cbv iota beta.
        destruct (from_args _ _ _ _ r _) as [s2 [[mm u]|e]] eqn:F; [|discriminate]. intros X; injection X as <- _.
        apply IH in F. destruct (set_mat_target m s) as (D & _ & A & _). destruct F as [F1 F2]. split.
        -- right. destruct F1 as [F1|F1]; rewrite F1, D; [reflexivity|]. destruct (known_density (title m)); reflexivity.
        -- intros k N. rewrite (F2 k N). apply A, N.
      * intros X. destruct (NM N eq_refl X) as (s1 & r1 & T & F). apply IH in F. rewrite T in F. exact F.
    + destruct (from_args _ _ _ _ r s) as [s2 [[mm u]|e]] eqn:F; [|discriminate]. intros X; injection X as <- _. apply IH in F. exact F.
  - intros F. apply (IH ltac:(intros; apply H; simpl; auto)) in F. exact F.
Qed.

Lemma scal_tail K mu Y s s' r :
  from_args val scal scal_settable scal_setter [("K1", vnum K); ("mu", vnum mu); ("Ybar", vnum Y)] s = (s', Ok r) ->
  s_K1 s' = orelse K (s_K1 s) /\ s_mu s' = orelse mu (s_mu s) /\ s_Ybar s' = orelse Y (s_Ybar s).
Proof.
  destruct K as [x|], mu as [y|], Y as [z|]; cbn; try destruct (qneg x); cbn; try discriminate; try destruct (qneg y); cbn; try discriminate;
    try destruct (qneg z); cbn; try discriminate; intros X; injection X as <- _; auto.
Qed.

(** Assigning the material and parameters to a new scaling object. *)
Lemma sset_target m K mu Y s s' c r :
  sset "material" material_catalogue None [("material", Some (VStr m)); ("K1", vnum K); ("mu", vnum mu); ("Ybar", vnum Y)] s = ((s', c), Ok r) ->
  s_material s' = Some (title m) /\
  t_density (s_target s') = orelse (known_density (title m)) (t_density (s_target s)) /\
  (forall k, k <> "density" -> attribute (s_target s') k = attribute (s_target s) k) /\
  (title m = m -> s_K1 s = None -> s_mu s = None -> s_Ybar s = None -> pget m material_catalogue = None ->
     s_K1 s' = K /\ s_mu s' = mu /\ s_Ybar s' = Y) /\
  (forall e, pget (title m) material_catalogue = Some e ->
     s_K1 s' = orelse K (num_in e "K1") /\ s_mu s' = orelse mu (num_in e "mu") /\ s_Ybar s' = orelse Y (num_in e "Ybar")).
Proof.
  set (kw := [("material", Some (VStr m)); ("K1", vnum K); ("mu", vnum mu); ("Ybar", vnum Y)]). intros E.
  assert (C1 : exists o2 c2 r2, from_catalogue val scal scal_settable scal_setter val_key VStr "material" material_catalogue None kw s = ((o2, c2), Ok r2)
     /\ exists r3, from_args val scal scal_settable scal_setter kw o2 = (s', Ok r3)).
  { unfold set_properties in E.
    change (match material_catalogue with [] => (s, material_catalogue, Ok ([], [])) | _ :: _ => from_catalogue val scal scal_settable scal_setter val_key VStr "material" material_catalogue None kw s end)
      with (from_catalogue val scal scal_settable scal_setter val_key VStr "material" material_catalogue None kw s) in E.
    destruct (from_catalogue _ _ _ _ _ _ _ _ _ _ _) as [[o2 c2] [[m2 u2]|e2]]; [|discriminate].
    exists o2, c2, (m2, u2). split; [reflexivity|].
    destruct (from_args _ _ _ _ kw o2) as [o3 [[m3 u3]|e3]]; [|discriminate]. injection E as <- _ _. eauto. }
  destruct C1 as (o2 & c2 & r2 & C1 & r3 & C2). clear E.
  assert (T2 : ((t_density (s_target o2) = t_density (s_target s) \/ t_density (s_target o2) = orelse (known_density (title m)) (t_density (s_target s))) /\
               (forall k, k <> "density" -> attribute (s_target o2) k = attribute (s_target s) k)) /\
               (pget m material_catalogue = None -> o2 = s)).
  { unfold from_catalogue in C1. change (pget "material" kw) with (Some (Some (VStr m))) in C1. cbv iota beta in C1. cbn [val_key] in C1.
    destruct (pget m material_catalogue) as [e|] eqn:EM; [|injection C1 as <- _ _; auto].
    split; [|discriminate].
    destruct (from_args _ _ _ _ _ s) as [o3 [r4|e4]] eqn:F; [|discriminate]. injection C1 as <- _ _.
    apply (scal_only m) in F; [exact F|]. intros v I. apply in_app_iff in I. destruct I as [I|I].
    - apply in_map_iff in I. destruct I as ([x w] & X & I). injection X as -> ->.
      destruct (mat_entry m e EM) as (a & b & cc & d & -> & _). cbn in I.
      destruct I as [I|[I|[I|[I|[I|[]]]]]]; try discriminate I. injection I as <-. reflexivity.
    - apply filter_In in I. destruct I as [I _]. unfold pdel in I. apply filter_In in I. destruct I as [_ I]. discriminate I. }
  destruct T2 as [[TD TA] TN].
  unfold kw in C2. cbn [from_args] in C2. change (scal_settable "material") with true in C2. cbv iota in C2.
  change (scal_setter "material" (VStr m) o2) with (set_scal_material m o2, @None exn) in C2. cbv iota beta in C2.
  fold (from_args val scal scal_settable scal_setter) in C2.
  match type of C2 with match ?f with _ => _ end = _ => change f with (from_args val scal scal_settable scal_setter [("K1", vnum K); ("mu", vnum mu); ("Ybar", vnum Y)] (set_scal_material m o2)) in C2 end.
  destruct (from_args _ _ _ _ _ (set_scal_material m o2)) as [s2 [[mm u]|e]] eqn:F; [|discriminate]. injection C2 as <- _.
  destruct (set_mat_target m o2) as (D & MM & A & P).
  assert (F' := F). apply scal_args_rest in F'; [|intros k v I; cbn in I; destruct I as [I|[I|[I|[]]]]; injection I as <- _; discriminate].
  destruct F' as [F1 F2]. apply scal_tail in F. destruct F as (G1 & G2 & G3).
  split; [rewrite F2; exact MM|]. split; [|split; [|split]].
  - rewrite F1, D. destruct TD as [TD|TD]; rewrite TD; [reflexivity|]. destruct (known_density (title m)); reflexivity.
  - intros k N. rewrite F1, (A k N). apply TA, N.
  - intros T K0 M0 Y0 N. rewrite T, N in P. destruct P as (P1 & P2 & P3). rewrite (TN N) in P1, P2, P3.
    rewrite G1, G2, G3, (TN N), P1, P2, P3, K0, M0, Y0. destruct K, mu, Y; auto.
  - intros e EE. rewrite EE in P. destruct P as (P1 & P2 & P3). rewrite G1, G2, G3, P1, P2, P3. auto.
Qed.


Lemma scal_exact t a s : scal_init t a = Ok s -> exists m, orelse (sa_material a) (t_material t) = Some m /\
  s_material s = Some (title m) /\
  t_density (s_target s) = orelse (sa_density a) (orelse (known_density (title m)) (t_density t)) /\
  s_K1 s = orelse (sa_K1 a) (mat_num (title m) "K1") /\ s_mu s = orelse (sa_mu a) (mat_num (title m) "mu") /\
  s_Ybar s = orelse (sa_Ybar a) (mat_num (title m) "Ybar") /\
  (forall k, k <> "density" -> attribute (s_target s) k = attribute t k).
Proof.
  unfold scal_init.
  assert (S0 : match sa_material a with Some m => set_scal_material m (scal0 t)
        | None => match t_material t with Some m => set_scal_material m (scal0 t) | None => scal0 t end end =
        match orelse (sa_material a) (t_material t) with Some m => set_scal_material m (scal0 t) | None => scal0 t end).
  { destruct (sa_material a); reflexivity. }
  rewrite S0. clear S0. destruct (orelse (sa_material a) (t_material t)) as [m|]; [|discriminate].
  intros H. exists m. split; [reflexivity|]. revert H.
  destruct (set_mat_target m (scal0 t)) as (D0 & M0 & A0 & P0). rewrite M0. cbn [scal0 s_target s_K1 s_mu s_Ybar] in *.
  destruct (sset "material" material_catalogue None _ (set_scal_material m (scal0 t))) as [[s1 c1] [r1|e1]] eqn:E; [|discriminate].
  apply sset_target in E. rewrite title_idem in E. destruct E as (E1 & E2 & E3 & E4 & E5).
  assert (PAR : s_K1 s1 = orelse (sa_K1 a) (mat_num (title m) "K1") /\ s_mu s1 = orelse (sa_mu a) (mat_num (title m) "mu") /\
                s_Ybar s1 = orelse (sa_Ybar a) (mat_num (title m) "Ybar")).
  { unfold mat_num. destruct (pget (title m) material_catalogue) as [e|] eqn:EE.
    - apply E5. reflexivity.
    - destruct P0 as (P1 & P2 & P3). destruct (E4 eq_refl P1 P2 P3 eq_refl) as (X & Y & Z). rewrite X, Y, Z.
      destruct (sa_K1 a), (sa_mu a), (sa_Ybar a); auto. }
  destruct PAR as (Q1 & Q2 & Q3). rewrite D0 in E2.
  assert (E2' : t_density (s_target s1) = orelse (known_density (title m)) (t_density t)) by (rewrite E2; destruct (known_density (title m)); reflexivity).
  assert (FIN : forall s2 s, (match t_density (s_target s2), s_K1 s2, s_mu s2, s_Ybar s2 with Some _, Some _, Some _, Some _ => Ok s2 | _, _, _, _ => Err ValueError end) = Ok s -> s = s2).
  { intros s2 s' X. destruct (t_density (s_target s2)), (s_K1 s2), (s_mu s2), (s_Ybar s2); try discriminate. congruence. }
  assert (A1 : forall k, k <> "density" -> attribute (s_target s1) k = attribute t k).
  { intros k N. rewrite (E3 k N). apply A0, N. }
  destruct (sa_density a) as [d|].
  - destruct (qpos d); [|discriminate]. cbn [rbind]. intros X. apply FIN in X. subst s. cbn. repeat split; auto.
    intros k N. etransitivity; [apply upd_density|]. destruct (String.eqb_spec k "density"); [contradiction|]. apply A1, N.
  - destruct (t_density (s_target s1)) as [d1|] eqn:TD.
    + cbn [rbind]. intros X. assert (X' : s = s1) by (revert X; rewrite ?TD; destruct (s_K1 s1), (s_mu s1), (s_Ybar s1); try discriminate; congruence). subst s. rewrite TD. repeat split; auto.
    + rewrite E1. destruct (pget (title m) material_catalogue) as [e|] eqn:EE; [|discriminate].
      exfalso. destruct (mat_entry _ _ EE) as (x & y & z & w & _ & _ & _ & _ & KD). rewrite KD in E2'. discriminate.
Qed.

Lemma scal_maker_name n ta a s : scal_maker target_catalogue (TName n) ta a = Ok s -> made n no_args (s_target s).
Proof.
  unfold scal_maker.
  match goal with |- context [target_maker target_catalogue (TName n) ?b] => set (b0 := b); destruct (construction n b0) as (K & _ & _); unfold tmk in K end.
  destruct (target_maker target_catalogue (TName n) b0) as [c [t|e]]; [|discriminate]. cbn [fst snd] in K.
  destruct (K t eq_refl) as (_ & _ & ->).
  destruct (scal_init t a) as [sc|e]; [|discriminate].
  destruct (construction n no_args) as (K2 & _ & _). unfold tmk in K2.
  destruct (target_maker target_catalogue (TName n) no_args) as [c2 [t2|e2]]; [|discriminate].
  intros X. injection X as <-. destruct (K2 t2 eq_refl) as (_ & M & _). exact M.
Qed.

Lemma scal_maker_params n ta a s : scal_maker target_catalogue (TName n) ta a = Ok s ->
  exists m, orelse (sa_material a) (entry_str n "material") = Some m /\ s_material s = Some (title m) /\
  s_K1 s = orelse (sa_K1 a) (mat_num (title m) "K1") /\ s_mu s = orelse (sa_mu a) (mat_num (title m) "mu") /\
  s_Ybar s = orelse (sa_Ybar a) (mat_num (title m) "Ybar").
Proof.
  unfold scal_maker.
  match goal with |- context [target_maker target_catalogue (TName n) ?b] => set (b0 := b); destruct (construction n b0) as (K & _ & _); unfold tmk in K end.
  destruct (target_maker target_catalogue (TName n) b0) as [c [t|e]]; [|discriminate]. cbn [fst snd] in K.
  destruct (K t eq_refl) as (_ & M & _).
  destruct (scal_init t a) as [sc|e] eqn:E; [|discriminate].
  destruct (target_maker c (TName n) no_args) as [c2 [t2|e2]]; [|discriminate].
  intros X. injection X as <-. destruct (scal_exact _ _ _ E) as (m & Em & A & _ & B & C & D & _).
  destruct M as (_ & _ & _ & _ & _ & _ & _ & Mm & _). rewrite Mm in Em. cbn [a_material b0 orelse] in Em.
  exists m. repeat split; assumption.
Qed.
Lemma scal_maker_default ta a s : scal_maker target_catalogue TNone ta a = Ok s ->
  exists t, made "Moon" {| a_radius := a_radius ta; a_diameter := a_diameter ta; a_mass := a_mass ta; a_scale := a_scale ta;
               a_material := None; a_density := None |} t /\ scal_init t a = Ok s.
Proof.
  unfold scal_maker.
  match goal with |- context [target_maker target_catalogue TNone ?b] => set (b0 := b); destruct (construction "Moon" b0) as (K & _ & _); unfold tmk in K end.
  cbn [target_maker] in *. destruct (target_init target_catalogue "Moon" b0) as [c [t|e]]; [|discriminate]. cbn [fst snd] in K.
  destruct (K t eq_refl) as (_ & M & _). destruct (scal_init t a) as [sc|e] eqn:E; [|discriminate].
  intros X. injection X as <-. exists t. split; [exact M | exact E].
Qed.

(* ---------- derived quantities ---------- *)
Open Scope R_scope.
Lemma derived r m : 0 < r -> 0 < m ->
  t_gravity r m * r ^ 2 = G_value * m /\ 0 < t_gravity r m /\
  0 < t_escape r m /\ t_escape r m ^ 2 = 2 * G_value * m / r /\
  t_volume r = t_surface_area r * t_diameter r / 6 /\ t_surface_area r = t_circumference r * t_diameter r.
Proof.
  intros Hr Hm. assert (HG : 0 < G_value) by (unfold G_value; apply Rdiv_lt_0_compat; [lra|apply pow_lt; lra]).
  assert (Hg : 0 < t_gravity r m).
  { unfold t_gravity. apply Rdiv_lt_0_compat; [apply Rmult_lt_0_compat; assumption|apply pow_lt, Hr]. }
  assert (H2 : 0 < 2 * r * t_gravity r m) by (apply Rmult_lt_0_compat; [lra|exact Hg]).
  split; [unfold t_gravity; field; lra|]. split; [exact Hg|]. split; [apply sqrt_lt_R0, H2|].
  split; [unfold t_escape; rewrite pow2_sqrt by lra; unfold t_gravity; field; lra|].
  unfold t_volume, t_surface_area, t_circumference, t_diameter. split; field.
Qed.

(* ---------- witnesses ---------- *)
Open Scope string_scope.
Definition bad_density : target_args :=
  {| a_radius := None; a_diameter := None; a_mass := None; a_scale := None; a_material := None; a_density := Some (-1)%Q |}.
Lemma catalogue_trace : exists a,
  snd (target_maker target_catalogue (TName "Mars") a) = Err ValueError /\
  exists e, pget "Mars" (fst (target_maker target_catalogue (TName "Mars") a)) = Some e /\
            pget "name" e = Some (VStr "Mars").
Proof.
  exists bad_density. split; [vm_compute; reflexivity|].
  exists [("radius", VNum 3389920); ("mass", VNum 641690900000000000000000); ("material", VStr "Soft Rock");
          ("transition_scale_type", VStr "silicate"); ("name", VStr "Mars")]. split; vm_compute; reflexivity.
Qed.
Lemma user_density_lost : exists t s d,
  snd (target_maker target_catalogue (TName "Mars")
    {| a_radius := None; a_diameter := None; a_mass := None; a_scale := None; a_material := None; a_density := Some d |}) = Ok t /\
  t_density t = Some d /\
  scal_init t {| sa_material := None; sa_K1 := None; sa_mu := None; sa_Ybar := None; sa_density := None |} = Ok s /\
  t_density (s_target s) = Some 2250%Q /\ d = 3000%Q.
Proof.
  eexists _, _, 3000%Q. split; [vm_compute; reflexivity|]. split; [reflexivity|]. split; [vm_compute; reflexivity|]. split; reflexivity.
Qed.
