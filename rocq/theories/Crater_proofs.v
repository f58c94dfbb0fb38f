(** Lemmas about crater objects. *)
From Coq Require Import Reals NArith Lra.
From Verif Require Import Common Crater_model Crater_spec.
Open Scope R_scope.

(** ** Measured axes *)
Lemma set_major_ok : forall x v v', axes_ok v -> set_major x v = Ok v' -> axes_ok v'.
Proof.
  intros x v v' (P1 & P2 & P3) E. unfold set_major in E. destruct x as [a|].
  - destruct (Rle_dec a 0); [discriminate|]. destruct (v_minor v) as [m|] eqn:Em.
    + specialize (P2 m eq_refl). destruct (Rlt_dec a m); injection E as <-; repeat split; simpl; intros;
      repeat match goal with H : Some _ = Some _ |- _ => injection H as <- end; lra.
    + injection E as <-. repeat split; simpl; intros; try discriminate.
      match goal with H : Some _ = Some _ |- _ => injection H as <- end. lra.
  - injection E as <-. repeat split; simpl; intros; try discriminate. auto.
Qed.

Lemma set_minor_ok : forall x v v', axes_ok v -> set_minor x v = Ok v' -> axes_ok v'.
Proof.
  intros x v v' (P1 & P2 & P3) E. unfold set_minor in E. destruct x as [b|].
  - destruct (Rle_dec b 0); [discriminate|]. destruct (v_major v) as [M|] eqn:Em.
    + specialize (P1 M eq_refl). destruct (Rgt_dec b M); injection E as <-; repeat split; simpl; intros;
      repeat match goal with H : Some _ = Some _ |- _ => injection H as <- end; lra.
    + injection E as <-. repeat split; simpl; intros; try discriminate.
      match goal with H : Some _ = Some _ |- _ => injection H as <- end. lra.
  - injection E as <-. repeat split; simpl; intros; try discriminate. auto.
Qed.

Lemma set_radius_ok : forall x v v', axes_ok v -> set_radius x v = Ok v' -> axes_ok v'.
Proof.
  intros x v v' H E. unfold set_radius, rbind in E. destruct (set_major x v) as [w|] eqn:Em; [|discriminate].
  eapply set_minor_ok; [|exact E]. eapply set_major_ok; eauto.
Qed.

(** What assigning a measured radius does to the axes. *)
Lemma set_radius_spec : forall r v, axes_ok v -> 0 < r ->
  exists v', set_radius (Some r) v = Ok v' /\
    v_major v' = Some (match v_minor v with Some m => if Rlt_dec r m then m else r | None => r end) /\
    v_minor v' = Some r.
Proof.
  intros r v (P1 & P2 & P3) Hr. unfold set_radius, set_major. destruct (Rle_dec r 0); [lra|].
  destruct (v_minor v) as [m|] eqn:Em.
  - destruct (Rlt_dec r m); cbn [rbind]; unfold set_minor; (destruct (Rle_dec r 0); [lra|]); cbn.
    + destruct (Rgt_dec r m); [lra|]. eexists; repeat split.
    + destruct (Rgt_dec r r); [lra|]. eexists; repeat split.
  - cbn. unfold set_minor. destruct (Rle_dec r 0); [lra|]. cbn. destruct (Rgt_dec r r); [lra|]. eexists; repeat split.
Qed.

Lemma radius_reads_back : forall r v v', axes_ok v -> set_radius (Some r) v = Ok v' ->
  (measured_radius v' = Some r <-> forall m, v_minor v = Some m -> m <= r) /\
  (measured_diameter v' = Some (r * 2) <-> forall m, v_minor v = Some m -> m <= r).
Proof.
  intros r v v' H E.
  assert (Hr : 0 < r).
  { unfold set_radius, set_major in E. destruct (Rle_dec r 0); [discriminate|]. lra. }
  destruct (set_radius_spec r v H Hr) as (w & Ew & M & m). rewrite E in Ew. injection Ew as <-.
  assert (K : measured_radius v' = Some r <-> forall m, v_minor v = Some m -> m <= r).
  { unfold measured_radius. rewrite M, m. destruct (v_minor v) as [k|].
    - destruct (Rlt_dec r k) as [L|L]; split.
      + intros Q. exfalso. injection Q as Q.
        assert (sqrt (k * r) * sqrt (k * r) = k * r) by (apply sqrt_sqrt; nra). rewrite Q in H0. nra.
      + intro Q. specialize (Q k eq_refl). lra.
      + intros _ q [= <-]. lra.
      + intros _. f_equal. apply sqrt_square. lra.
    - split; [discriminate|]. intros _. f_equal. apply sqrt_square. lra. }
  split; [exact K|]. rewrite <- K. unfold measured_diameter. destruct (measured_radius v') as [q|]; simpl.
  - split; intros [= Q]; f_equal; lra.
  - split; discriminate.
Qed.

Lemma nonpositive_rejected : forall r v, r <= 0 ->
  set_major (Some r) v = Err ValueError /\ set_minor (Some r) v = Err ValueError /\
  set_radius (Some r) v = Err ValueError /\ set_diameter (Some r) v = Err ValueError.
Proof.
  intros r v H. unfold set_diameter, set_radius, set_major, set_minor. simpl.
  destruct (Rle_dec r 0); [|lra]. destruct (Rle_dec (r / 2) 0); [|lra]. repeat split.
Qed.

(** ** Assignments *)
Section Assign.
Context (norm_loc : R * R -> R * R) (str_of : value -> string) (trunc : R -> Z).
Notation assign := (assign norm_loc str_of trunc).
Notation assigns := (assigns norm_loc str_of trunc).

Lemma assign_fixed : forall n x c, fixed (fst (assign n x c)) = fixed c.
Proof.
  intros. unfold Crater_model.assign. destruct (is_base_fixed n); [reflexivity|].
  destruct (var_setter norm_loc str_of trunc n) as [set|]; [|reflexivity].
  destruct (set x (vars c)); reflexivity.
Qed.

Lemma assigns_fixed : forall l c, fixed (assigns l c) = fixed c.
Proof.
  induction l as [|p l IH]; intro c; [reflexivity|].
  change (assigns (p :: l) c) with (assigns l (fst (assign (fst p) (snd p) c))). rewrite IH. apply assign_fixed.
Qed.

Lemma fixed_assign_rejected : forall n x c, In n base_fixed_names -> assign n x c = (c, Some AttributeError).
Proof.
  intros n x c H. unfold Crater_model.assign. assert (E : is_base_fixed n = true).
  { unfold is_base_fixed. apply existsb_exists. exists n. split; [assumption|apply String.eqb_refl]. }
  rewrite E. reflexivity.
Qed.

Definition only_axes (set : value -> var -> result var) : Prop :=
  forall x v v', set x v = Ok v' -> axes_ok v -> axes_ok v'.

Lemma setter_axes : forall n set, var_setter norm_loc str_of trunc n = Some set -> only_axes set.
Proof.
  intros n set H. unfold var_setter in H.
  assert (SF : forall put, (forall o v, v_major (put o v) = v_major v /\ v_minor (put o v) = v_minor v) ->
     only_axes (set_float put)).
  { intros put P x v v' E A. unfold set_float in E.
    assert (Q : forall o, axes_ok (put o v)).
    { intro o. unfold axes_ok. destruct (P o v) as [-> ->]. exact A. }
    destruct x; simpl in E; try discriminate E; injection E as <-; apply Q. }
  repeat match type of H with
  | (if String.eqb n ?k then _ else _) = _ => destruct (String.eqb n k)
  end; try discriminate; injection H as <-; intros x v v' E A.
  - destruct x; injection E as <-; exact A.
  - unfold rbind in E. destruct (opt_num x); [|discriminate]. eapply set_radius_ok; eauto.
  - unfold rbind in E. destruct (opt_num x); [|discriminate]. eapply set_radius_ok; eauto.
  - unfold rbind in E. destruct (opt_num x); [|discriminate]. eapply set_major_ok; eauto.
  - unfold rbind in E. destruct (opt_num x); [|discriminate]. eapply set_minor_ok; eauto.
  - eapply SF; [|exact E|exact A]. intros; split; reflexivity.
  - destruct x as [| | |[|[a|] [|[b|] [|]]]]; try discriminate; injection E as <-; exact A.
  - eapply SF; [|exact E|exact A]. intros; split; reflexivity.
  - eapply SF; [|exact E|exact A]. intros; split; reflexivity.
  - eapply SF; [|exact E|exact A]. intros; split; reflexivity.
  - destruct x as [| | |[|[a|] [|[b|] [|]]]]; try discriminate; injection E as <-; exact A.
  - destruct x as [| | |[|[a|] [|[b|] [|[c|] [|]]]]]; try discriminate; injection E as <-; exact A.
  - destruct x; simpl in E; try discriminate; injection E as <-; exact A.
Qed.

Lemma assign_axes : forall n x c, axes_ok (vars c) -> axes_ok (vars (fst (assign n x c))).
Proof.
  intros n x c A. unfold Crater_model.assign. destruct (is_base_fixed n); [exact A|].
  destruct (var_setter norm_loc str_of trunc n) as [set|] eqn:E; [|exact A].
  destruct (set x (vars c)) eqn:Es; [|exact A]. simpl. eapply setter_axes; eauto.
Qed.

Lemma assigns_axes : forall l c, axes_ok (vars c) -> axes_ok (vars (assigns l c)).
Proof.
  induction l as [|p l IH]; intros c A; [exact A|].
  change (assigns (p :: l) c) with (assigns l (fst (assign (fst p) (snd p) c))). apply IH, assign_axes, A.
Qed.

Lemma failed_assign_no_effect : forall n x c c' e, assign n x c = (c', Some e) -> c' = c.
Proof.
  intros n x c c' e E. unfold Crater_model.assign in E. destruct (is_base_fixed n); [congruence|].
  destruct (var_setter norm_loc str_of trunc n) as [set|]; [|congruence].
  destruct (set x (vars c)); congruence.
Qed.

(** ** Orientation *)
Lemma mod360_range : forall x, 0 <= mod360 x < 360.
Proof.
  intro x. unfold mod360. destruct (base_Int_part (x / 360)) as [L U].
  assert (x = 360 * (x / 360)) by (field). split; lra.
Qed.

Lemma mod360_id : forall x, 0 <= x < 360 -> mod360 x = x.
Proof.
  intros x [L U]. unfold mod360.
  assert (E : Int_part (x / 360) = 0%Z).
  { destruct (base_Int_part (x / 360)) as [A B].
    assert (0 <= x / 360 < 1) by (split; [apply Rmult_le_pos; lra | apply Rmult_lt_reg_r with 360; [lra|]; field_simplify; lra]).
    assert (IZR (Int_part (x / 360)) < 1) by lra. assert (-1 < IZR (Int_part (x / 360))) by lra.
    apply (lt_IZR _ 1) in H0. apply (lt_IZR (-1)) in H1. lia. }
  rewrite E. simpl. lra.
Qed.

(** ** Invariant of made craters *)
Context (hash : option num -> option R -> option R -> option (R * R) -> option R -> option R ->
          option R -> option R -> option R -> option R -> N)
  (project : option R -> option R -> option R -> option R -> option (R * R) -> option R -> result proj)
  (f2t t2f : R -> R * string) (t2p p2t : R -> R)
  (norm_idem : forall x, norm_loc (norm_loc x) = norm_loc x).
Notation maker := (maker norm_loc hash project f2t t2f t2p p2t).
Notation made := (made norm_loc str_of trunc hash project f2t t2f t2p p2t).

Definition hash_of (f : fixedf) : N :=
  hash (f_time f) (f_major f) (f_pang f) (f_loc f) (f_orient f) (f_td f) (f_pd f) (f_pv f) (f_pm f) (f_minor f).

Definition fixed_ok (f : fixedf) : Prop :=
  f_id f = hash_of f /\ f_loc f <> None /\ f_mt f <> None /\ f_extra f = [].

Definition var_ok (v : var) : Prop :=
  axes_ok v /\ (forall o, v_orient v = Some o -> 0 <= o < 360) /\
  (forall l, v_loc v = Some l -> norm_loc l = l).

Lemma empty_ok : var_ok empty_var.
Proof. repeat split; simpl; intros; discriminate. Qed.

Lemma set_major_keeps : forall x v v', set_major x v = Ok v' ->
  v' = with_axes (v_major v') (v_minor v') v.
Proof.
  intros x v v' E. unfold set_major in E. destruct x as [a|].
  - destruct (Rle_dec a 0); [discriminate|]. destruct (v_minor v) as [m|]; [destruct (Rlt_dec a m)|]; injection E as <-; reflexivity.
  - injection E as <-. reflexivity.
Qed.
Lemma set_minor_keeps : forall x v v', set_minor x v = Ok v' ->
  v' = with_axes (v_major v') (v_minor v') v.
Proof.
  intros x v v' E. unfold set_minor in E. destruct x as [a|].
  - destruct (Rle_dec a 0); [discriminate|]. destruct (v_major v) as [m|]; [destruct (Rgt_dec a m)|]; injection E as <-; reflexivity.
  - injection E as <-. reflexivity.
Qed.
Lemma set_radius_keeps : forall x v v', set_radius x v = Ok v' -> v' = with_axes (v_major v') (v_minor v') v.
Proof.
  intros x v v' E. unfold set_radius, rbind in E. destruct (set_major x v) as [w|] eqn:Em; [|discriminate].
  apply set_major_keeps in Em. apply set_minor_keeps in E. rewrite E, Em. reflexivity.
Qed.

Lemma axes_var_ok : forall M m v, var_ok v -> axes_ok (with_axes M m v) -> var_ok (with_axes M m v).
Proof. intros M m v (_ & B & C) A. split; [exact A|split; simpl; assumption]. Qed.

Lemma opt_set_ok : forall A (x : option A) set v v',
  (forall a w w', set a w = Ok w' -> var_ok w -> var_ok w') ->
  opt_set x set v = Ok v' -> var_ok v -> var_ok v'.
Proof. intros A [a|] set v v' H E V; simpl in E; [eauto|]. congruence. Qed.

Lemma set_radius_var : forall x v v', set_radius x v = Ok v' -> var_ok v -> var_ok v'.
Proof.
  intros x v v' E V. rewrite (set_radius_keeps _ _ _ E). apply axes_var_ok; [assumption|].
  rewrite <- (set_radius_keeps _ _ _ E). eapply set_radius_ok; [apply V|exact E].
Qed.
Lemma set_major_var : forall x v v', set_major x v = Ok v' -> var_ok v -> var_ok v'.
Proof.
  intros x v v' E V. rewrite (set_major_keeps _ _ _ E). apply axes_var_ok; [assumption|].
  rewrite <- (set_major_keeps _ _ _ E). eapply set_major_ok; [apply V|exact E].
Qed.
Lemma set_minor_var : forall x v v', set_minor x v = Ok v' -> var_ok v -> var_ok v'.
Proof.
  intros x v v' E V. rewrite (set_minor_keeps _ _ _ E). apply axes_var_ok; [assumption|].
  rewrite <- (set_minor_keeps _ _ _ E). eapply set_minor_ok; [apply V|exact E].
Qed.

Lemma var_init_ok : forall a v, var_init norm_loc a = Ok v -> var_ok v.
Proof.
  intros a v E. unfold var_init in E.
  destruct (opt_set (a_mdiam a) _ empty_var) as [v1|] eqn:E1; [|discriminate]. cbn [rbind] in E.
  destruct (opt_set (a_mrad a) _ v1) as [v2|] eqn:E2; [|discriminate]. cbn [rbind] in E.
  destruct (opt_set (a_mmajor a) _ v2) as [v3|] eqn:E3; [|discriminate]. cbn [rbind] in E.
  destruct (opt_set (a_mminor a) _ v3) as [v4|] eqn:E4; [|discriminate]. cbn [rbind] in E.
  assert (V4 : var_ok v4).
  { eapply opt_set_ok; [|exact E4|eapply opt_set_ok; [|exact E3|eapply opt_set_ok; [|exact E2|eapply opt_set_ok; [|exact E1|apply empty_ok]]]];
    intros x w w' Q V; [exact (set_minor_var _ _ _ Q V)|exact (set_major_var _ _ _ Q V)|
      exact (set_radius_var _ _ _ Q V)|exact (set_radius_var _ _ _ Q V)]. }
  revert V4 E. generalize v4. clear - norm_idem. intros v4 (A & B & C) E. injection E as <-.
  assert (K : forall (X : Type) (o : option X) (f : X -> var -> var) w,
    (forall x, axes_ok (f x w) = axes_ok w /\ v_orient (f x w) = v_orient w /\ v_loc (f x w) = v_loc w) ->
    var_ok w -> var_ok (match o with Some x => f x w | None => w end)).
  { intros X [x|] f w P V; [|exact V]. destruct (P x) as (P1 & P2 & P3). unfold var_ok. rewrite P1, P2, P3. exact V. }
  repeat (match goal with |- var_ok (match ?o with Some x => @?f x | None => ?w end) => idtac end;
    first [apply (K _ _ (fun x => with_name (Some x))) | apply (K _ _ (fun x => with_pseq (Some x)))
    | apply (K _ _ (fun x => with_pND (Some x))) | apply (K _ _ (fun x => with_ptime (Some x)))
    | apply (K _ _ (fun x => with_deg (Some x))) | apply (K _ _ (fun x => with_floor (Some x)))
    | apply (K _ _ (fun x => with_rim (Some x)))]; [intro; repeat split|]).
  destruct (a_mloc a) as [l|]; destruct (a_morient a) as [o|]; (split; [exact A|split; simpl]); try assumption;
    try (intros o' [= <-]; apply mod360_range); intros l' [= <-]; apply norm_idem.
Qed.

Lemma finish_ok : forall co time name M m mo ml ld lr rim fl deg pt pn ps c,
  c_mt co <> None ->
  finish norm_loc hash co time name M m mo ml ld lr rim fl deg pt pn ps = Ok c ->
  fixed_ok (fixed c) /\ var_ok (vars c).
Proof.
  intros co time name M m mo ml ld lr rim fl deg pt pn ps c Mt E. unfold finish in E.
  destruct (c_loc co) as [loc|] eqn:El; [|discriminate]. cbv zeta in E.
  destruct (var_init norm_loc _) as [v|] eqn:Ev; [|discriminate]. cbn [rbind] in E.
  injection E as <-. split.
  - repeat split; simpl; try assumption; try discriminate.
  - simpl. eapply var_init_ok; eauto.
Qed.

Lemma compute_mt : forall a b r d td tr pd pr pma pm v an o rho loc co,
  compute project f2t t2f t2p p2t a b r d td tr pd pr pma pm v an o rho loc = Ok co -> c_mt co <> None.
Proof.
  intros until co. intro E. unfold compute in E.
  destruct (project v pma an o loc rho) as [j|]; [|discriminate]. cbn [rbind] in E.
  destruct (sizes _ _ _ _ _ _ _ _) as [[[[fd td'] pd'] mt]|]; [|discriminate]. cbn [rbind] in E.
  repeat match type of E with (if ?x then _ else _) = _ => destruct x; [discriminate|] end.
  injection E as <-. simpl. discriminate.
Qed.

Lemma maker_ok : forall chk old p c, (forall o, old = Some o -> f_mt (fixed o) <> None) ->
  maker chk old p = Ok c -> fixed_ok (fixed c) /\ var_ok (vars c).
Proof.
  intros chk old p c Ho E. unfold Crater_model.maker in E. cbv zeta in E.
  repeat (match type of E with
  | match ?x with _ => _ end = Ok _ => let Q := fresh "Q" in destruct x eqn:Q
  | rbind ?x _ = Ok _ => let Q := fresh "Q" in destruct x eqn:Q; cbn [rbind] in E
  end; try discriminate E);
  (apply finish_ok in E; [exact E|]);
  try (simpl; apply (Ho _ eq_refl)); try (simpl; discriminate); try (eapply compute_mt; eauto).
Qed.

Lemma assign_var_ok : forall n x c, var_ok (vars c) -> var_ok (vars (fst (assign n x c))).
Proof.
  intros n x c V. split; [apply assign_axes, V|]. destruct V as (A & B & C).
  unfold Crater_model.assign. destruct (is_base_fixed n); [split; assumption|].
  destruct (var_setter norm_loc str_of trunc n) as [set|] eqn:H; [|split; assumption].
  destruct (set x (vars c)) as [v|] eqn:E; [|split; assumption]. simpl.
  unfold var_setter in H.
  repeat match type of H with
  | (if String.eqb n ?k then _ else _) = _ => destruct (String.eqb n k)
  end; try discriminate; injection H as <-.
  - destruct x; injection E as <-; split; assumption.
  - unfold rbind in E. destruct (opt_num x); [|discriminate]. rewrite (set_radius_keeps _ _ _ E). split; simpl; assumption.
  - unfold rbind in E. destruct (opt_num x); [|discriminate]. rewrite (set_radius_keeps _ _ _ E). split; simpl; assumption.
  - unfold rbind in E. destruct (opt_num x); [|discriminate]. rewrite (set_major_keeps _ _ _ E). split; simpl; assumption.
  - unfold rbind in E. destruct (opt_num x); [|discriminate]. rewrite (set_minor_keeps _ _ _ E). split; simpl; assumption.
  - unfold set_float in E. destruct x; simpl in E; try discriminate; injection E as <-; split; simpl; try assumption; try (intros; discriminate).
    intros o [= <-]. apply mod360_range.
  - destruct x as [| | |[|[a|] [|[b|] [|]]]]; try discriminate; injection E as <-; split; simpl; try assumption; try (intros; discriminate).
    intros l [= <-]. apply norm_idem.
  - unfold set_float in E. destruct x; simpl in E; try discriminate; injection E as <-; split; simpl; assumption.
  - unfold set_float in E. destruct x; simpl in E; try discriminate; injection E as <-; split; simpl; assumption.
  - unfold set_float in E. destruct x; simpl in E; try discriminate; injection E as <-; split; simpl; assumption.
  - destruct x as [| | |[|[a|] [|[b|] [|]]]]; try discriminate; injection E as <-; split; simpl; assumption.
  - destruct x as [| | |[|[a|] [|[b|] [|[d|] [|]]]]]; try discriminate; injection E as <-; split; simpl; assumption.
  - destruct x; simpl in E; try discriminate; injection E as <-; split; simpl; assumption.
Qed.

Lemma made_ok : forall c, made c -> fixed_ok (fixed c) /\ var_ok (vars c).
Proof.
  intros c H. induction H as [chk p c E|chk o p c H IH E|n x c H IH].
  - eapply maker_ok; [|exact E]. discriminate.
  - eapply maker_ok; [|exact E]. intros o' [= <-]. apply IH.
  - split; [rewrite assign_fixed; apply IH|apply assign_var_ok, IH].
Qed.

Lemma made_axes : forall c, made c -> axes_ok (vars c).
Proof. intros c H. apply (made_ok c H). Qed.

(** ** Copies *)
Lemma old_measured_spec : forall v M m, axes_ok v -> v_major v = Some M -> v_minor v = Some m ->
  old_measured v = if Req_EM_T m M then (Some (M * 2), None, None) else (None, Some M, Some m).
Proof.
  intros v M m (P1 & P2 & P3) EM Em. unfold old_measured, measured_radius. rewrite EM, Em.
  specialize (P1 M EM). specialize (P2 m Em).
  destruct (Req_EM_T (sqrt (M * m)) M) as [Q|Q]; destruct (Req_EM_T m M) as [T|T].
  - subst m. rewrite sqrt_square by lra. reflexivity.
  - exfalso. assert (S : sqrt (M * m) * sqrt (M * m) = M * m) by (apply sqrt_sqrt; nra). rewrite Q in S. nra.
  - exfalso. subst m. rewrite sqrt_square in Q by lra. congruence.
  - reflexivity.
Qed.

Lemma var_init_axes : forall M m o l rim fl deg pt pn ps nm, 0 < M -> 0 < m -> m <= M ->
  var_init norm_loc (mk_vargs None None (Some M) (Some m) o l rim fl deg pt pn ps nm) =
  Ok (mk_var (Some M) (Some m) (option_map mod360 o) (option_map norm_loc l) rim fl deg pt pn ps nm).
Proof.
  intros. unfold var_init. cbn [a_mdiam a_mrad a_mmajor a_mminor opt_set rbind].
  unfold set_major at 1. destruct (Rle_dec M 0); [lra|]. cbn [v_minor empty_var rbind].
  unfold set_minor at 1. destruct (Rle_dec m 0); [lra|]. cbn [v_major with_axes rbind].
  destruct (Rgt_dec m M); [lra|]. cbn.
  destruct o, l, rim, fl, deg, pt, pn, ps, nm; reflexivity.
Qed.

Lemma copy_same : forall chk c, made c -> measured_complete c -> maker chk (Some c) no_args = Ok c.
Proof.
  intros chk c Hm (NM & Nm & No & Nl). destruct (made_ok c Hm) as ((Hid & Hloc & Hmt & Hex) & (Ax & Or & Lo)).
  destruct (v_major (vars c)) as [M|] eqn:EM; [|congruence].
  destruct (v_minor (vars c)) as [m|] eqn:Em; [|congruence].
  destruct (v_orient (vars c)) as [o|] eqn:Eo; [|congruence].
  destruct (v_loc (vars c)) as [l|] eqn:El; [|congruence].
  destruct (f_loc (fixed c)) as [loc|] eqn:Efl; [|congruence].
  pose proof (old_measured_spec _ _ _ Ax EM Em) as OM.
  pose proof (proj1 Ax M EM) as PM. pose proof (proj1 (proj2 Ax) m Em) as Pm.
  pose proof (proj2 (proj2 Ax) M m EM Em) as Le.
  unfold Crater_model.maker, no_args. cbn [p_radius p_diameter p_loc p_ploc p_major p_minor p_orient p_pdir p_v p_vv p_ang p_mv
    p_td p_tr p_pd p_pr p_pm given orelse option_map count filter List.length Nat.ltb Nat.leb Nat.eqb negb andb orb].
  rewrite !andb_false_r. cbn [orb andb].
  rewrite OM. unfold merge_velocity. cbn [p_radius p_diameter p_loc p_ploc p_major p_minor p_orient p_pdir p_v p_vv p_ang p_mv
    p_td p_tr p_pd p_pr p_pm given orelse].
  assert (Fin : forall M' m', M' = M -> m' = m ->
    rbind (measured_axes chk None None (Some M') (Some m') (f_major (fixed c)) (f_minor (fixed c))) (fun '(A, B) =>
      finish norm_loc hash (mk_core (f_major (fixed c)) (f_minor (fixed c)) (f_td (fixed c)) (f_orient (fixed c))
         (f_pd (fixed c)) (f_pm (fixed c)) (f_pv (fixed c)) (f_pang (fixed c)) (Some loc) (f_mt (fixed c)))
        (f_time (fixed c)) (v_name (vars c)) A B (Some o) (Some l) None None
        (v_rim (vars c)) (v_floor (vars c)) (v_deg (vars c)) (v_ptime (vars c)) (v_pND (vars c)) (v_pseq (vars c))) = Ok c).
  { intros M' m' -> ->. unfold measured_axes. cbn [given]. rewrite !andb_false_r. cbn [rbind].
    unfold finish. cbn [c_loc c_a c_b c_dir c_td c_pd c_pv c_ang c_pm c_mt orelse].
    rewrite var_init_axes by assumption. cbn [rbind option_map].
    rewrite (mod360_id o) by (apply Or; reflexivity). rewrite (Lo l eq_refl).
    unfold hash_of in Hid. destruct c as [f v]. destruct f, v. cbn in *. subst. cbn. reflexivity. }
  destruct (Req_EM_T m M) as [T|T]; cbn; rewrite ?Efl, ?Eo, ?El; apply Fin; lra.
Qed.

Lemma copy_override : forall chk c p c', made c -> measured_complete c -> plain_override p ->
  maker chk (Some c) p = Ok c' ->
  fixed c' = mk_fixed (hash_of (fixed c')) (f_major (fixed c)) (f_minor (fixed c))
     (orelse (orelse (p_orient p) (p_pdir p)) (f_orient (fixed c))) (f_td (fixed c)) (f_pd (fixed c))
     (orelse (p_v p) (f_pv (fixed c))) (orelse (p_ang p) (f_pang (fixed c))) (f_pm (fixed c))
     (orelse (orelse (p_loc p) (p_ploc p)) (f_loc (fixed c))) (f_mt (fixed c)) (orelse (p_time p) (f_time (fixed c))) [] /\
  vars c' = mk_var (v_major (vars c)) (v_minor (vars c)) (orelse (option_map mod360 (p_morient p)) (v_orient (vars c)))
     (orelse (option_map norm_loc (p_mloc p)) (v_loc (vars c))) (orelse (p_rim p) (v_rim (vars c)))
     (orelse (p_floor p) (v_floor (vars c))) (orelse (p_deg p) (v_deg (vars c)))
     (orelse (p_ptime p) (v_ptime (vars c))) (orelse (p_pND p) (v_pND (vars c))) (orelse (p_pseq p) (v_pseq (vars c)))
     (v_name (vars c)).
Proof.
  intros chk c p c' Hm (NM & Nm & No & Nl) PO E. destruct (made_ok c Hm) as ((Hid & Hloc & Hmt & Hex) & (Ax & Or & Lo)).
  destruct (v_major (vars c)) as [M|] eqn:EM; [|congruence].
  destruct (v_minor (vars c)) as [m|] eqn:Em; [|congruence].
  destruct (v_orient (vars c)) as [o|] eqn:Eo; [|congruence].
  destruct (v_loc (vars c)) as [l|] eqn:El; [|congruence].
  destruct (f_loc (fixed c)) as [loc|] eqn:Efl; [|congruence].
  pose proof (old_measured_spec _ _ _ Ax EM Em) as OM.
  pose proof (proj1 Ax M EM) as PM. pose proof (proj1 (proj2 Ax) m Em) as Pm.
  pose proof (proj2 (proj2 Ax) M m EM Em) as Le.
  destruct PO as (H1 & H2 & H3 & H4 & H5 & H6 & H7 & H8 & H9 & H10 & H11 & H12 & H13 & H14 & H15 & H16).
  unfold Crater_model.maker in E. rewrite ?H1, ?H2, ?H3, ?H4, ?H5, ?H6, ?H7, ?H8, ?H9, ?H10, ?H11, ?H12, ?H13, ?H14, ?H15, ?H16 in E.
  cbn [given orelse option_map count filter List.length Nat.ltb Nat.leb Nat.eqb negb andb orb] in E.
  rewrite !andb_false_r in E. cbn [orb andb] in E.
  destruct (chk && given (p_loc p) && given (p_ploc p)); [discriminate|].
  destruct (chk && given (p_orient p) && given (p_pdir p)); [discriminate|].
  rewrite ?andb_false_r in E. cbn [andb orb given] in E. rewrite ?andb_false_r in E.
  rewrite OM in E. unfold merge_velocity in E. rewrite H11, H12 in E. cbn [given] in E.
  assert (Vel : (if given (p_v p) then if given (p_ang p) then (p_v p, p_ang p) else (p_v p, f_pang (fixed c))
        else if given (p_ang p) then (f_pv (fixed c), p_ang p) else (f_pv (fixed c), f_pang (fixed c))) =
     (orelse (p_v p) (f_pv (fixed c)), orelse (p_ang p) (f_pang (fixed c)))).
  { destruct (p_v p), (p_ang p); reflexivity. }
  rewrite Vel in E. clear Vel.
  assert (Fin : forall M' m' loc', M' = M -> m' = m ->
    loc' = orelse (orelse (p_loc p) (p_ploc p)) (Some loc) ->
    rbind (measured_axes chk None None (Some M') (Some m') (f_major (fixed c)) (f_minor (fixed c))) (fun '(A, B) =>
      finish norm_loc hash (mk_core (f_major (fixed c)) (f_minor (fixed c)) (f_td (fixed c))
         (orelse (orelse (p_orient p) (p_pdir p)) (f_orient (fixed c)))
         (f_pd (fixed c)) (f_pm (fixed c)) (orelse (p_v p) (f_pv (fixed c))) (orelse (p_ang p) (f_pang (fixed c)))
         loc' (f_mt (fixed c)))
        (orelse (p_time p) (f_time (fixed c))) (v_name (vars c)) A B (orelse (p_morient p) (Some o)) (orelse (p_mloc p) (Some l)) None None
        (orelse (p_rim p) (v_rim (vars c))) (orelse (p_floor p) (v_floor (vars c))) (orelse (p_deg p) (v_deg (vars c)))
        (orelse (p_ptime p) (v_ptime (vars c))) (orelse (p_pND p) (v_pND (vars c))) (orelse (p_pseq p) (v_pseq (vars c)))) = Ok c' ->
    fixed c' = mk_fixed (hash_of (fixed c')) (f_major (fixed c)) (f_minor (fixed c))
     (orelse (orelse (p_orient p) (p_pdir p)) (f_orient (fixed c))) (f_td (fixed c)) (f_pd (fixed c))
     (orelse (p_v p) (f_pv (fixed c))) (orelse (p_ang p) (f_pang (fixed c))) (f_pm (fixed c))
     (orelse (orelse (p_loc p) (p_ploc p)) (Some loc)) (f_mt (fixed c)) (orelse (p_time p) (f_time (fixed c))) [] /\
   vars c' = mk_var (Some M) (Some m) (orelse (option_map mod360 (p_morient p)) (Some o))
     (orelse (option_map norm_loc (p_mloc p)) (Some l)) (orelse (p_rim p) (v_rim (vars c)))
     (orelse (p_floor p) (v_floor (vars c))) (orelse (p_deg p) (v_deg (vars c)))
     (orelse (p_ptime p) (v_ptime (vars c))) (orelse (p_pND p) (v_pND (vars c))) (orelse (p_pseq p) (v_pseq (vars c)))
     (v_name (vars c))).
  { intros M' m' loc' -> -> Hl F. unfold measured_axes in F. cbn [given] in F. rewrite !andb_false_r in F. cbn [rbind] in F.
    unfold finish in F. cbn [c_loc c_a c_b c_dir c_td c_pd c_pv c_ang c_pm c_mt orelse] in F.
    rewrite Hl in F.
    destruct (orelse (orelse (p_loc p) (p_ploc p)) (Some loc)) as [lc|] eqn:Elc; [|discriminate].
    rewrite var_init_axes in F by assumption. cbn [rbind] in F. injection F as <-.
    split.
    - cbn [fixed]. f_equal.
    - cbn [vars]. f_equal.
      + destruct (p_morient p); cbn; [reflexivity|]. rewrite mod360_id by (apply Or; reflexivity). reflexivity.
      + destruct (p_mloc p); cbn; [reflexivity|]. rewrite (Lo l eq_refl). reflexivity. }
  destruct (Req_EM_T m M) as [T|T]; cbn [p_mdiam orelse Nat.ltb Nat.leb Nat.eqb] in E;
    rewrite ?Efl, ?Eo, ?El in E.
  - eapply Fin; [| |reflexivity|exact E]; lra.
  - eapply Fin; [| |reflexivity|exact E]; lra.
Qed.

(** Reading back from a file. *)
Lemma reload_same : forall widen c, made c -> measured_complete c ->
  f_major (fixed c) <> None -> f_minor (fixed c) <> None -> f_td (fixed c) <> None ->
  (widen = false \/ forall z, f_time (fixed c) <> Some (PInt z)) ->
  from_xarray norm_loc hash project f2t t2f t2p p2t widen c = Ok (mk_crater (fixed c) (with_name None (vars c))).
Proof.
  intros widen c Hm (NM & Nm & No & Nl) Fa Fb Ft Tw. destruct (made_ok c Hm) as ((Hid & Hloc & Hmt & Hex) & (Ax & Or & Lo)).
  destruct (v_major (vars c)) as [M|] eqn:EM; [|congruence].
  destruct (v_minor (vars c)) as [m|] eqn:Em; [|congruence].
  destruct (v_orient (vars c)) as [o|] eqn:Eo; [|congruence].
  destruct (v_loc (vars c)) as [l|] eqn:El; [|congruence].
  destruct (f_loc (fixed c)) as [loc|] eqn:Efl; [|congruence].
  destruct (f_mt (fixed c)) as [mt|] eqn:Emt; [|congruence].
  destruct (f_major (fixed c)) as [a|] eqn:Ea; [|congruence].
  destruct (f_minor (fixed c)) as [b|] eqn:Eb; [|congruence].
  destruct (f_td (fixed c)) as [td|] eqn:Etd; [|congruence].
  pose proof (old_measured_spec _ _ _ Ax EM Em) as OM.
  pose proof (proj1 Ax M EM) as PM. pose proof (proj1 (proj2 Ax) m Em) as Pm.
  pose proof (proj2 (proj2 Ax) M m EM Em) as Le.
  assert (Tm : (if widen then option_map widened (f_time (fixed c)) else f_time (fixed c)) = f_time (fixed c)).
  { destruct widen; [|reflexivity]. destruct Tw as [Tw|Tw]; [discriminate|].
    destruct (f_time (fixed c)) as [[z|x]|]; [exfalso; apply (Tw z); reflexivity|reflexivity|reflexivity]. }
  unfold from_xarray. rewrite Tm. unfold file_args. rewrite OM.
  unfold Crater_model.maker.
  assert (Fin : forall M' m', M' = M -> m' = m ->
    rbind (measured_axes false None None (Some M') (Some m') (f_major (fixed c)) (f_minor (fixed c))) (fun '(A, B) =>
      finish norm_loc hash (mk_core (f_major (fixed c)) (f_minor (fixed c)) (f_td (fixed c)) (f_orient (fixed c))
         (f_pd (fixed c)) (f_pm (fixed c)) (f_pv (fixed c)) (f_pang (fixed c)) (Some loc) (Some mt))
        (f_time (fixed c)) None A B (Some o) (Some l) None None
        (v_rim (vars c)) (v_floor (vars c)) (v_deg (vars c)) (v_ptime (vars c)) (v_pND (vars c)) (v_pseq (vars c)))
    = Ok (mk_crater (fixed c) (with_name None (vars c)))).
  { intros M' m' -> ->. unfold measured_axes. cbn [given andb]. cbn [rbind].
    unfold finish. cbn [c_loc c_a c_b c_dir c_td c_pd c_pv c_ang c_pm c_mt orelse].
    rewrite var_init_axes by assumption. cbn [rbind option_map].
    rewrite (mod360_id o) by (apply Or; reflexivity). rewrite (Lo l eq_refl).
    unfold hash_of in Hid. destruct c as [f v]. destruct f, v. cbn in *. subst. unfold with_name. cbn. reflexivity. }
  rewrite Ea, Eb, Etd in Fin.
  assert (On : orelse (f_orient (fixed c)) (f_orient (fixed c)) = f_orient (fixed c)) by (destruct (f_orient (fixed c)); reflexivity).
  unfold d_radius, d_diameter, d_tr. rewrite Ea, Eb, Etd, Efl, Emt, Eo, El.
  destruct (Req_EM_T m M) as [T|T]; cbn; rewrite ?On, ?Ea, ?Eb, ?Etd; cbn;
    (destruct (f_pd (fixed c)), (d_pr (fixed c)), (f_pm (fixed c))); cbn; apply Fin; lra.
Qed.
End Assign.

(** ** Concrete crater *)
Definition ex_norm (x : R * R) : R * R := x.
Definition ex_hash (t : option num) (a b : option R) (l : option (R * R)) (c d e f g h : option R) : N :=
  match t with Some (PInt _) => 1%N | Some (PFlt _) => 2%N | None => 3%N end.
Definition ex_project (v m a d : option R) (l : option (R * R)) (rho : option R) : result proj :=
  Ok (mk_proj 20000 45 90 2000 (match l with Some x => x | None => (10, 20) end)).
Definition ex_f2t (x : R) : R * string := (8, "simple"%string).
Definition ex_t2f (x : R) : R * string := (10, "simple"%string).
Definition ex_one (x : R) : R := 1.
Definition ex_str (v : value) : string := "x"%string.
Definition ex_trunc (x : R) : Z := 0%Z.
Definition ex_maker := maker ex_norm ex_hash ex_project ex_f2t ex_t2f ex_one ex_one.
Definition ex_made := made ex_norm ex_str ex_trunc ex_hash ex_project ex_f2t ex_t2f ex_one ex_one.

Definition radius_arg (r : R) (t : option num) (nm : option string) : margs :=
  mk_margs None None (Some r) None None None None None None None None None None None None None (Some (10, 20))
    None t nm None None None None None None None None None None None None None.
Definition ex_crater (t : option num) (nm : option string) : crater :=
  mk_crater (mk_fixed (ex_hash t None None None None None None None None None) (Some 10) (Some 10) (Some 90) (Some 8)
     (Some 1) (Some 20000) (Some 45) (Some (4 / 3 * PI * (1 / 2) ^ 3 * 2000)) (Some (10, 20)) (Some "simple"%string) t [])
    (mk_var (Some 10) (Some 10) (Some (mod360 90)) (Some (10, 20)) None None None None None None nm).

Ltac decide_reals := repeat match goal with
  | |- context [Rlt_dec ?a ?b] => destruct (Rlt_dec a b); [try (exfalso; lra)|try (exfalso; lra)]
  | |- context [Rle_dec ?a ?b] => destruct (Rle_dec a b); [try (exfalso; lra)|try (exfalso; lra)]
  | |- context [Rgt_dec ?a ?b] => destruct (Rgt_dec a b); [try (exfalso; lra)|try (exfalso; lra)]
  end.

Lemma ex_crater_made : forall t nm, ex_maker true None (radius_arg 10 t nm) = Ok (ex_crater t nm).
Proof.
  intros. unfold ex_maker, maker, radius_arg. cbn.
  unfold ex_one, mod360. decide_reals. cbn. unfold var_init. cbn.
  unfold set_major; cbn. decide_reals. cbn. unfold set_minor; cbn. decide_reals. cbn.
  destruct nm; reflexivity.
Qed.

Lemma ex_made_crater : forall t nm, ex_made (ex_crater t nm).
Proof. intros. eapply made_new. apply (ex_crater_made t nm). Qed.

Lemma ex_old : forall t nm, old_measured (vars (ex_crater t nm)) = (Some (10 * 2), None, None).
Proof.
  intros. rewrite (old_measured_spec _ 10 10); [|repeat split; simpl; intros; repeat match goal with H : Some _ = Some _ |- _ => injection H as <- end; lra|reflexivity|reflexivity].
  destruct (Req_EM_T 10 10); [reflexivity|congruence].
Qed.

(** ** Findings *)
Definition moon_crater : crater :=
  mk_crater (mk_fixed 0 (Some 10) (Some 10) None None None None None None None None None
     [("rim_height"%string, Some 2)]) empty_var.

Lemma subclass_silent : exists c n x,
  read_fixed n (fixed c) <> None /\ assign ex_norm ex_str ex_trunc n x c = (c, None).
Proof. exists moon_crater, "rim_height"%string, (VNum 5). split; [cbn; discriminate|reflexivity]. Qed.

Lemma radius_lost : exists v v', axes_ok v /\ set_radius (Some 3) v = Ok v' /\
  v_major v' = Some 5 /\ v_minor v' = Some 3 /\ measured_radius v' <> Some 3.
Proof.
  set (v := with_axes (Some 5) (Some 5) empty_var).
  assert (A : axes_ok v).
  { repeat split; simpl; intros; repeat match goal with H : Some _ = Some _ |- _ => injection H as <- end; lra. }
  destruct (set_radius_spec 3 v A ltac:(lra)) as (v' & E & M & m). exists v, v'. split; [exact A|]. split; [exact E|].
  cbn in M. destruct (Rlt_dec 3 5); [|lra]. split; [exact M|]. split; [exact m|].
  intro Q. pose proof (proj1 (proj1 (radius_reads_back 3 v v' A E)) Q) as Q'.
  specialize (Q' 5 eq_refl). lra.
Qed.

Definition name_arg (nm : string) : margs :=
  mk_margs None None None None None None None None None None None None None None None None None None None (Some nm)
    None None None None None None None None None None None None None.
Definition mrad_arg (r : R) : margs :=
  mk_margs None None None None None None None None None None None None None None None None None None None None
    None None None None (Some r) None None None None None None None None.
Definition vv_arg (v : R) : margs :=
  mk_margs None None None None None None None None None None None None (Some v) None None None None None None None
    None None None None None None None None None None None None None.

Ltac run_step := cbn; unfold var_init, set_diameter, set_radius, set_major, set_minor, opt_set, rbind; cbn; decide_reals.
Ltac run := unfold ex_one; do 8 (try (progress run_step)); try reflexivity.

Lemma name_lost : exists c c', ex_made c /\ measured_complete c /\
  ex_maker true (Some c) (name_arg "Tycho") = Ok c' /\ v_name (vars c') = None.
Proof.
  pose proof (ex_old None (Some "old"%string)) as O.
  eexists (ex_crater None (Some "old"%string)), _. split; [apply ex_made_crater|].
  split; [repeat split; simpl; discriminate|]. split; [|].
  - unfold ex_maker, maker, name_arg. rewrite O. cbn - [var_init].
    rewrite (var_init_axes ex_norm (10 * 2 / 2) (10 * 2 / 2)) by lra. cbn. reflexivity.
  - reflexivity.
Qed.

Lemma shrink_axes : exists c c', ex_made c /\ measured_complete c /\
  ex_maker true (Some c) (radius_arg 5 None None) = Ok c' /\
  d_radius (fixed c') = Some 5 /\ v_major (vars c') = Some 10 /\ v_minor (vars c') = Some 5.
Proof.
  pose proof (ex_old None None) as O.
  eexists (ex_crater None None), _. split; [apply ex_made_crater|].
  split; [repeat split; simpl; discriminate|]. split; [|].
  - unfold ex_maker, maker, radius_arg. rewrite O. run.
  - split; [|split]; cbn; f_equal; try lra. apply sqrt_square; lra.
Qed.

Lemma mrad_mixed : exists c c', ex_made c /\ measured_complete c /\
  ex_maker true (Some c) (mrad_arg 12) = Ok c' /\ v_major (vars c') = Some 12 /\ v_minor (vars c') = Some 10.
Proof.
  pose proof (ex_old None None) as O.
  eexists (ex_crater None None), _. split; [apply ex_made_crater|].
  split; [repeat split; simpl; discriminate|]. split; [|].
  - unfold ex_maker, maker, mrad_arg. rewrite O. run.
  - split; cbn; f_equal; lra.
Qed.

Lemma vv_loses_velocity : exists c c', ex_made c /\ measured_complete c /\
  ex_maker true (Some c) (vv_arg 15000) = Ok c' /\ f_pv (fixed c) = Some 20000 /\
  f_pv (fixed c') = None /\ d_vv (fixed c') = None.
Proof.
  pose proof (ex_old None None) as O.
  eexists (ex_crater None None), _. split; [apply ex_made_crater|].
  split; [repeat split; simpl; discriminate|]. split; [|].
  - unfold ex_maker, maker, vv_arg. rewrite O. cbn - [var_init].
    rewrite (var_init_axes ex_norm (10 * 2 / 2) (10 * 2 / 2)) by lra. cbn. reflexivity.
  - repeat split.
Qed.

Lemma cleared_reset : exists c c', ex_made c /\ v_major (vars c) = None /\ v_minor (vars c) = None /\
  ex_maker true (Some c) no_args = Ok c' /\ v_major (vars c') = Some 10.
Proof.
  set (c := fst (assign ex_norm ex_str ex_trunc "measured_radius" VNone (ex_crater None None))).
  exists c. eexists. split; [apply made_assign, ex_made_crater|]. split; [reflexivity|]. split; [reflexivity|].
  split; [|].
  - unfold ex_maker, maker, no_args. cbn - [var_init]. rewrite (var_init_axes ex_norm 10 10) by lra. cbn. reflexivity.
  - reflexivity.
Qed.

Lemma half_cleared_fails : exists c, ex_made c /\ v_major (vars c) = Some 10 /\ v_minor (vars c) = None /\
  ex_maker true (Some c) no_args = Err ValueError.
Proof.
  exists (fst (assign ex_norm ex_str ex_trunc "measured_semiminor_axis" VNone (ex_crater None None))).
  split; [apply made_assign, ex_made_crater|]. repeat split.
Qed.

Lemma reload_int_time : exists c c', ex_made c /\ measured_complete c /\
  from_xarray ex_norm ex_hash ex_project ex_f2t ex_t2f ex_one ex_one true c = Ok c' /\
  f_id (fixed c') <> f_id (fixed c).
Proof.
  pose proof (ex_old (Some (PInt 100)) None) as O.
  eexists (ex_crater (Some (PInt 100)) None), _. split; [apply ex_made_crater|].
  split; [repeat split; simpl; discriminate|]. split; [|].
  - unfold from_xarray, maker, file_args. rewrite O. cbn - [var_init].
    rewrite (var_init_axes ex_norm (10 * 2 / 2) (10 * 2 / 2)) by lra. cbn. reflexivity.
  - cbn. discriminate.
Qed.

Lemma csv_never : forall norm_loc hash project f2t t2f t2p p2t c,
  exists e, from_csv norm_loc hash project f2t t2f t2p p2t c = Err e.
Proof. intros. unfold from_csv. destruct (maker _ _ _ _ _ _ _ _ _ _); simpl; eauto. Qed.

Lemma reload_name_lost : forall norm_loc str_of trunc hash project f2t t2f t2p p2t widen c c',
  (forall x, norm_loc (norm_loc x) = norm_loc x) ->
  made norm_loc str_of trunc hash project f2t t2f t2p p2t c -> measured_complete c ->
  f_major (fixed c) <> None -> f_minor (fixed c) <> None -> f_td (fixed c) <> None ->
  (widen = false \/ forall z, f_time (fixed c) <> Some (PInt z)) ->
  from_xarray norm_loc hash project f2t t2f t2p p2t widen c = Ok c' -> v_name (vars c') = None.
Proof. intros. rewrite (reload_same norm_loc str_of trunc) in H6 by assumption. injection H6 as <-. reflexivity. Qed.
