From Coq Require Import Reals List String Bool Lra.
From Verif Require Import Common Proj_model Proj_spec Proj_proofs.
Import ListNotations.
Open Scope R_scope.

(** The catalogues as functions. *)
Lemma lookup_in : forall t k v, NoDup (map fst t) -> In (k, v) t -> lookup k t = Some v.
Proof.
  induction t as [|[n x] t IH]; intros k v ND H; cbn in *. contradiction.
  inversion ND; subst. destruct H as [H|H].
  - inversion H; subst. rewrite String.eqb_refl. reflexivity.
  - destruct (k =? n)%string eqn:E. apply String.eqb_eq in E; subst.
    exfalso. apply H2. apply (in_map fst) in H. exact H. auto.
Qed.
Lemma lookup_none : forall t k, ~ In k (map fst t) -> lookup k t = None.
Proof.
  induction t as [|[n x] t IH]; intros k H; cbn in *; auto.
  destruct (k =? n)%string eqn:E. apply String.eqb_eq in E; subst; exfalso; auto. apply IH; tauto.
Qed.
Lemma lookup_some : forall t k, In k (map fst t) -> exists v, lookup k t = Some v.
Proof.
  induction t as [|[n x] t IH]; intros k H; cbn in *. contradiction.
  destruct (k =? n)%string eqn:E; eauto. apply IH. destruct H; auto. subst. rewrite String.eqb_refl in E. discriminate.
Qed.

Fixpoint distinct (l : list string) : bool :=
  match l with [] => true | x :: l => negb (existsb (String.eqb x) l) && distinct l end.
Lemma distinct_nodup : forall l, distinct l = true -> NoDup l.
Proof.
  induction l as [|x l IH]; cbn; intro H; constructor; apply andb_prop in H as [H1 H2]; auto.
  intro I. apply negb_true_iff in H1. assert (existsb (String.eqb x) l = true).
  { apply existsb_exists. exists x; split; auto. apply String.eqb_refl. } congruence.
Qed.
Lemma asteroid_nodup : NoDup (map fst asteroid_table).
Proof. apply distinct_nodup. reflexivity. Qed.
Lemma comet_nodup : NoDup (map fst comet_table).
Proof. apply distinct_nodup. reflexivity. Qed.

Lemma catalogue : forall t,
  (forall v, In (b_name t, v) asteroid_table -> asteroid_mean t = v) /\
  (~ In (b_name t) (map fst asteroid_table) -> In ("Moon"%string, asteroid_mean t) asteroid_table) /\
  (forall v, In (b_name t, v) comet_table -> comet_mean t = v) /\
  (~ In (b_name t) (map fst comet_table) -> In ("KBO"%string, comet_mean t) comet_table).
Proof.
  intro t. unfold asteroid_mean, comet_mean. split; [|split; [|split]].
  - intros v H. rewrite (lookup_in _ _ _ asteroid_nodup H). reflexivity.
  - intros H. rewrite (lookup_none _ _ H). right; right; right; left; reflexivity.
  - intros v H. rewrite (lookup_in _ _ _ comet_nodup H). reflexivity.
  - intros H. rewrite (lookup_none _ _ H). apply (in_app_iff (firstn 54 comet_table) [("KBO"%string, 1800)]). right; left; reflexivity.
Qed.

Section P.
Variable normalize : R * R -> result (R * R).

Lemma by_default : forall a t d,
  (In (b_name t) (map fst asteroid_table) -> maker normalize ByDefault a t d = maker normalize (ByName Asteroids) a t d) /\
  (~ In (b_name t) (map fst asteroid_table) -> In (b_name t) (map fst comet_table) ->
     maker normalize ByDefault a t d = maker normalize (ByName Comets) a t d) /\
  (~ In (b_name t) (map fst asteroid_table) -> ~ In (b_name t) (map fst comet_table) ->
     forall p, maker normalize ByDefault a t d = Ok p ->
       p_pop p = Generic /\ (p_mean p = a_mean a \/ (a_mean a = None /\ p_mean p = Some 20000))).
Proof.
  intros a t d. split; [|split].
  - intro H. destruct (lookup_some _ _ H) as [v E]. unfold maker. rewrite E. reflexivity.
  - intros H H'. destruct (lookup_some _ _ H') as [v E]. unfold maker. rewrite (lookup_none _ _ H), E. reflexivity.
  - intros H H' p E. set (a' := mkArgs (a_sample a) (or_else (a_mean a) 20000) (a_velocity a) (a_density a) (a_angle a) (a_direction a) (a_location a)).
    assert (E1 : maker normalize (ByName Generic) a' t d = Ok p).
    { unfold maker in E. rewrite (lookup_none _ _ H), (lookup_none _ _ H') in E. exact E. }
    apply made_values in E1 as (A1 & _ & _ & A3 & _). split; auto. rewrite A3. cbn.
    destruct (a_mean a); cbn; auto.
Qed.

(** Copies. *)
Lemma copy_generic : forall p, p_pop p = Generic -> complete p -> (p_sample p = true -> given (p_mean p)) -> copy p = Ok p.
Proof.
  intros [pop s m v de an di lo t] E ((v' & Ev & _) & (a' & Ea & _) & (d' & Ed & _) & (e' & Ee & _) & (l' & El)) M.
  cbn in *. subst. unfold copy; cbn. unfold base_init; cbn. destruct s; cbn; auto.
  destruct M as [m' ->]; auto.
Qed.
Lemma copy_catalogue : forall p, p_pop p <> Generic -> complete p ->
  exists m, m = (match p_pop p with Asteroids => asteroid_mean (p_target p) | _ => comet_mean (p_target p) end) /\
  copy p = Ok (with_mean (Some m) (with_velocity (Some m) p)).
Proof.
  intros [pop s m v de an di lo t] E ((v' & Ev & _) & (a' & Ea & _) & (d' & Ed & _) & (e' & Ee & _) & (l' & El)).
  cbn -[asteroid_mean comet_mean] in *. subst. eexists; split; [reflexivity|]. unfold copy, with_mean, with_velocity, init. cbn -[asteroid_mean comet_mean base_init].
  generalize (asteroid_mean t) (comet_mean t). intros ma mc.
  destruct pop; [| |congruence]; unfold base_init; destruct s; reflexivity.
Qed.

Lemma asteroid_mean_pos : forall t, 0 <= asteroid_mean t.
Proof.
  intro t. unfold asteroid_mean. cbn.
  repeat match goal with |- context [if ?b then _ else _] => destruct b; [lra|] end. lra.
Qed.
Lemma lookup_pos : forall t k v, Forall (fun x => 0 <= snd x) t -> lookup k t = Some v -> 0 <= v.
Proof.
  induction t as [|[n x] t IH]; intros k v F H; cbn in *. discriminate.
  inversion F; subst. destruct (k =? n)%string; eauto. injection H as <-. assumption.
Qed.
Lemma comet_mean_pos : forall t, 0 <= comet_mean t.
Proof.
  intro t. unfold comet_mean. destruct (lookup (b_name t) comet_table) eqn:E; [|lra].
  apply (lookup_pos comet_table (b_name t)); [|exact E]. unfold comet_table. repeat (constructor; [cbn; lra|]). constructor.
Qed.

Lemma copy_complete : forall p q, complete p -> copy p = Ok q -> complete q.
Proof.
  intros p q C H. destruct (p_pop p) eqn:E.
  - destruct (copy_catalogue p) as (m & Em & Hc); [congruence|assumption|]. rewrite Hc in H. injection H as <-.
    rewrite E in Em. destruct C as (_ & C). split; [|exact C]. exists m; split; [reflexivity|]. subst m; apply asteroid_mean_pos.
  - destruct (copy_catalogue p) as (m & Em & Hc); [congruence|assumption|]. rewrite Hc in H. injection H as <-.
    rewrite E in Em. destruct C as (_ & C). split; [|exact C]. exists m; split; [reflexivity|]. subst m; apply comet_mean_pos.
  - rewrite copy_eq in H. apply init_inv in H. subst q. rewrite E.
    destruct C as ((v' & Ev & ?) & (a' & Ea & ?) & (d' & Ed & ?) & (e' & Ee & ?) & (l' & El)).
    unfold complete, given; cbn. rewrite Ev, Ea, Ed, Ee, El. cbn. repeat split; eauto.
Qed.

Lemma assign_complete : forall o x r, 0 <= x -> assign non_negative o (Some x) = Ok r -> exists v, r = Some v /\ 0 <= v.
Proof.
  intros [y|] x r P H; apply assign_nn in H as [A B].
  - destruct (A y eq_refl) as [-> ?]. eauto.
  - rewrite (B eq_refl). eauto.
Qed.
Lemma assign_given : forall o x r, assign normalize o (Some x) = Ok r -> given r.
Proof.
  intros [y|] x r H; apply assign_inv in H as [A B].
  - destruct (A y eq_refl) as [z [? ->]]. eexists; eauto.
  - rewrite (B eq_refl). eexists; eauto.
Qed.

(** new_projectile of q, its own copy, whatever the attributes of q that it fills. *)
Lemma new_complete : forall a d p p' q, possible d -> copy p = Ok q -> new_projectile normalize a d p = Ok p' ->
  (p_sample q = true -> given (p_mean q)) -> (exists v, p_density q = Some v /\ (a_density a = None -> 0 <= v)) ->
  (p_sample q = false -> exists v, p_velocity q = Some v /\ (a_velocity a = None -> 0 <= v)) ->
  (p_sample q = false -> forall v, p_angle q = Some v -> a_angle a = None -> 0 <= v) ->
  (p_sample q = false -> forall v, p_direction q = Some v -> a_direction a = None -> 0 <= v) ->
  complete p'.
Proof.
  intros a d p p' q (P1 & P2 & P3) C N M D V A B.
  destruct (new_inv _ _ _ _ _ N) as (q' & C' & _ & _ & _ & _ & H1 & H2 & H3 & H4 & H5).
  rewrite C in C'. injection C' as <-.
  assert (Dflt : forall o x r, (o = None -> 0 <= x) -> assign non_negative o (Some x) = Ok r -> exists v, r = Some v /\ 0 <= v).
  { intros [y|] x r P E; apply assign_nn in E as [Q1 Q2]. destruct (Q1 y eq_refl) as [-> ?]; eauto. rewrite (Q2 eq_refl); eauto. }
  split; [|split; [|split; [|split]]].
  - destruct (p_sample q) eqn:S0.
    + destruct (M eq_refl) as [m Em]. rewrite Em in H1. eapply Dflt; [|exact H1]. auto.
    + destruct (V eq_refl) as (v & Ev & Pv). rewrite Ev in H1. eapply Dflt; [|exact H1]. auto.
  - destruct (p_sample q) eqn:S0.
    + eapply Dflt; [|exact H2]; auto.
    + specialize (A eq_refl). destruct (p_angle q) as [x|]; cbn in H2; eapply Dflt; [|exact H2| |exact H2]; eauto. intros; lra.
  - destruct (p_sample q) eqn:S0.
    + eapply Dflt; [|exact H3]; auto.
    + specialize (B eq_refl). destruct (p_direction q) as [x|]; cbn in H3; eapply Dflt; [|exact H3| |exact H3]; eauto. intros; lra.
  - destruct D as (v & Ev & Pv). rewrite Ev in H5. eapply Dflt; [|exact H5]; auto.
  - destruct (p_sample q). eapply assign_given; exact H4.
    destruct (p_location q); cbn in H4; eapply assign_given; exact H4.
Qed.

Lemma made_complete : forall pop a t d p, possible d -> maker normalize (ByName pop) a t d = Ok p -> complete p.
Proof.
  intros pop a t d p P H. assert (Acc : succeeds (maker normalize (ByName pop) a t d)) by (eexists; eauto).
  apply accepts in Acc as [Acc (L1 & L2 & L3 & L4 & _)].
  destruct (made _ _ _ _ _ _ H) as (q & I & C & N). apply init_inv in I.
  eapply new_complete; eauto.
  - intro S0. subst q; cbn in *. rewrite S0 in Acc. destruct pop; cbn; try (eexists; reflexivity). exact Acc.
  - subst q; cbn. destruct (a_density a); cbn; eexists; (split; [reflexivity|]); intro; try discriminate. destruct pop; cbn; lra.
  - intro S0. subst q; cbn in *. rewrite S0 in Acc. destruct pop; cbn.
    + exists (asteroid_mean t); split; auto. intro; apply asteroid_mean_pos.
    + exists (comet_mean t); split; auto. intro; apply comet_mean_pos.
    + destruct Acc as [v Ev]. exists v; split; auto.
  - intros S0 v Ev E. subst q; cbn in *. rewrite E in Ev. destruct pop; cbn in Ev; inversion Ev; lra.
  - intros S0 v Ev E. subst q; cbn in *. rewrite E in Ev. destruct pop; cbn in Ev; inversion Ev; lra.
Qed.

Lemma renew_complete : forall p a d p', complete p -> possible d -> new_projectile normalize a d p = Ok p' -> complete p'.
Proof.
  intros p a d p' C P N. destruct (new_inv _ _ _ _ _ N) as (q & Cq & _).
  pose proof (copy_complete _ _ C Cq) as (C1 & C2 & C3 & C4 & C5).
  eapply new_complete; eauto.
  - intro S0. rewrite copy_eq in Cq. assert (X : succeeds (init (p_pop p)
  (mkArgs (p_sample p) (match p_pop p with Generic => p_mean p | _ => None end)
     (match p_pop p with Generic => p_velocity p | _ => None end) (p_density p) (p_angle p) (p_direction p) (p_location p)) (p_target p)))
     by (eexists; eauto). apply init_ok in X. apply init_inv in Cq. subst q; cbn in *. rewrite S0 in X.
    destruct (p_pop p); cbn; try (eexists; reflexivity). exact X.
  - destruct C4 as (v & E & ?). eauto.
  - intros _. destruct C1 as (v & E & ?). eauto.
  - intros _ v E _. destruct C2 as (v' & E' & ?). congruence.
  - intros _ v E _. destruct C3 as (v' & E' & ?). congruence.
Qed.

Lemma reachable_complete : forall p, reachable normalize p -> complete p.
Proof.
  induction 1 as [w a t d p W P H|p a t d p' Hp IH P H|p a d p' Hp IH P H|p p' Hp IH H|p s p' Hp IH H].
  - destruct w as [|pop|q]; [|eapply made_complete; eauto|exfalso; eapply W; reflexivity].
    unfold maker in H.
    destruct (is_none (lookup (b_name t) asteroid_table)); cbn [negb] in H; [destruct (is_none (lookup (b_name t) comet_table)); cbn [negb] in H|].
    + eapply (made_complete Generic _ t d); [assumption|exact H].
    + eapply (made_complete Comets a t d); [assumption|exact H].
    + eapply (made_complete Asteroids a t d); [assumption|exact H].
  - cbn in H. destruct (_ && _) in H. injection H as <-; assumption. eapply renew_complete; eauto.
  - eapply renew_complete; eauto.
  - eapply copy_complete; eauto.
  - destruct IH as (C1 & C2 & C3 & C4 & C5).
    destruct s; cbn in H;
      try (injection H as <-; repeat split; assumption);
      try (destruct (non_negative v) as [y|] eqn:E; [|discriminate]; cbn in H; injection H as <-; apply nn_ok in E as [-> ?]; repeat split; cbn; eauto).
    destruct (normalize l) as [y|] eqn:E; [|discriminate]; cbn in H; injection H as <-. repeat split; cbn; eauto. eexists; reflexivity.
Qed.

Lemma vertical : forall p v a, p_velocity p = Some v -> p_angle p = Some a -> 0 <= v -> 0 <= a <= 90 ->
  exists w, vertical_velocity p = Some w /\ 0 <= w <= v.
Proof.
  intros p v a Ev Ea Pv [A0 A1]. unfold vertical_velocity. rewrite Ev, Ea. eexists; split; [reflexivity|].
  pose proof PI_RGT_0.
  assert (X0 : 0 <= a * (PI / 180)) by (apply Rmult_le_pos; lra).
  assert (X1 : a * (PI / 180) <= PI / 2).
  { replace (PI / 2) with (90 * (PI / 180)) by field. apply Rmult_le_compat_r; lra. }
  pose proof (sin_ge_0 (a * (PI / 180)) X0 ltac:(lra)). pose proof (SIN_bound (a * (PI / 180))) as [_ ?].
  split. apply Rmult_le_pos; assumption. rewrite <- (Rmult_1_r v) at 2. apply Rmult_le_compat_l; assumption.
Qed.
End P.

(** What the maker does with an existing projectile and new impact values. *)
Lemma object_given : forall normalize p a t d p', maker normalize (ByObject p) a t d = Ok p' ->
  (forall v, a_velocity a = Some v -> p_velocity p' = Some v) /\
  (forall v, a_angle a = Some v -> p_angle p' = Some v) /\
  (forall v, a_direction a = Some v -> p_direction p' = Some v) /\
  (forall v, a_density a = Some v -> p_density p' = Some v) /\
  (forall l, a_location a = Some l -> exists l', normalize l = Ok l' /\ p_location p' = Some l').
Proof.
  intros normalize p a t d p' H. cbn in H.
  destruct (is_none (a_velocity a) && is_none (a_angle a) && is_none (a_direction a) && is_none (a_location a) && is_none (a_density a)) eqn:E.
  - destruct a as [s m [v|] [de|] [an|] [di|] [lo|]]; cbn in E; try discriminate. cbn. repeat split; intros; discriminate.
  - destruct (new_inv _ _ _ _ _ H) as (q & _ & _ & _ & _ & _ & H1 & H2 & H3 & H4 & H5).
    apply assign_nn in H1 as [V1 _]. apply assign_nn in H2 as [B1 _]. apply assign_nn in H3 as [D1 _].
    apply assign_inv in H4 as [L1 _]. apply assign_nn in H5 as [E1 _].
    split; [intros x X; apply (V1 x X)|]. split; [intros x X; apply (B1 x X)|]. split; [intros x X; apply (D1 x X)|].
    split; [intros x X; apply (E1 x X)|]. intros l X. destruct (L1 l X) as [y [? ?]]. eauto.
Qed.
