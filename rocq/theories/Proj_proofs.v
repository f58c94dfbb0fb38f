From Coq Require Import Reals List String Bool Lra.
From Verif Require Import Common Proj_model Proj_spec.
Import ListNotations.
Open Scope R_scope.

Section P.
Variable normalize : R * R -> result (R * R).

Lemma nn_ok : forall x y, non_negative x = Ok y -> y = x /\ 0 <= x.
Proof. intros x y; unfold non_negative; destruct (Rlt_dec x 0); intro H; inversion H; subst; split; auto; lra. Qed.
Lemma nn_of : forall x, 0 <= x -> non_negative x = Ok x.
Proof. intros x H; unfold non_negative; destruct (Rlt_dec x 0); auto; lra. Qed.

(** What new_projectile does to a copy q. *)
Lemma new_inv : forall a d p p', new_projectile normalize a d p = Ok p' ->
  exists q, copy p = Ok q /\
    p_pop p' = p_pop q /\ p_sample p' = p_sample q /\ p_mean p' = p_mean q /\ p_target p' = p_target q /\
    assign non_negative (a_velocity a)
           (if p_sample q then match p_mean q with Some m => Some (d_velocity d m (b_escape (p_target q))) | None => None end
            else match p_velocity q with None => p_mean q | Some v => Some v end) = Ok (p_velocity p') /\
    assign non_negative (a_angle a) (if p_sample q then Some (d_angle d) else or_else (p_angle q) 90) = Ok (p_angle p') /\
    assign non_negative (a_direction a) (if p_sample q then Some (d_direction d) else or_else (p_direction q) 0) = Ok (p_direction p') /\
    assign normalize (a_location a) (if p_sample q then Some (d_location d) else or_else (p_location q) (0, 0)) = Ok (p_location p') /\
    assign non_negative (a_density a) (p_density q) = Ok (p_density p').
Proof.
  intros a d p p' H. unfold new_projectile in H.
  destruct (copy p) as [q|] eqn:E; [|discriminate]. exists q. cbn [rbind] in H.
  destruct (assign non_negative (a_velocity a) _) as [v|] eqn:E1 in H; [|discriminate]; cbn [rbind] in H.
  destruct (assign non_negative (a_angle a) _) as [an|] eqn:E2 in H; [|discriminate]; cbn [rbind] in H.
  destruct (assign non_negative (a_direction a) _) as [di|] eqn:E3 in H; [|discriminate]; cbn [rbind] in H.
  destruct (assign normalize (a_location a) _) as [lo|] eqn:E4 in H; [|discriminate]; cbn [rbind] in H.
  destruct (assign non_negative (a_density a) _) as [de|] eqn:E5 in H; [|discriminate]; cbn [rbind] in H.
  inversion H; subst p'; cbn.
  repeat split; assumption.
Qed.

Lemma assign_ok {A B} : forall (f : A -> result B) o d, (forall x, o = Some x -> succeeds (f x)) ->
  succeeds (assign f o d).
Proof.
  intros f [x|] d H; cbn. destruct (H x eq_refl) as [y E]; rewrite E; eexists; eauto. eexists; eauto.
Qed.
Lemma assign_inv {A B} : forall (f : A -> result B) o d r, assign f o d = Ok r ->
  (forall x, o = Some x -> exists y, f x = Ok y /\ r = Some y) /\ (o = None -> r = d).
Proof.
  intros f [x|] d r H; cbn in H; split; intros; try discriminate.
  - injection H0 as <-. destruct (f x) eqn:E; inversion H; eauto.
  - inversion H; auto.
Qed.
Lemma assign_nn : forall o d r, assign non_negative o d = Ok r ->
  (forall x, o = Some x -> r = Some x /\ 0 <= x) /\ (o = None -> r = d).
Proof.
  intros o d r H. destruct (assign_inv _ _ _ _ H) as [A B]. split; auto.
  intros x E. destruct (A x E) as [y [E1 E2]]. apply nn_ok in E1 as [-> ?]. auto.
Qed.

Lemma new_ok : forall a d p q, copy p = Ok q ->
  allowed (a_velocity a) -> allowed (a_angle a) -> allowed (a_direction a) -> allowed (a_density a) ->
  (forall l, a_location a = Some l -> succeeds (normalize l)) ->
  succeeds (new_projectile normalize a d p).
Proof.
  intros a d p q E H1 H2 H3 H4 H5. unfold new_projectile. rewrite E; cbn [rbind].
  assert (N : forall o, allowed o -> forall x, o = Some x -> succeeds (non_negative x)).
  { intros o H x Ex. rewrite (nn_of x (H x Ex)). eexists; eauto. }
  match goal with |- context [assign non_negative (a_velocity a) ?D] =>
    destruct (assign_ok non_negative (a_velocity a) D (N _ H1)) as [v ->] end; cbn [rbind].
  match goal with |- context [assign non_negative (a_angle a) ?D] =>
    destruct (assign_ok non_negative (a_angle a) D (N _ H2)) as [v2 ->] end; cbn [rbind].
  match goal with |- context [assign non_negative (a_direction a) ?D] =>
    destruct (assign_ok non_negative (a_direction a) D (N _ H3)) as [v3 ->] end; cbn [rbind].
  match goal with |- context [assign normalize (a_location a) ?D] =>
    destruct (assign_ok normalize (a_location a) D H5) as [v4 ->] end; cbn [rbind].
  match goal with |- context [assign non_negative (a_density a) ?D] =>
    destruct (assign_ok non_negative (a_density a) D (N _ H4)) as [v5 ->] end; cbn [rbind].
  eexists; reflexivity.
Qed.

Lemma new_allowed : forall a d p p', new_projectile normalize a d p = Ok p' ->
  allowed (a_velocity a) /\ allowed (a_angle a) /\ allowed (a_direction a) /\ allowed (a_density a) /\
  (forall l, a_location a = Some l -> succeeds (normalize l)).
Proof.
  intros a d p p' H. destruct (new_inv _ _ _ _ H) as (q & _ & _ & _ & _ & _ & H1 & H2 & H3 & H4 & H5).
  repeat split.
  - intros x E. apply (proj1 (assign_nn _ _ _ H1) x E).
  - intros x E. apply (proj1 (assign_nn _ _ _ H2) x E).
  - intros x E. apply (proj1 (assign_nn _ _ _ H3) x E).
  - intros x E. apply (proj1 (assign_nn _ _ _ H5) x E).
  - intros l E. destruct (proj1 (assign_inv _ _ _ _ H4) l E) as [y [E1 _]]. eexists; eauto.
Qed.

(** The constructors. *)
Definition default_density pop := match pop with Asteroids => 2250 | Comets => 500 | Generic => 1000 end.
Definition mean_of pop (a : args) (t : body) : option R :=
  match pop with Asteroids => Some (asteroid_mean t) | Comets => Some (comet_mean t) | Generic => a_mean a end.
Definition velocity_of pop (a : args) (t : body) : option R :=
  match pop with Asteroids => Some (asteroid_mean t) | Comets => Some (comet_mean t) | Generic => a_velocity a end.
Definition fill {A} pop (o : option A) (x : A) : option A := match pop with Generic => or_else o x | _ => o end.

Lemma init_inv : forall pop a t p, init pop a t = Ok p ->
  p = mkProjectile pop (a_sample a) (mean_of pop a t) (velocity_of pop a t)
        (or_else (a_density a) (default_density pop)) (fill pop (a_angle a) 90) (fill pop (a_direction a) 0)
        (fill pop (a_location a) (0, 0)) t.
Proof.
  intros pop a t p H. destruct pop; cbn in H; unfold base_init in H; cbn in H;
    repeat match type of H with (if ?b then _ else _) = _ => destruct b; try discriminate end;
    inversion H; reflexivity.
Qed.

Lemma init_ok : forall pop a t, succeeds (init pop a t) <->
  match pop, a_sample a with
  | Generic, true => given (a_mean a)
  | Generic, false => given (a_velocity a)
  | _, true => True
  | _, false => given (a_angle a) /\ given (a_direction a) /\ given (a_location a)
  end.
Proof.
  intros pop [s m v de an di lo] t. unfold succeeds, given.
  destruct pop, s; cbn; unfold base_init; cbn; split;
    repeat match goal with o : option _ |- _ => destruct o; cbn end;
    intro H; repeat match goal with H : exists _, _ |- _ => destruct H | H : _ /\ _ |- _ => destruct H end;
    try discriminate; repeat split; eauto.
Qed.

Lemma copy_eq : forall p, copy p = init (p_pop p)
  (mkArgs (p_sample p) (match p_pop p with Generic => p_mean p | _ => None end)
     (match p_pop p with Generic => p_velocity p | _ => None end) (p_density p) (p_angle p) (p_direction p) (p_location p)) (p_target p).
Proof. intros [[] ]; reflexivity. Qed.

(** A copy of a projectile that has been constructed succeeds. *)
Lemma copy_init : forall pop a t p, init pop a t = Ok p -> copy p = Ok p.
Proof.
  intros pop a t p H. pose proof (init_inv _ _ _ _ H) as E.
  assert (S0 : succeeds (init pop a t)) by (eexists; eauto). apply init_ok in S0.
  assert (S1 : succeeds (copy p)).
  { rewrite copy_eq. apply init_ok. subst p; cbn [p_pop p_sample p_mean p_velocity p_angle p_direction p_location a_sample a_mean a_velocity a_angle a_direction a_location].
    destruct pop, (a_sample a); cbn; auto. }
  destruct S1 as [q Eq]. rewrite Eq. rewrite copy_eq in Eq. apply init_inv in Eq. subst p q. f_equal.
  destruct a as [s m v de an di lo]; cbn. destruct pop; cbn; destruct de, an, di, lo; reflexivity.
Qed.

Lemma made : forall pop a t d p, maker normalize (ByName pop) a t d = Ok p ->
  exists q, init pop a t = Ok q /\ copy q = Ok q /\ new_projectile normalize a d q = Ok p.
Proof.
  intros pop a t d p H. cbn in H. destruct (init pop a t) as [q|] eqn:E; [|discriminate].
  exists q; split; auto. split; [eapply copy_init; eauto|exact H].
Qed.

Lemma accepts : forall pop a t d,
  succeeds (maker normalize (ByName pop) a t d) <-> acceptable normalize pop a.
Proof.
  intros pop a t d; split.
  - intros [p H]. destruct (made _ _ _ _ _ H) as (q & I & _ & N). split.
    + apply (init_ok pop a t). eexists; eauto.
    + eapply new_allowed; eauto.
  - intros [I (H1 & H2 & H3 & H4 & H5)]. apply (init_ok pop a t) in I as [q I].
    cbn. rewrite I. cbn [rbind]. eapply new_ok; eauto. eapply copy_init; eauto.
Qed.

(** All the attributes of a projectile made by name. *)
Lemma made_values : forall pop a t d p, maker normalize (ByName pop) a t d = Ok p ->
  p_pop p = pop /\ p_sample p = a_sample a /\ p_target p = t /\ p_mean p = mean_of pop a t /\
  p_density p = Some (match a_density a with Some x => x | None => default_density pop end) /\
  (forall x, a_velocity a = Some x -> p_velocity p = Some x) /\
  (forall x, a_angle a = Some x -> p_angle p = Some x) /\
  (forall x, a_direction a = Some x -> p_direction p = Some x) /\
  (forall l, a_location a = Some l -> exists l', normalize l = Ok l' /\ p_location p = Some l') /\
  (a_sample a = true ->
     (a_velocity a = None -> exists m, mean_of pop a t = Some m /\ p_velocity p = Some (d_velocity d m (b_escape t))) /\
     (a_angle a = None -> p_angle p = Some (d_angle d)) /\
     (a_direction a = None -> p_direction p = Some (d_direction d)) /\
     (a_location a = None -> p_location p = Some (d_location d))) /\
  (a_sample a = false ->
     (a_velocity a = None -> p_velocity p = mean_of pop a t /\ given (p_velocity p)) /\
     (a_angle a = None -> p_angle p = Some 90) /\
     (a_direction a = None -> p_direction p = Some 0) /\
     (a_location a = None -> p_location p = Some (0, 0))).
Proof.
  intros pop a t d p H. assert (Acc : succeeds (maker normalize (ByName pop) a t d)) by (eexists; eauto).
  apply accepts in Acc as [Acc _].
  destruct (made _ _ _ _ _ H) as (q & I & C & N).
  destruct (new_inv _ _ _ _ N) as (q' & C' & A1 & A2 & A3 & A4 & H1 & H2 & H3 & H4 & H5).
  rewrite C in C'. injection C' as <-. apply init_inv in I.
  assert (Q1 : p_sample q = a_sample a) by (subst q; reflexivity).
  assert (Q2 : p_mean q = mean_of pop a t) by (subst q; reflexivity).
  assert (Q3 : p_target q = t) by (subst q; reflexivity).
  rewrite Q1, Q2, Q3 in *.
  apply assign_nn in H1 as [V1 V2]. apply assign_nn in H2 as [B1 B2]. apply assign_nn in H3 as [D1 D2].
  apply assign_inv in H4 as [L1 L2]. apply assign_nn in H5 as [E1 E2].
  split; [rewrite A1; subst q; reflexivity|]. split; [assumption|]. split; [assumption|]. split; [assumption|].
  split. { destruct (a_density a) as [x|] eqn:E. apply (E1 x eq_refl). rewrite (E2 eq_refl). subst q; reflexivity. }
  split; [intros x E; apply (V1 x E)|]. split; [intros x E; apply (B1 x E)|]. split; [intros x E; apply (D1 x E)|].
  split; [intros l E; destruct (L1 l E) as [y [? ?]]; eauto|].
  split; intro S0; rewrite S0 in *.
  - split; [|split; [auto|split; auto]].
    intro E. rewrite (V2 E). destruct pop; cbn in *; eauto.
    destruct Acc as [m Em]. rewrite Em. eauto.
  - split; [|split; [|split]]; intro E.
    + rewrite (V2 E). subst q; cbn. destruct pop; cbn in *; try (split; [reflexivity|eexists; reflexivity]).
      destruct Acc as [v Ev]. rewrite Ev in E. discriminate.
    + rewrite (B2 E). subst q; cbn. rewrite E. destruct pop; reflexivity.
    + rewrite (D2 E). subst q; cbn. rewrite E. destruct pop; reflexivity.
    + rewrite (L2 E). subst q; cbn. rewrite E. destruct pop; reflexivity.
Qed.
End P.
