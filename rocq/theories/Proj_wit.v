From Coq Require Import Reals List String Bool Lra.
From Verif Require Import Common Proj_model Proj_spec Proj_proofs Proj_cases.
Import ListNotations.
Open Scope R_scope.

Definition ok_location (l : R * R) : result (R * R) := Ok l.
Definition some_draws : draws := mkDraws (fun m _ => m) 45 10 (20, 30).
Lemma some_possible : (forall m e, 0 <= m -> 0 <= d_velocity some_draws m e) /\ 0 <= d_angle some_draws /\ 0 <= d_direction some_draws.
Proof. cbn. repeat split; intros; lra. Qed.
Definition const_draws : draws := mkDraws (fun _ _ => 15000) 45 10 (20, 30).
Lemma const_possible : possible const_draws.
Proof. unfold possible; cbn. repeat split; intros; lra. Qed.

Section P.
Variable normalize : R * R -> result (R * R).

Lemma named_means : forall pop a t d p, maker normalize (ByName pop) a t d = Ok p ->
  match pop with
  | Asteroids => p_mean p = Some (asteroid_mean t)
  | Comets => p_mean p = Some (comet_mean t)
  | Generic => p_mean p = a_mean a
  end.
Proof. intros pop a t d p H. apply made_values in H as (_ & _ & _ & M & _). rewrite M. destruct pop; reflexivity. Qed.

Lemma mean_catalogue : forall pop a t d p, maker normalize (ByName pop) a t d = Ok p ->
  (pop = Asteroids ->
     (forall v, In (b_name t, v) asteroid_table -> p_mean p = Some v) /\
     (~ In (b_name t) (map fst asteroid_table) -> exists v, In ("Moon"%string, v) asteroid_table /\ p_mean p = Some v)) /\
  (pop = Comets ->
     (forall v, In (b_name t, v) comet_table -> p_mean p = Some v) /\
     (~ In (b_name t) (map fst comet_table) -> exists v, In ("KBO"%string, v) comet_table /\ p_mean p = Some v)) /\
  (pop = Generic -> p_mean p = a_mean a).
Proof.
  intros pop a t d p H. apply named_means in H. destruct (catalogue t) as (C1 & C2 & C3 & C4).
  split; [|split]; intro E; subst pop; cbn -[asteroid_mean comet_mean asteroid_table comet_table] in H; [split|split|exact H].
  - intros v I. rewrite H, (C1 v I). reflexivity.
  - intro I. eexists; split; [apply C2, I|exact H].
  - intros v I. rewrite H, (C3 v I). reflexivity.
  - intro I. eexists; split; [apply C4, I|exact H].
Qed.

Lemma given_args : forall pop a t d p, maker normalize (ByName pop) a t d = Ok p ->
  p_pop p = pop /\ p_sample p = a_sample a /\ p_target p = t /\
  (forall v, a_velocity a = Some v -> p_velocity p = Some v) /\
  (forall v, a_angle a = Some v -> p_angle p = Some v) /\
  (forall v, a_direction a = Some v -> p_direction p = Some v) /\
  (forall v, a_density a = Some v -> p_density p = Some v) /\
  (forall l, a_location a = Some l -> exists l', normalize l = Ok l' /\ p_location p = Some l').
Proof.
  intros pop a t d p H. apply made_values in H as (A1 & A2 & A3 & _ & D & V & A & B & L & _).
  split; [exact A1|]. split; [exact A2|]. split; [exact A3|]. split; [exact V|]. split; [exact A|]. split; [exact B|].
  split; [|exact L]. intros v E. rewrite E in D. exact D.
Qed.

Lemma sampled : forall pop a t d p, maker normalize (ByName pop) a t d = Ok p -> a_sample a = true ->
  (a_velocity a = None -> exists m, p_mean p = Some m /\ p_velocity p = Some (d_velocity d m (b_escape t))) /\
  (a_angle a = None -> p_angle p = Some (d_angle d)) /\
  (a_direction a = None -> p_direction p = Some (d_direction d)) /\
  (a_location a = None -> p_location p = Some (d_location d)).
Proof.
  intros pop a t d p H S0. apply made_values in H as (_ & _ & _ & M & _ & _ & _ & _ & _ & X & _).
  rewrite M. exact (X S0).
Qed.

Lemma fixed : forall pop a t d p, maker normalize (ByName pop) a t d = Ok p -> a_sample a = false ->
  (a_velocity a = None -> pop <> Generic /\ p_velocity p = p_mean p /\ given (p_velocity p)) /\
  (a_angle a = None -> pop = Generic /\ p_angle p = Some 90) /\
  (a_direction a = None -> pop = Generic /\ p_direction p = Some 0) /\
  (a_location a = None -> pop = Generic /\ p_location p = Some (0, 0)).
Proof.
  intros pop a t d p H S0. assert (Acc : succeeds (maker normalize (ByName pop) a t d)) by (eexists; eauto).
  apply accepts in Acc as [Acc _]. apply made_values in H as (_ & _ & _ & M & _ & _ & _ & _ & _ & _ & X).
  destruct (X S0) as (X1 & X2 & X3 & X4). rewrite S0 in Acc. unfold given in Acc.
  split; [|split; [|split]]; intro E.
  - split; [|rewrite M; auto]. intros ->. destruct Acc as [v Ev]. congruence.
  - split; auto. destruct pop; auto; destruct Acc as ((x & Ex) & _); congruence.
  - split; auto. destruct pop; auto; destruct Acc as (_ & (x & Ex) & _); congruence.
  - split; auto. destruct pop; auto; destruct Acc as (_ & _ & (x & Ex)); congruence.
Qed.

Lemma density_default : forall pop a t d p, maker normalize (ByName pop) a t d = Ok p -> a_density a = None ->
  p_density p = Some (match pop with Asteroids => 2250 | Comets => 500 | Generic => 1000 end).
Proof. intros pop a t d p H E. apply made_values in H as (_ & _ & _ & _ & D & _). rewrite E in D. exact D. Qed.

Lemma renewed : forall p a d p', complete p -> new_projectile normalize a d p = Ok p' ->
  p_pop p' = p_pop p /\ p_sample p' = p_sample p /\ p_target p' = p_target p /\
  (a_density a = None -> p_density p' = p_density p) /\
  (p_sample p = true -> a_angle a = None -> a_direction a = None -> a_location a = None ->
     p_angle p' = Some (d_angle d) /\ p_direction p' = Some (d_direction d) /\ p_location p' = Some (d_location d)) /\
  (p_sample p = true -> a_velocity a = None -> exists m, p_mean p' = Some m /\ p_velocity p' = Some (d_velocity d m (b_escape (p_target p)))) /\
  (p_sample p = false -> a_angle a = None -> a_direction a = None -> a_location a = None ->
     p_angle p' = p_angle p /\ p_direction p' = p_direction p /\ p_location p' = p_location p) /\
  (p_sample p = false -> a_velocity a = None -> p_velocity p' = if (match p_pop p with Generic => true | _ => false end) then p_velocity p else p_mean p').
Proof.
  intros p a d p' C N. destruct (new_inv _ _ _ _ _ N) as (q & Cq & A1 & A2 & A3 & A4 & H1 & H2 & H3 & H4 & H5).
  assert (S1 : succeeds (copy p)) by (eexists; eauto). rewrite copy_eq in S1. apply init_ok in S1.
  rewrite copy_eq in Cq. apply init_inv in Cq.
  destruct C as ((v' & Ev & _) & (a' & Ea & _) & (d' & Ed & _) & (e' & Ee & _) & (l' & El)).
  assert (Q1 : p_sample q = p_sample p) by (subst q; reflexivity).
  assert (Q3 : p_target q = p_target p) by (subst q; reflexivity).
  assert (Q4 : p_pop q = p_pop p) by (subst q; reflexivity).
  assert (Q5 : p_density q = p_density p) by (subst q; cbn; rewrite Ee; reflexivity).
  assert (Q6 : p_angle q = p_angle p) by (subst q; cbn; rewrite Ea; destruct (p_pop p); reflexivity).
  assert (Q7 : p_direction q = p_direction p) by (subst q; cbn; rewrite Ed; destruct (p_pop p); reflexivity).
  assert (Q8 : p_location q = p_location p) by (subst q; cbn; rewrite El; destruct (p_pop p); reflexivity).
  assert (Q9 : p_velocity q = if (match p_pop p with Generic => true | _ => false end) then p_velocity p else p_mean q)
    by (subst q; cbn; destruct (p_pop p); reflexivity).
  assert (Q10 : p_sample p = true -> given (p_mean q)).
  { intro S0. cbn in S1. rewrite S0 in S1. subst q; cbn. destruct (p_pop p); cbn; try (eexists; reflexivity). exact S1. }
  rewrite Q1, Q3 in *.
  apply assign_nn in H1 as [_ V]. apply assign_nn in H2 as [_ B]. apply assign_nn in H3 as [_ D].
  apply assign_inv in H4 as [_ L]. apply assign_nn in H5 as [_ E].
  split; [congruence|]. split; [congruence|]. split; [congruence|]. split; [intro; rewrite E; auto|].
  split; [|split; [|split]].
  - intros S0 Na Nd Nl. rewrite S0 in *. auto.
  - intros S0 Nv. destruct (Q10 S0) as [m Em]. exists m. split; [congruence|]. rewrite (V Nv), S0, Em. reflexivity.
  - intros S0 Na Nd Nl. rewrite S0 in *. rewrite (B Na), (D Nd), (L Nl), Q6, Q7, Q8, Ea, Ed, El. repeat split.
  - intros S0 Nv. rewrite (V Nv), S0, A3, Q9. destruct (p_pop p); try reflexivity. destruct (p_mean q); reflexivity.
    destruct (p_mean q); reflexivity. rewrite Ev. reflexivity.
Qed.
End P.

Definition hit : projectile :=
  mkProjectile Asteroids false (Some 22100) (Some 5000) (Some 2250) (Some 30) (Some 0) (Some (0, 0)) the_moon.
Lemma hit_reachable : reachable ok_location hit.
Proof.
  apply (R_made ok_location (ByName Asteroids) (mkArgs false None (Some 5000) None (Some 30) (Some 0) (Some (0, 0))) the_moon const_draws).
  - discriminate.
  - exact const_possible.
  - cbn. unfold new_projectile; cbn. unfold non_negative.
    repeat match goal with |- context [Rlt_dec ?x 0] => destruct (Rlt_dec x 0); [lra|cbn] end. reflexivity.
Qed.
Lemma copy_lost : exists p q, reachable ok_location p /\ copy p = Ok q /\ p_velocity p = Some 5000 /\ p_velocity q = Some 22100.
Proof.
  exists hit. eexists. split; [exact hit_reachable|]. split; [lazy; reflexivity|]. split; reflexivity.
Qed.

Lemma defaults_missing : forall normalize t d m,
  maker normalize (ByName Asteroids) (no_args false) t d = Err ValueError /\
  maker normalize (ByName Comets) (no_args false) t d = Err ValueError /\
  maker normalize (ByName Generic) (no_args true) t d = Err ValueError /\
  maker normalize (ByName Generic) (mkArgs false (Some m) None None None None None) t d = Err ValueError.
Proof. intros. repeat split; reflexivity. Qed.

Lemma mean_ignored : forall normalize t d m p,
  maker normalize (ByName Asteroids) (mkArgs true (Some m) None None None None None) t d = Ok p ->
  p_mean p = Some (asteroid_mean t).
Proof. intros normalize t d m p H. apply named_means in H. exact H. Qed.
Lemma mean_ignored_ex : exists p,
  maker ok_location (ByName Asteroids) (mkArgs true (Some 15000) None None None None None) the_moon some_draws = Ok p /\
  p_mean p = Some 22100.
Proof. eexists. split; [lazy; reflexivity|reflexivity]. Qed.

Lemma object_as_is : forall normalize p s m t d,
  maker normalize (ByObject p) (mkArgs s m None None None None None) t d = Ok p.
Proof. reflexivity. Qed.

Lemma target_stale : exists p q, reachable ok_location p /\ set ok_location (SetTarget mars) p = Ok q /\
  p_target q = mars /\ p_mean q = Some 22100 /\ In ("Mars"%string, 10700) asteroid_table.
Proof.
  exists hit. eexists. split; [exact hit_reachable|]. split; [reflexivity|]. repeat split. cbn. tauto.
Qed.
Lemma scaling_moon : forall normalize d d', exists p,
  scaling_projectile normalize the_moon (ByName Asteroids) mars d d' = Ok p /\
  p_mean p = Some 22100 /\ p_target p = the_moon.
Proof.
  intros. eexists. split; [lazy; reflexivity|]. split; reflexivity.
Qed.
Lemma scaling_ok : forall normalize moon t d d' p, 
  (scaling_projectile normalize moon ByDefault t d d' = Ok p -> maker normalize ByDefault (no_args true) t d = Ok p) /\
  (forall q, scaling_projectile normalize moon (ByObject q) t d d' = Ok p -> p = q).
Proof.
  intros. split.
  - unfold scaling_projectile. change (mkArgs true None None None None None None) with (no_args true).
    destruct (maker normalize ByDefault (no_args true) t d); cbn [rbind]; congruence.
  - intros q H. cbn in H. congruence.
Qed.

Lemma vertical_negative : exists p w, reachable ok_location p /\ p_velocity p = Some 5000 /\
  vertical_velocity p = Some w /\ w < 0.
Proof.
  exists (with_angle (Some 270) hit). eexists. split.
  - eapply (R_set ok_location hit (SetAngle 270)); [exact hit_reachable|]. cbn. unfold non_negative.
    destruct (Rlt_dec 270 0); [lra|]. reflexivity.
  - split; [reflexivity|]. split; [reflexivity|].
    replace (270 * (PI / 180)) with (3 * (PI / 2)) by field. rewrite sin_3PI2. lra.
Qed.
