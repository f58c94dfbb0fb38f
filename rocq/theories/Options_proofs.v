(** Proofs for C111. *)
From Coq Require Import Reals QArith Lra.
From Verif Require Import Common Conf_model Conf_spec Conf_base Conf_proofs Conf_scal Proj_model Proj_spec Proj_proofs Proj_cases Proj_wit Options_model Options_spec.
Import ListNotations.
Open Scope string_scope.

Lemma after_app {A} s (d : A) l1 : forall o l2, after s d o (l1 ++ l2)%list = after s d (after s d o l1) l2.
Proof. induction l1 as [|[x|] r IH]; intros; cbn; auto. Qed.
Lemma kept_run {A} (d : A) l : forall o, o_rec o = true ->
  o_val (after AfterBase d o l) = wanted (o_val o) l.
Proof.
  induction l as [|[x|] r IH]; intros [v b] E; cbn in E |- *; [reflexivity| |].
  - rewrite IH; reflexivity.
  - subst b. rewrite IH; reflexivity.
Qed.
Lemma kept_storing name : In name kept_options -> storing_of name = AfterBase.
Proof. intros [<-|[<-|[<-|[<-|[<-|[<-|[]]]]]]]; reflexivity. Qed.
Lemma kept : forall A name (d : A) arg l, In name kept_options -> value_after name d arg l = wanted (made_with d arg) l.
Proof. intros. unfold value_after. rewrite (kept_storing _ H), kept_run by reflexivity. reflexivity. Qed.
Lemma lost_storing name : In name lost_options -> recorded_by (storing_of name) = false.
Proof. intros [<-|[<-|[<-|[<-|[]]]]]; reflexivity. Qed.
Lemma no_resume_run {A} s (d : A) l : no_resume l -> forall o, o_val (after s d o l) = wanted (o_val o) l.
Proof.
  induction l as [|[x|] r IH]; intros N o; cbn; [reflexivity| |].
  - rewrite IH by (intros I; apply N; right; exact I). reflexivity.
  - exfalso. apply N. left. reflexivity.
Qed.
Lemma lost_unresumed : forall A name (d : A) arg l, no_resume l -> value_after name d arg l = wanted (made_with d arg) l.
Proof. intros. unfold value_after. rewrite no_resume_run by assumption. reflexivity. Qed.
Lemma lost_once : forall A name (d : A) arg l x, value_after name d arg (l ++ [Set_to x; Save_resume])%list = x.
Proof. intros. unfold value_after. rewrite after_app. cbn. unfold resumed, saved, assign_opt, build. reflexivity. Qed.
Lemma lost_exact : forall A name (d : A) arg l m, In name lost_options -> no_resume m ->
  value_after name d arg (l ++ Save_resume :: Save_resume :: m)%list = wanted d m.
Proof.
  intros A name d arg l m I N. unfold value_after. rewrite after_app. cbn [after].
  rewrite no_resume_run by exact N. unfold resumed at 1. unfold saved, resumed, build. cbn [o_rec o_val].
  rewrite (lost_storing _ I). reflexivity.
Qed.
Lemma lost_made : forall A name (d : A) arg m, In name lost_options -> no_resume m ->
  value_after name d arg (Save_resume :: m) = wanted d m.
Proof.
  intros A name d arg m I N. unfold value_after. cbn [after]. rewrite no_resume_run by exact N.
  unfold resumed, saved, build. cbn [o_rec o_val]. rewrite (lost_storing _ I). reflexivity.
Qed.
Lemma counting_lost : forall o, o_val (resumed_counting true o) = true.
Proof. reflexivity. Qed.

(* ---------- projectiles ---------- *)
Open Scope R_scope.
Section P.
Variable normalize : R * R -> result (R * R).
Lemma generic_fails : forall t d s, p_pop (sp_obj s) = Generic -> resumed_projectile normalize t d s = Err ValueError.
Proof. intros t d s E. unfold resumed_projectile, new_sim_projectile. rewrite E. reflexivity. Qed.

Lemma resumed_ok : forall pop a t d s d', pop <> Generic -> new_sim_projectile normalize (ByName pop) a t d = Ok s ->
  exists s', resumed_projectile normalize t d' s = Ok s' /\
    p_pop (sp_obj s') = pop /\ p_target (sp_obj s') = t /\ p_sample (sp_obj s') = true /\
    p_mean (sp_obj s') = p_mean (sp_obj s) /\ p_density (sp_obj s') = p_density (sp_obj s) /\ sp_density_rec s' = sp_density_rec s.
Proof.
  intros pop a t d s d' NG H. unfold new_sim_projectile in H.
  destruct (maker normalize (ByName pop) a t d) as [p|e] eqn:M; [|discriminate]. cbn in H. injection H as <-.
  assert (G := given_args normalize _ _ _ _ _ M). destruct G as (Gp & Gs & Gt & _ & _ & _ & Gd & _).
  assert (Mn := named_means normalize _ _ _ _ _ M).
  assert (AC : acceptable normalize pop a) by (apply (accepts normalize pop a t d); exists p; exact M).
  unfold resumed_projectile, new_sim_projectile. cbn [sp_obj]. rewrite Gp.
  set (a' := mkArgs true None None (saved_density (mkSP p match a_density a with Some _ => true | None => false end)) None None None).
  assert (Da : saved_density (mkSP p match a_density a with Some _ => true | None => false end) = a_density a).
  { unfold saved_density. cbn. destruct (a_density a) as [x|] eqn:E; [|reflexivity]. apply Gd. reflexivity. }
  assert (S : succeeds (maker normalize (ByName pop) a' t d')).
  { apply (accepts normalize). unfold a'. rewrite Da. unfold acceptable in AC |- *. destruct pop; [| |congruence];
    cbn in AC |- *; repeat match goal with H : _ /\ _ |- _ => destruct H end; repeat split; auto; try discriminate; try (intros; discriminate). }
  destruct S as [p' M']. rewrite M'. cbn. eexists. split; [reflexivity|]. cbn [sp_obj sp_density_rec].
  destruct (given_args normalize _ _ _ _ _ M') as (Gp' & Gs' & Gt' & _ & _ & _ & Gd' & _).
  assert (Mn' := named_means normalize _ _ _ _ _ M').
  split; [exact Gp'|]. split; [exact Gt'|]. split; [exact Gs'|]. split; [|split].
  - destruct pop; [| |congruence]; rewrite Mn, Mn'; reflexivity.
  - destruct (a_density a) as [x|] eqn:E.
    + rewrite (Gd x eq_refl). apply Gd'. unfold a'. cbn [a_density]. exact Da.
    + rewrite (density_default normalize _ _ _ _ _ M E). apply (density_default normalize _ _ _ _ _ M'). unfold a'. cbn [a_density]. exact Da.
  - rewrite Da. reflexivity.
Qed.
Lemma lookup_none k l : ~ In k (map fst l) -> lookup k l = None.
Proof.
  induction l as [|[n v] r IH]; intros N; [reflexivity|]. cbn. destruct (String.eqb_spec k n) as [->|E].
  - exfalso. apply N. left. reflexivity.
  - apply IH. intros I. apply N. right. exact I.
Qed.
Lemma uncatalogued_fails : forall t d d', uncatalogued t -> exists s,
  new_sim_projectile normalize ByDefault (mkArgs true None None None None None None) t d = Ok s /\
  resumed_projectile normalize t d' s = Err ValueError.
Proof.
  intros t d d' [A C]. unfold new_sim_projectile, maker. cbn [a_sample a_mean].
  rewrite (lookup_none _ _ A), (lookup_none _ _ C). cbn. eexists. split; [reflexivity|]. reflexivity.
Qed.
End P.

(* ---------- scaling ---------- *)
Open Scope string_scope.
Lemma scaling_same : forall t a s t' s', scal_init t a = Ok s -> resumed_scaling t' s = Ok s' -> same_parameters s s'.
Proof.
  intros t a s t' s' H H'. unfold resumed_scaling in H'.
  destruct (scal_exact _ _ _ H) as (m & _ & A & _ & B & C & D & _).
  destruct (scal_exact _ _ _ H') as (m' & M' & A' & _ & B' & C' & D' & _). cbn [saved_scaling sa_material sa_K1 sa_mu sa_Ybar] in *.
  rewrite A in M'. cbn in M'. injection M' as <-. rewrite title_idem in A', B', C', D'.
  unfold same_parameters. rewrite A', A, B', C', D'.
  repeat split.
  - destruct (s_K1 s) eqn:E; [reflexivity|]. cbn [orelse]. destruct (sa_K1 a); [discriminate|]. symmetry. exact B.
  - destruct (s_mu s) eqn:E; [reflexivity|]. cbn [orelse]. destruct (sa_mu a); [discriminate|]. symmetry. exact C.
  - destruct (s_Ybar s) eqn:E; [reflexivity|]. cbn [orelse]. destruct (sa_Ybar a); [discriminate|]. symmetry. exact D.
Qed.
Lemma scaling_density : forall t a s t' s' m q, scal_init t a = Ok s -> resumed_scaling t' s = Ok s' ->
  s_material s = Some m -> known_density m = Some q -> t_density (s_target s') = Some q.
Proof.
  intros t a s t' s' m q H H' M K. unfold resumed_scaling in H'.
  destruct (scal_exact _ _ _ H) as (m0 & _ & A & _). rewrite M in A. injection A as ->.
  destruct (scal_exact _ _ _ H') as (m' & M' & _ & D & _). cbn [saved_scaling sa_material sa_density] in *.
  rewrite M in M'. cbn in M'. injection M' as <-. rewrite title_idem, K in D. exact D.
Qed.
Definition user_args : scal_args := {| sa_material := Some "Soft Rock"; sa_K1 := None; sa_mu := Some (1#2)%Q; sa_Ybar := None; sa_density := Some 3000%Q |}.

Lemma counting_made : forall b, o_val (build_counting (Some b)) = b /\ saved (build_counting (Some b)) = Some b /\
  o_val (build_counting None) = true.
Proof. intros b. repeat split. Qed.
