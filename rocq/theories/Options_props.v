(** C111: what a resumed Simulation knows of the options of its components. *)
From Coq Require Import Reals QArith Lra.
From Verif Require Import Common Conf_model Conf_spec Proj_model Proj_spec Proj_wit Options_model Options_spec Options_proofs.
Import ListNotations.
Open Scope string_scope.

(** do_subpixel_degradation, do_slope_collapse, gridlevel, pix, local_radius and local_location have, after any
    sequence of assignments, savings and resumptions, the value that was assigned last, or else the one
    that the Simulation was made with. *)
Theorem C111_kept : forall A name (d : A) arg l, In name kept_options -> value_after name d arg l = wanted (made_with d arg) l.
Proof. exact kept. Qed.
Print Assumptions C111_kept.
Example C111_kept_ex : In "gridlevel" kept_options /\
  value_after "gridlevel" 8 (Some 6) [Save_resume; Save_resume; Set_to 7; Save_resume] = 7 /\ value_after "gridlevel" 8 (Some 6) [Save_resume; Save_resume] = 6.
Proof. split; [simpl; auto|split; reflexivity]. Qed.

(** Before the first resumption every option has the value that was assigned last, or else the one given. *)
Theorem C111_unresumed_partial : forall A name (d : A) arg l, no_resume l -> value_after name d arg l = wanted (made_with d arg) l.
Proof. exact lost_unresumed. Qed.
Print Assumptions C111_unresumed_partial.
Example C111_unresumed_ex : no_resume [Set_to true] /\ value_after "dorays" false (Some true) [] = true.
Proof. split; [intros [E|[]]; discriminate|reflexivity]. Qed.

(** A value that was assigned survives the next resumption. *)
Theorem C111_once_partial : forall A name (d : A) arg l x, value_after name d arg (l ++ [Set_to x; Save_resume])%list = x.
Proof. exact lost_once. Qed.
Print Assumptions C111_once_partial.
Example C111_once_ex : value_after "dorays" false None [Set_to true; Save_resume] = true.
Proof. reflexivity. Qed.

(** Property refuted: ejecta_truncation, dorays, monte_carlo_scaling and sample given to the Simulation are lost
    when it is resumed: it goes on with their defaults. *)
Theorem C111_given_refuted : forall A name (d : A) arg m, In name lost_options -> no_resume m ->
  value_after name d arg (Save_resume :: m) = wanted d m.
Proof. exact lost_made. Qed.
Print Assumptions C111_given_refuted.
Example C111_given_refuted_ex : In "ejecta_truncation" lost_options /\ value_after "ejecta_truncation" None (Some (Some 4)) [Save_resume] = None.
Proof. split; [simpl; auto|reflexivity]. Qed.

(** Property refuted: even when they are assigned, the same options are lost at the second resumption, whatever was
    done before. *)
Theorem C111_twice_refuted : forall A name (d : A) arg l m, In name lost_options -> no_resume m ->
  value_after name d arg (l ++ Save_resume :: Save_resume :: m)%list = wanted d m.
Proof. exact lost_exact. Qed.
Print Assumptions C111_twice_refuted.
Example C111_twice_refuted_ex : value_after "sample" true None [Set_to false; Save_resume; Save_resume] = true /\
  value_after "sample" true None [Set_to false; Save_resume] = false.
Proof. split; reflexivity. Qed.

(** Property refuted: a Simulation in which counting was switched off counts craters when it is resumed without
    the argument do_counting. *)
Theorem C111_counting_refuted : forall o, o_val (resumed_counting true o) = true.
Proof. exact counting_lost. Qed.
Print Assumptions C111_counting_refuted.
Example C111_counting_refuted_ex : o_val (build_counting (Some false)) = false /\ saved (build_counting (Some false)) = Some false.
Proof. split; reflexivity. Qed.

(** A Simulation counts craters as it is told to, by default it does, and this is saved. *)
Theorem C111_counting : forall b, o_val (build_counting (Some b)) = b /\ saved (build_counting (Some b)) = Some b /\
  o_val (build_counting None) = true.
Proof. exact counting_made. Qed.
Print Assumptions C111_counting.
Example C111_counting_ex : o_val (build_counting (Some false)) = false. Proof. reflexivity. Qed.

(** The projectiles of a Simulation made with asteroids or comets have, when it is resumed, the same population, mean
    velocity and density. *)
Theorem C111_projectile_partial : forall normalize pop a t d s d', pop <> Generic ->
  new_sim_projectile normalize (ByName pop) a t d = Ok s ->
  exists s', resumed_projectile normalize t d' s = Ok s' /\
    p_pop (sp_obj s') = pop /\ p_target (sp_obj s') = t /\ p_sample (sp_obj s') = true /\
    p_mean (sp_obj s') = p_mean (sp_obj s) /\ p_density (sp_obj s') = p_density (sp_obj s) /\ sp_density_rec s' = sp_density_rec s.
Proof. exact resumed_ok. Qed.
Print Assumptions C111_projectile_partial.
Example C111_projectile_ex : exists s, new_sim_projectile ok_location (ByName Comets) (mkArgs true None None (Some 700%R) None None None) (mkBody "Moon" 2380) some_draws = Ok s /\
  saved_density s = Some 700%R.
Proof.
  unfold new_sim_projectile. cbn. unfold new_projectile; cbn. unfold non_negative.
  repeat match goal with |- context [Rlt_dec ?x 0] => destruct (Rlt_dec x 0); [lra|cbn] end. eexists; split; reflexivity.
Qed.

(** Property refuted: a Simulation with generic projectiles cannot be resumed: its mean velocity is not saved. *)
Theorem C111_generic_refuted : forall normalize t d s, p_pop (sp_obj s) = Generic -> resumed_projectile normalize t d s = Err ValueError.
Proof. exact generic_fails. Qed.
Print Assumptions C111_generic_refuted.
Example C111_generic_refuted_ex : exists s, new_sim_projectile ok_location (ByName Generic) (mkArgs true (Some 15000%R) None None None None None) (mkBody "Mars" 5000) some_draws = Ok s
  /\ p_pop (sp_obj s) = Generic.
Proof.
  unfold new_sim_projectile. cbn. unfold new_projectile; cbn. eexists; split; reflexivity.
Qed.

(** Property refuted: a Simulation of a body for which there is no catalogue of velocities, made with no argument but
    the body, cannot be resumed. *)
Theorem C111_uncatalogued_refuted : forall normalize t d d', uncatalogued t -> exists s,
  new_sim_projectile normalize ByDefault (mkArgs true None None None None None None) t d = Ok s /\
  resumed_projectile normalize t d' s = Err ValueError.
Proof. exact uncatalogued_fails. Qed.
Print Assumptions C111_uncatalogued_refuted.
Example C111_uncatalogued_refuted_ex : uncatalogued (mkBody "Phobos" 11) /\ uncatalogued (mkBody "Arrokoth" 3).
Proof. split; split; intros I; repeat (destruct I as [I|I]; [discriminate|]); exact I. Qed.

(** The material, K1, mu and Ybar of the scaling of a resumed Simulation are those of the saved one. *)
Theorem C111_scaling : forall t a s t' s', scal_init t a = Ok s -> resumed_scaling t' s = Ok s' -> same_parameters s s'.
Proof. exact scaling_same. Qed.
Print Assumptions C111_scaling.
Example C111_scaling_ex : exists s s', scal_init target0 user_args = Ok s /\ resumed_scaling (s_target s) s = Ok s' /\ s_mu s' = Some (1#2)%Q.
Proof. eexists. eexists. split; [vm_compute; reflexivity|]. split; [vm_compute; reflexivity|]. reflexivity. Qed.

(** Property refuted: the density of the target that was given with the Simulation becomes, at the first resumption,
    the density of the catalogue for its material. *)
Theorem C111_density_refuted : forall t a s t' s' m q, scal_init t a = Ok s -> resumed_scaling t' s = Ok s' ->
  s_material s = Some m -> known_density m = Some q -> t_density (s_target s') = Some q.
Proof. exact scaling_density. Qed.
Print Assumptions C111_density_refuted.
Example C111_density_refuted_ex : exists s s', scal_init target0 user_args = Ok s /\ resumed_scaling (s_target s) s = Ok s' /\
  t_density (s_target s) = Some 3000%Q /\ s_material s = Some "Soft Rock" /\ t_density (s_target s') <> Some 3000%Q.
Proof. eexists. eexists. split; [vm_compute; reflexivity|]. split; [vm_compute; reflexivity|]. repeat split. discriminate. Qed.
