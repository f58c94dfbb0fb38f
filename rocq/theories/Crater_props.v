(** Properties of crater objects (C24, C25, C26, C52). *)
From Coq Require Import Reals NArith Lra.
From Verif Require Import Common Crater_model Crater_spec Crater_proofs.
Open Scope R_scope.

(** No sequence of assignments, whatever the names and values, changes the fixed part of a crater. *)
Theorem C24_fixed_attributes_never_change_partial : forall norm_loc str_of trunc l c,
  fixed (assigns norm_loc str_of trunc l c) = fixed c.
Proof. exact assigns_fixed. Qed.
Print Assumptions C24_fixed_attributes_never_change_partial.

Example unchanged_read : forall l, read_fixed "diameter"
  (fixed (assigns ex_norm ex_str ex_trunc l (ex_crater None None))) = Some (RNum (Some (sqrt (10 * 10) * 2))).
Proof. intro l. rewrite C24_fixed_attributes_never_change_partial. reflexivity. Qed.

(** An assignment to one of the attributes every crater has is rejected and the crater is unchanged. *)
Theorem C24_fixed_assignment_rejected_partial : forall norm_loc str_of trunc n x c, In n base_fixed_names ->
  assign norm_loc str_of trunc n x c = (c, Some AttributeError).
Proof. exact fixed_assign_rejected. Qed.
Print Assumptions C24_fixed_assignment_rejected_partial.

Example rejected_names : In "diameter"%string base_fixed_names /\ In "location"%string base_fixed_names /\
  In "time"%string base_fixed_names /\ In "projectile_velocity"%string base_fixed_names.
Proof. simpl. tauto. Qed.

(** An intrinsic attribute added by a morphology model (rim_height) is not protected: the assignment is silently dropped. *)
Theorem C24_subclass_attribute_not_rejected_refuted : exists c n x,
  read_fixed n (fixed c) <> None /\ assign ex_norm ex_str ex_trunc n x c = (c, None).
Proof. exact subclass_silent. Qed.
Print Assumptions C24_subclass_attribute_not_rejected_refuted.

(** After any sequence of assignments the measured axes that are set are positive and ordered. *)
Theorem C25_axes_ordered_after_any_assignments : forall norm_loc str_of trunc l c, axes_ok (vars c) ->
  axes_ok (vars (assigns norm_loc str_of trunc l c)).
Proof. exact assigns_axes. Qed.
Print Assumptions C25_axes_ordered_after_any_assignments.

Example axes_start : axes_ok (vars (ex_crater None None)).
Proof. repeat split; simpl; intros; repeat match goal with H : Some _ = Some _ |- _ => injection H as <- end; lra. Qed.

(** Every crater that maker calls and assignments produce has positive ordered measured axes. *)
Theorem C25_made_craters_have_ordered_axes : forall norm_loc str_of trunc hash project f2t t2f t2p p2t,
  (forall x, norm_loc (norm_loc x) = norm_loc x) ->
  forall c, made norm_loc str_of trunc hash project f2t t2f t2p p2t c -> axes_ok (vars c).
Proof. exact made_axes. Qed.
Print Assumptions C25_made_craters_have_ordered_axes.

Example made_met : ex_made (ex_crater None None).
Proof. apply ex_made_crater. Qed.

(** A non-positive measured size is rejected by all four setters. *)
Theorem C25_nonpositive_rejected : forall r v, r <= 0 ->
  set_major (Some r) v = Err ValueError /\ set_minor (Some r) v = Err ValueError /\
  set_radius (Some r) v = Err ValueError /\ set_diameter (Some r) v = Err ValueError.
Proof. exact nonpositive_rejected. Qed.
Print Assumptions C25_nonpositive_rejected.

(** An assignment that raises leaves the crater as it was. *)
Theorem C25_failed_assignment_has_no_effect : forall norm_loc str_of trunc n x c c' e,
  assign norm_loc str_of trunc n x c = (c', Some e) -> c' = c.
Proof. exact failed_assign_no_effect. Qed.
Print Assumptions C25_failed_assignment_has_no_effect.

Example failing : assign ex_norm ex_str ex_trunc "measured_radius" (VStr "wide") (ex_crater None None) =
  (ex_crater None None, Some TypeError).
Proof. reflexivity. Qed.

(** A measured radius just assigned reads back exactly when it is not below the previous semi-minor axis. *)
Theorem C25_radius_reads_back_partial : forall r v v', axes_ok v -> set_radius (Some r) v = Ok v' ->
  (measured_radius v' = Some r <-> forall m, v_minor v = Some m -> m <= r) /\
  (measured_diameter v' = Some (r * 2) <-> forall m, v_minor v = Some m -> m <= r).
Proof. exact radius_reads_back. Qed.
Print Assumptions C25_radius_reads_back_partial.

(** The axes after a measured radius is assigned. *)
Theorem C25_radius_axes_partial : forall r v, axes_ok v -> 0 < r ->
  exists v', set_radius (Some r) v = Ok v' /\
    v_major v' = Some (match v_minor v with Some m => if Rlt_dec r m then m else r | None => r end) /\
    v_minor v' = Some r.
Proof. exact set_radius_spec. Qed.
Print Assumptions C25_radius_axes_partial.

(** Assigning a smaller measured radius gives an ellipse with the old semi-minor axis as its long axis. *)
Theorem C25_smaller_radius_lost_refuted : exists v v', axes_ok v /\ set_radius (Some 3) v = Ok v' /\
  v_major v' = Some 5 /\ v_minor v' = Some 3 /\ measured_radius v' <> Some 3.
Proof. exact radius_lost. Qed.
Print Assumptions C25_smaller_radius_lost_refuted.

(** Copying a crater whose measured properties are all set gives an equal crater: every attribute, id and name. Craters with cleared measured values are excluded (see below). *)
Theorem C26_copy_preserves_everything_partial : forall norm_loc str_of trunc hash project f2t t2f t2p p2t,
  (forall x, norm_loc (norm_loc x) = norm_loc x) ->
  forall chk c, made norm_loc str_of trunc hash project f2t t2f t2p p2t c -> measured_complete c ->
  maker norm_loc hash project f2t t2f t2p p2t chk (Some c) no_args = Ok c.
Proof. exact copy_same. Qed.
Print Assumptions C26_copy_preserves_everything_partial.

Example copy_met : ex_made (ex_crater (Some (PInt 100)) (Some "Tycho"%string)) /\
  measured_complete (ex_crater (Some (PInt 100)) (Some "Tycho"%string)).
Proof. split; [apply ex_made_crater|repeat split; simpl; discriminate]. Qed.

(** Arguments other than sizes, name, density, mean and vertical velocity: what is given overrides, what is not is copied. *)
Theorem C26_plain_arguments_override_partial : forall norm_loc str_of trunc hash project f2t t2f t2p p2t,
  (forall x, norm_loc (norm_loc x) = norm_loc x) ->
  forall chk c p c', made norm_loc str_of trunc hash project f2t t2f t2p p2t c -> measured_complete c -> plain_override p ->
  maker norm_loc hash project f2t t2f t2p p2t chk (Some c) p = Ok c' ->
  fixed c' = mk_fixed (hash_of hash (fixed c')) (f_major (fixed c)) (f_minor (fixed c))
     (orelse (orelse (p_orient p) (p_pdir p)) (f_orient (fixed c))) (f_td (fixed c)) (f_pd (fixed c))
     (orelse (p_v p) (f_pv (fixed c))) (orelse (p_ang p) (f_pang (fixed c))) (f_pm (fixed c))
     (orelse (orelse (p_loc p) (p_ploc p)) (f_loc (fixed c))) (f_mt (fixed c)) (orelse (p_time p) (f_time (fixed c))) [] /\
  vars c' = mk_var (v_major (vars c)) (v_minor (vars c)) (orelse (option_map mod360 (p_morient p)) (v_orient (vars c)))
     (orelse (option_map norm_loc (p_mloc p)) (v_loc (vars c))) (orelse (p_rim p) (v_rim (vars c)))
     (orelse (p_floor p) (v_floor (vars c))) (orelse (p_deg p) (v_deg (vars c)))
     (orelse (p_ptime p) (v_ptime (vars c))) (orelse (p_pND p) (v_pND (vars c))) (orelse (p_pseq p) (v_pseq (vars c)))
     (v_name (vars c)).
Proof. exact copy_override. Qed.
Print Assumptions C26_plain_arguments_override_partial.

Example override_met : plain_override (mk_margs None None None None None None None None None None (Some 17000) None None
  (Some 30) None None (Some (1, 2)) None (Some (PInt 5)) None None None None None None (Some 400) None None None None None None None).
Proof. repeat split. Qed.

(** An explicit name given to a copy is lost. *)
Theorem C26_name_lost_on_copy_refuted : exists c c', ex_made c /\ measured_complete c /\
  ex_maker true (Some c) (name_arg "Tycho") = Ok c' /\ v_name (vars c') = None.
Proof. exact name_lost. Qed.
Print Assumptions C26_name_lost_on_copy_refuted.

(** A copy with a smaller radius keeps the old radius as its measured semi-major axis. *)
Theorem C26_shrinking_copy_measured_refuted : exists c c', ex_made c /\ measured_complete c /\
  ex_maker true (Some c) (radius_arg 5 None None) = Ok c' /\
  d_radius (fixed c') = Some 5 /\ v_major (vars c') = Some 10 /\ v_minor (vars c') = Some 5.
Proof. exact shrink_axes. Qed.
Print Assumptions C26_shrinking_copy_measured_refuted.

(** An explicit measured radius given to a copy replaces one of the two axes only. *)
Theorem C26_measured_radius_mixed_refuted : exists c c', ex_made c /\ measured_complete c /\
  ex_maker true (Some c) (mrad_arg 12) = Ok c' /\ v_major (vars c') = Some 12 /\ v_minor (vars c') = Some 10.
Proof. exact mrad_mixed. Qed.
Print Assumptions C26_measured_radius_mixed_refuted.

(** An explicit vertical velocity given to a copy is not used, and the velocity is lost. *)
Theorem C26_vertical_velocity_erases_velocity_refuted : exists c c', ex_made c /\ measured_complete c /\
  ex_maker true (Some c) (vv_arg 15000) = Ok c' /\ f_pv (fixed c) = Some 20000 /\
  f_pv (fixed c') = None /\ d_vv (fixed c') = None.
Proof. exact vv_loses_velocity. Qed.
Print Assumptions C26_vertical_velocity_erases_velocity_refuted.

(** Cleared measured axes come back, with the fixed values, in a copy. *)
Theorem C26_cleared_measurement_reset_refuted : exists c c', ex_made c /\ v_major (vars c) = None /\ v_minor (vars c) = None /\
  ex_maker true (Some c) no_args = Ok c' /\ v_major (vars c') = Some 10.
Proof. exact cleared_reset. Qed.
Print Assumptions C26_cleared_measurement_reset_refuted.

(** A crater with one measured axis cleared cannot be copied. *)
Theorem C26_half_cleared_copy_fails_refuted : exists c, ex_made c /\ v_major (vars c) = Some 10 /\ v_minor (vars c) = None /\
  ex_maker true (Some c) no_args = Err ValueError.
Proof. exact half_cleared_fails. Qed.
Print Assumptions C26_half_cleared_copy_fails_refuted.

(** A crater saved in a dataset and read back is the same crater, id included, except that its name is gone. The time must not be an integer that the file turns into a float. *)
Theorem C52_saved_craters_read_back_partial : forall norm_loc str_of trunc hash project f2t t2f t2p p2t,
  (forall x, norm_loc (norm_loc x) = norm_loc x) ->
  forall widen c, made norm_loc str_of trunc hash project f2t t2f t2p p2t c -> measured_complete c ->
  f_major (fixed c) <> None -> f_minor (fixed c) <> None -> f_td (fixed c) <> None ->
  (widen = false \/ forall z, f_time (fixed c) <> Some (PInt z)) ->
  from_xarray norm_loc hash project f2t t2f t2p p2t widen c = Ok (mk_crater (fixed c) (with_name None (vars c))).
Proof. exact reload_same. Qed.
Print Assumptions C52_saved_craters_read_back_partial.

Example reload_met : let c := ex_crater (Some (PFlt 3.5)) (Some "Tycho"%string) in ex_made c /\ measured_complete c /\
  f_major (fixed c) <> None /\ f_minor (fixed c) <> None /\ f_td (fixed c) <> None /\
  forall z, f_time (fixed c) <> Some (PInt z).
Proof. split; [apply ex_made_crater|repeat split; simpl; discriminate]. Qed.

(** A crater with an integer time saved beside one with a fractional time gets another id when read back (for an id hash that distinguishes the printed forms). *)
Theorem C52_integer_time_changes_id_refuted : exists c c', ex_made c /\ measured_complete c /\
  from_xarray ex_norm ex_hash ex_project ex_f2t ex_t2f ex_one ex_one true c = Ok c' /\
  f_id (fixed c') <> f_id (fixed c).
Proof. exact reload_int_time. Qed.
Print Assumptions C52_integer_time_changes_id_refuted.

(** Reading back a CSV file written from craters never succeeds. *)
Theorem C52_csv_reload_always_fails_refuted : forall norm_loc hash project f2t t2f t2p p2t c,
  exists e, from_csv norm_loc hash project f2t t2f t2p p2t c = Err e.
Proof. exact csv_never. Qed.
Print Assumptions C52_csv_reload_always_fails_refuted.
