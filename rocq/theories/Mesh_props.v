(** C34-C37: diffusion, slope collapse and node interpolation on a mesh. *)
From Coq Require Import Reals Lra Lia List ZArith.
From Verif Require Import Common RSum Trig_model Mesh_model Mesh_spec Mesh_proofs.
Import ListNotations.
Open Scope R_scope.

(** C34: the elevation change returned by the diffusion solver carries no net volume. *)
Theorem C34_diffusion_conserves_volume : forall rg kappa h,
  sensible rg -> volume rg (apply_diffusion kappa h rg) = 0.
Proof. exact (fun rg kappa h => diffusion_volume rg kappa h). Qed.
Print Assumptions C34_diffusion_conserves_volume.
Example C34_case : sensible tri_row.
Proof. exact tri_row_sensible. Qed.

(** C34 at the Python entry point: when the call returns, volume is unchanged. *)
Theorem C34_api_conserves_volume : forall rg kdiff elev ejecta elev' ejecta' lo hi,
  sensible rg -> py_apply_diffusion kdiff rg elev ejecta = Ok (elev', ejecta') ->
  within rg lo hi elev ->
  volume rg elev' = volume rg elev /\ within rg lo hi elev'.
Proof. exact py_diffusion_props. Qed.
Print Assumptions C34_api_conserves_volume.
Example C34_api_case : within tri_row 0 5 step_height.
Proof. exact tri_row_within. Qed.

(** The call fails exactly when some diffusivity is negative. *)
Theorem C34_api_rejects_iff : forall rg kdiff elev ejecta,
  py_apply_diffusion kdiff rg elev ejecta = Err ValueError <->
  exists f, (f < n_face rg)%nat /\ kdiff f < 0.
Proof. exact py_diffusion_err. Qed.
Print Assumptions C34_api_rejects_iff.

(** C35: no new extrema, for every bound on the old elevations. *)
Theorem C35_no_new_extrema : forall rg kappa h lo hi,
  sensible rg -> nonneg_on rg kappa -> within rg lo hi h ->
  within rg lo hi (fun f => h f + apply_diffusion kappa h rg f).
Proof. exact diffusion_within. Qed.
Print Assumptions C35_no_new_extrema.

Theorem C35_flat_unchanged : forall rg kappa h c,
  sensible rg -> nonneg_on rg kappa ->
  (forall f, (f < n_face rg)%nat -> h f = c) ->
  forall f, (f < n_face rg)%nat -> apply_diffusion kappa h rg f = 0.
Proof. exact diffusion_flat. Qed.
Print Assumptions C35_flat_unchanged.

(** The solver is the documented finite-volume scheme: some number n > 0 of
    explicit steps of length 1/n, total pseudo-time one. *)
Theorem C35_is_finite_volume_scheme : forall rg kappa h,
  sensible rg -> nonneg_on rg kappa ->
  exists n : nat, (0 < n)%nat /\
   forall f, (f < n_face rg)%nat ->
     h f + apply_diffusion kappa h rg f = Nat.iter n (fv_step (1 / INR n) kappa rg) h f.
Proof. exact diffusion_is_fv. Qed.
Print Assumptions C35_is_finite_volume_scheme.

(** It really smooths: relief never grows, and strictly falls as soon as two
    neighbours with a positive diffusivity differ. *)
Theorem C35_relief_decreases : forall rg kappa h,
  sensible rg -> nonneg_on rg kappa ->
  energy rg (fun f => h f + apply_diffusion kappa h rg f) <= energy rg h /\
  (forall e a b, In e (edges rg) -> joins rg e a b -> 0 < e_len e ->
     0 < kappa a + kappa b -> h a <> h b ->
     energy rg (fun f => h f + apply_diffusion kappa h rg f) < energy rg h).
Proof. exact diffusion_energy. Qed.
Print Assumptions C35_relief_decreases.
Example C35_case : sensible tri_row /\ nonneg_on tri_row (fun _ => 1) /\
  within tri_row 0 5 step_height /\
  energy tri_row (fun f => step_height f + apply_diffusion (fun _ => 1) step_height tri_row f)
    < energy tri_row step_height.
Proof.
  refine (conj tri_row_sensible (conj (ones_nonneg tri_row) (conj tri_row_within _))).
  refine (proj2 (diffusion_energy tri_row _ _ tri_row_sensible (ones_nonneg tri_row))
            (mk_edge 0 1 1 1) 0%nat 1%nat _ tri_row_joins _ _ _); simpl; try lra.
  left; reflexivity.
Qed.

(** C36: slope collapse, for every iteration limit (1000 in the source).
    It always returns; volume and extrema are respected; relief does not grow;
    and if it stopped before the limit then [compute_slope], in degrees, is at
    most the critical angle everywhere.  (The claim is conditional too: nothing
    guarantees that the loop stops before its limit.) *)
Theorem C36_slope_collapse : forall limit rg angle h lo hi,
  sensible rg -> 0 < angle < 90 -> within rg lo hi h ->
  exists stopped delta,
    slope_collapse_deg limit angle rg h = Ok (stopped, delta) /\
    volume rg delta = 0 /\
    within rg lo hi (fun f => h f + delta f) /\
    energy rg (fun f => h f + delta f) <= energy rg h /\
    (stopped = true -> forall f, (f < n_face rg)%nat ->
       compute_slope_deg rg (fun i => h i + delta i) f <= angle).
Proof.
  exact (fun limit rg angle h lo hi Hs Ha Hw =>
    match collapse_ok limit rg (tan (to_radians angle)) h Hs (tan_deg_neq angle Ha) with
    | ex_intro _ b (ex_intro _ out E) =>
      match collapse_inv limit rg _ h b out lo hi Hs Hw E with
      | conj A (conj B (conj C D)) =>
        ex_intro _ b (ex_intro _ out (conj E (conj A (conj B (conj C
          (fun Hb f Hf => proj1 (slope_deg_le rg _ f angle Ha) (D Hb f Hf)))))))
      end
    end).
Qed.
Print Assumptions C36_slope_collapse.
Example C36_case : sensible tri_row /\ 0 < 35 < 90 /\ within tri_row 0 5 step_height.
Proof. split; [exact tri_row_sensible|]. split; [lra|exact tri_row_within]. Qed.

(** A surface with no slope above the critical angle is left alone. *)
Theorem C36_gentle_surface_unchanged : forall limit rg angle h,
  sensible rg -> (0 < limit)%nat -> 0 < angle < 90 ->
  (forall f, (f < n_face rg)%nat -> compute_slope_deg rg h f <= angle) ->
  exists stopped delta,
    slope_collapse_deg limit angle rg h = Ok (stopped, delta) /\ stopped = true /\
    forall f, delta f = 0.
Proof.
  exact (fun limit rg angle h Hs Hl Ha Hle =>
    collapse_already limit rg _ h Hs Hl (tan_deg_neq angle Ha)
      (fun f Hf => proj2 (slope_deg_le rg h f angle Ha) (Hle f Hf))).
Qed.
Print Assumptions C36_gentle_surface_unchanged.

(** Angles outside of 0 to 90 degrees are not refused: a negative angle, or one above 90
    degrees, does what the angle in that range with the same tangent does. *)
Theorem C36_other_angles : forall limit rg angle h,
  slope_collapse_deg limit (- angle) rg h = slope_collapse_deg limit angle rg h /\
  slope_collapse_deg limit (180 - angle) rg h = slope_collapse_deg limit angle rg h.
Proof. exact collapse_angles. Qed.
Print Assumptions C36_other_angles.

(** C37: node elevations are area-weighted means of the adjacent faces. *)
Theorem C37_node_is_weighted_mean : forall rg h row,
  sensible rg -> faces_in_range rg row -> real_faces row <> [] ->
  node_elevation rg h row =
  lsum (fun f => face_area rg f * h f) (real_faces row) / lsum (face_area rg) (real_faces row).
Proof. exact node_average. Qed.
Print Assumptions C37_node_is_weighted_mean.

Theorem C37_node_between_faces : forall rg h row lo hi,
  sensible rg -> faces_in_range rg row -> real_faces row <> [] ->
  (forall f, In f (real_faces row) -> lo <= h f <= hi) ->
  lo <= node_elevation rg h row <= hi.
Proof. exact node_bounds. Qed.
Print Assumptions C37_node_between_faces.
Example C37_case : faces_in_range tri_row [0; -1; 2]%Z /\ real_faces [0; -1; 2]%Z = [0%nat; 2%nat].
Proof. split; [intros z Hz; simpl in *; lia|reflexivity]. Qed.

(** A node with no face of the region gets elevation zero. *)
Theorem C37_isolated_node : forall rg h row,
  real_faces row = [] -> node_elevation rg h row = 0.
Proof. exact node_no_faces. Qed.
Print Assumptions C37_isolated_node.
