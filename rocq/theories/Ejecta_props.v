(** C31: ejecta volume balances the excavated volume. *)
From Coq Require Import Reals Lra.
From Verif Require Import Common RSum Mesh_model Mesh_spec Mesh_proofs Ejecta_model Ejecta_proofs.
Open Scope R_scope.

(** The ejecta added to elevation and to the thickness layer has exactly the
    opposite of the excavated volume, for every mesh and ejecta profile. *)
Theorem C31_ejecta_balances_excavation : forall rg V shape s s' t,
  form_ejecta rg V shape s = Ok (Some (s', t)) ->
  volume rg t = - V /\
  (forall f, elev s' f = elev s f + t f) /\ (forall f, thick s' f = thick s f + t f).
Proof. exact form_ejecta_volume. Qed.
Print Assumptions C31_ejecta_balances_excavation.
Example C31_ejecta_case : exists s' t,
  form_ejecta tri_row (-6) blanket (mk_fields (fun _ => 0) (fun _ => 0)) = Ok (Some (s', t)) /\
  t 1%nat = - (-6) * 2 / 3.
Proof. apply form_ejecta_case. lra. Qed.

(** Forming a whole crater (excavation, slope collapse, ejecta, two diffusion
    steps) leaves the volume of the region unchanged whenever it returns. *)
Theorem C31_crater_conserves_volume :
  forall rg limit do_collapse crater_area centre_area dz inner shape intensity k_deg s s',
  sensible rg ->
  form_crater rg limit do_collapse crater_area centre_area dz inner shape intensity k_deg s = Ok s' ->
  volume rg (elev s') = volume rg (elev s).
Proof. exact form_crater_volume. Qed.
Print Assumptions C31_crater_conserves_volume.

(** It does return whenever the net excavated volume and the ejecta profile are
    not zero and the degradation is not negative, with or without slope collapse. *)
Theorem C31_crater_returns :
  forall rg limit do_collapse crater_area centre_area dz inner shape intensity k_deg s,
  sensible rg ->
  volume rg dz <> 0 -> volume rg (fun f => Rmax (shape f) 0) <> 0 ->
  0 <= k_deg -> (forall f, (f < n_face rg)%nat -> 0 <= intensity f) ->
  exists s', form_crater rg limit do_collapse crater_area centre_area dz inner shape intensity k_deg s = Ok s'.
Proof.
  exact (fun rg limit dc ca fa dz inner shape intensity k s Hs HV HE =>
    form_crater_succeeds rg limit dc ca fa dz inner shape intensity k s Hs
      (eq_ind_r (fun x => x <> 0) HV (compute_volume_eq rg dz))
      (eq_ind_r (fun x => x <> 0) HE (compute_volume_eq rg _))).
Qed.
Print Assumptions C31_crater_returns.
Example C31_crater_case : sensible tri_row /\ compute_volume tri_row dig <> 0 /\
  compute_volume tri_row (fun f => Rmax (blanket f) 0) <> 0.
Proof. exact (conj tri_row_sensible (conj dig_nz blanket_nz)). Qed.

(** The blanket is a deposit when material was removed, and a negative
    "thickness" when the crater shape added material. *)
Theorem C31_blanket_sign : forall rg V shape s s' t,
  (forall f, (f < n_face rg)%nat -> 0 < face_area rg f) ->
  form_ejecta rg V shape s = Ok (Some (s', t)) ->
  (V < 0 -> forall f, 0 <= t f) /\ (0 < V -> forall f, t f <= 0).
Proof. exact form_ejecta_sign. Qed.
Print Assumptions C31_blanket_sign.

(** Finding: when the crater shape fills more than it digs, the ejecta
    thickness that is recorded is negative. *)
Theorem C31_thickness_nonnegative_refuted : exists rg shape dz s',
  compute_volume rg dz = 6 /\
  exists t, form_ejecta rg (compute_volume rg dz) shape (mk_fields (fun _ => 0) (fun _ => 0))
            = Ok (Some (s', t)) /\ t 1%nat < 0 /\ thick s' 1%nat < 0.
Proof.
  exact thickness_negative.
Qed.
Print Assumptions C31_thickness_nonnegative_refuted.

(** Finding: a crater whose shape removes exactly as much as it adds makes the
    lunar morphology raise instead of depositing nothing. *)
Theorem C31_zero_volume_refuted : exists rg shape intensity k s,
  form_ejecta_basicmoon rg 0 shape intensity k s = Err TypeError.
Proof.
  exact (ex_intro _ _ (ex_intro _ _ (ex_intro _ _ (ex_intro _ _ (ex_intro _ _ flat_raises))))).
Qed.
Print Assumptions C31_zero_volume_refuted.

(** C53: whatever ejecta lay inside the crater before it formed has no influence on the
    surface afterwards: two surfaces that differ only in the ejecta thickness inside
    the crater end up the same (or fail the same way). *)
Theorem C53_old_ejecta_inside_erased :
  forall rg limit do_collapse crater_area centre_area dz inner shape intensity k_deg e h h',
  centre_area < crater_area -> (forall f, inner f = false -> h f = h' f) ->
  match form_crater rg limit do_collapse crater_area centre_area dz inner shape intensity k_deg (mk_fields e h),
        form_crater rg limit do_collapse crater_area centre_area dz inner shape intensity k_deg (mk_fields e h') with
  | Ok a, Ok b => (forall f, elev a f = elev b f) /\ (forall f, thick a f = thick b f)
  | Err x, Err y => x = y
  | _, _ => False
  end.
Proof. exact crater_erases. Qed.
Print Assumptions C53_old_ejecta_inside_erased.
Example C53_case : exists h h' : nat -> R, h 0%nat <> h' 0%nat /\
  forall f, (fun f => Nat.eqb f 0) f = false -> h f = h' f.
Proof.
  exists (fun _ => 1), (fun f => if Nat.eqb f 0 then 2 else 1). split; [simpl; lra|].
  intros f E. cbv beta in E. rewrite E. reflexivity.
Qed.

(** A crater no larger than the face at its centre leaves the surface untouched. *)
Theorem C53_subpixel_crater_ignored :
  forall rg limit do_collapse crater_area centre_area dz inner shape intensity k_deg s,
  crater_area <= centre_area ->
  form_crater rg limit do_collapse crater_area centre_area dz inner shape intensity k_deg s = Ok s.
Proof. exact small_crater_ignored. Qed.
Print Assumptions C53_subpixel_crater_ignored.
