From Coq Require Import Reals Lra Lia Psatz List.
From Verif Require Import Common RSum Mesh_model Mesh_spec Mesh_proofs Ejecta_model.
Open Scope R_scope.

Lemma compute_volume_eq rg h : compute_volume rg h = volume rg h.
Proof. unfold compute_volume, volume. apply fsum_ext. intros. ring. Qed.

Lemma volume_scale rg h c : volume rg (fun f => h f * c) = volume rg h * c.
Proof.
  unfold volume. rewrite Rmult_comm, <- fsum_scal. apply fsum_ext. intros. ring.
Qed.

Lemma form_ejecta_volume rg V shape s s' t : form_ejecta rg V shape s = Ok (Some (s', t)) ->
  volume rg t = - V /\
  (forall f, elev s' f = elev s f + t f) /\ (forall f, thick s' f = thick s f + t f).
Proof.
  unfold form_ejecta. destruct (Req_EM_T V 0) as [|HV]; [discriminate|].
  destruct (Req_EM_T _ 0) as [|HE]; [discriminate|]. intros H. injection H as <- <-.
  split; [|split; reflexivity].
  rewrite volume_scale. rewrite <- compute_volume_eq.
  set (E := compute_volume rg (fun f => Rmax (shape f) 0)) in *. field. exact HE.
Qed.

Lemma pos_volume rg h : (forall f, (f < n_face rg)%nat -> 0 < face_area rg f) ->
  (forall f, 0 <= h f) -> 0 <= volume rg h.
Proof.
  intros HA Hh. apply fsum_nonneg. intros i Hi. specialize (HA i Hi). specialize (Hh i). nra.
Qed.

Lemma form_ejecta_sign rg V shape s s' t : (forall f, (f < n_face rg)%nat -> 0 < face_area rg f) ->
  form_ejecta rg V shape s = Ok (Some (s', t)) ->
  (V < 0 -> forall f, 0 <= t f) /\ (0 < V -> forall f, t f <= 0).
Proof.
  intros HA. unfold form_ejecta. destruct (Req_EM_T V 0) as [|HV]; [discriminate|].
  destruct (Req_EM_T _ 0) as [|HE]; [discriminate|]. intros H. injection H as <- <-.
  rewrite compute_volume_eq in *.
  assert (Hn : 0 <= volume rg (fun f => Rmax (shape f) 0)) by (apply pos_volume; [exact HA|intros; apply Rmax_r]).
  set (E := volume rg (fun f => Rmax (shape f) 0)) in *.
  assert (HEp : 0 < E) by lra.
  assert (HEi : 0 < / E) by now apply Rinv_0_lt_compat.
  split; intros Hs f; pose proof (Rmax_r (shape f) 0) as Hm; unfold Rdiv.
  - apply Rmult_le_pos; [exact Hm|]. nra.
  - assert (- V * / E <= 0) by nra. nra.
Qed.

Lemma py_volume rg k e h e' h' : sensible rg -> py_apply_diffusion k rg e h = Ok (e', h') ->
  volume rg e' = volume rg e.
Proof.
  intros Hs H. destruct (py_diffusion_ok _ _ _ _ _ _ H) as [_ [[-> ->]|[-> ->]]]; [reflexivity|].
  rewrite volume_plus, diffusion_volume by exact Hs. ring.
Qed.

Lemma form_ejecta_bm_volume rg V shape intensity k s s' : sensible rg ->
  form_ejecta_basicmoon rg V shape intensity k s = Ok s' ->
  volume rg (elev s') = volume rg (elev s) - V.
Proof.
  intros Hs. unfold form_ejecta_basicmoon.
  destruct (form_ejecta rg V shape s) as [[[s1 t]|]|] eqn:E; simpl; try discriminate.
  apply form_ejecta_volume in E. destruct E as (Hv & He & _).
  destruct (py_apply_diffusion _ rg (elev s1) (thick s1)) as [[e2 h2]|] eqn:E2; simpl; [|discriminate].
  destruct (py_apply_diffusion _ rg e2 h2) as [[e3 h3]|] eqn:E3; simpl; [|discriminate].
  intros H. injection H as <-. simpl.
  rewrite (py_volume _ _ _ _ _ _ Hs E3), (py_volume _ _ _ _ _ _ Hs E2).
  rewrite (volume_ext rg (elev s1) (fun f => elev s f + t f)) by exact He.
  rewrite volume_plus, Hv. ring.
Qed.

Lemma finite_bounds rg v : exists lo hi, within rg lo hi v.
Proof.
  unfold within. induction (n_face rg) as [|n IH].
  - exists 0, 0. intros f Hf. lia.
  - destruct IH as (lo & hi & H). exists (Rmin lo (v n)), (Rmax hi (v n)).
    intros f Hf. destruct (Nat.eq_dec f n) as [->|Hne].
    + split; [apply Rmin_r|apply Rmax_r].
    + destruct (H f ltac:(lia)) as [A B].
      pose proof (Rmin_l lo (v n)). pose proof (Rmax_l hi (v n)). lra.
Qed.

Lemma form_crater_volume rg limit dc ca fa dz inner shape intensity k s s' : sensible rg ->
  form_crater rg limit dc ca fa dz inner shape intensity k s = Ok s' ->
  volume rg (elev s') = volume rg (elev s).
Proof.
  intros Hs. unfold form_crater. destruct (Rlt_dec fa ca); [|intros H; injection H as <-; reflexivity].
  destruct dc; simpl.
  - destruct (slope_collapse_deg limit 35 rg (fun f => elev s f + dz f)) as [[b d]|] eqn:E; simpl; [|discriminate].
    intros H. apply form_ejecta_bm_volume in H; [|exact Hs]. rewrite H. simpl.
    destruct (finite_bounds rg (fun f => elev s f + dz f)) as (lo & hi & Hw).
    unfold slope_collapse_deg in E.
    destruct (collapse_inv _ _ _ _ _ _ lo hi Hs Hw E) as (Hv & _).
    rewrite !volume_plus, Hv, compute_volume_eq. ring.
  - intros H. apply form_ejecta_bm_volume in H; [|exact Hs]. rewrite H. simpl.
    rewrite volume_plus, compute_volume_eq. ring.
Qed.

(** Concrete cases on the three-cell mesh *)
Definition dig (f : nat) : R := match f with 0%nat => -6 | _ => 0 end.
Definition fill (f : nat) : R := match f with 0%nat => 6 | _ => 0 end.
Definition blanket (f : nat) : R := match f with 1%nat => 2 | 2%nat => 1 | _ => -1 end.

Lemma compute_volume_blanket : compute_volume tri_row (fun f => Rmax (blanket f) 0) = 3.
Proof.
  unfold compute_volume. simpl. unfold Rmax.
  destruct (Rle_dec (-1) 0), (Rle_dec 2 0), (Rle_dec 1 0); lra.
Qed.

Lemma dig_volume : compute_volume tri_row dig = -6.
Proof. unfold compute_volume. simpl. lra. Qed.
Lemma fill_volume : compute_volume tri_row fill = 6.
Proof. unfold compute_volume. simpl. lra. Qed.

Lemma form_ejecta_case V : V <> 0 -> exists s' t,
  form_ejecta tri_row V blanket (mk_fields (fun _ => 0) (fun _ => 0)) = Ok (Some (s', t)) /\
  t 1%nat = - V * 2 / 3.
Proof.
  intros HV. unfold form_ejecta. destruct (Req_EM_T V 0); [contradiction|].
  rewrite compute_volume_blanket. destruct (Req_EM_T 3 0); [lra|].
  eexists. eexists. split; [reflexivity|]. simpl. unfold Rmax.
  destruct (Rle_dec 2 0); [lra|]. field.
Qed.

Lemma flat_raises : form_ejecta_basicmoon tri_row 0 blanket (fun _ => 1) 1
   (mk_fields (fun _ => 0) (fun _ => 0)) = Err TypeError.
Proof.
  unfold form_ejecta_basicmoon, form_ejecta. destruct (Req_EM_T 0 0); [reflexivity|lra].
Qed.

Lemma thickness_negative : exists rg shape dz s',
  compute_volume rg dz = 6 /\
  exists t, form_ejecta rg (compute_volume rg dz) shape (mk_fields (fun _ => 0) (fun _ => 0))
            = Ok (Some (s', t)) /\ t 1%nat < 0 /\ thick s' 1%nat < 0.
Proof.
  destruct (form_ejecta_case 6 ltac:(lra)) as (s' & t & H & Ht).
  exists tri_row, blanket, fill, s'. split; [exact fill_volume|]. exists t.
  rewrite fill_volume. split; [exact H|].
  apply form_ejecta_volume in H. destruct H as (_ & _ & Hk). rewrite Hk. simpl. lra.
Qed.

Lemma py_diffusion_total rg k e h : nonneg_on rg k -> exists e' h', py_apply_diffusion k rg e h = Ok (e', h').
Proof.
  intros Hk. unfold py_apply_diffusion.
  destruct (existsb _ (seq 0 (n_face rg))) eqn:E.
  - exfalso. apply existsb_exists in E. destruct E as (f & Hf & Hp). apply in_seq in Hf.
    specialize (Hk f ltac:(lia)). destruct (Rlt_dec (k f) 0); [lra|discriminate].
  - destruct (Rlt_dec _ VSMALL); eauto.
Qed.

Lemma form_crater_succeeds rg limit dc ca fa dz inner shape intensity k s : sensible rg ->
  compute_volume rg dz <> 0 -> compute_volume rg (fun f => Rmax (shape f) 0) <> 0 ->
  0 <= k -> (forall f, (f < n_face rg)%nat -> 0 <= intensity f) ->
  exists s', form_crater rg limit dc ca fa dz inner shape intensity k s = Ok s'.
Proof.
  intros Hs HV HE Hk Hi. unfold form_crater. destruct (Rlt_dec fa ca); [|eauto].
  assert (G : forall e2 h2, exists s',
    form_ejecta_basicmoon rg (compute_volume rg dz) shape intensity k (mk_fields e2 h2) = Ok s').
  { intros e2 h2. unfold form_ejecta_basicmoon, form_ejecta.
    destruct (Req_EM_T (compute_volume rg dz) 0); [contradiction|].
    destruct (Req_EM_T (compute_volume rg (fun f => Rmax (shape f) 0)) 0); [contradiction|].
    simpl.
    match goal with |- context [py_apply_diffusion ?k1 rg ?e1 ?h1] =>
      destruct (py_diffusion_total rg k1 e1 h1) as (e' & h' & E) end.
    - intros f _. cbv beta. set (x := _ * (_ / _)). nra.
    - rewrite E. simpl.
      destruct (py_diffusion_total rg (fun f => k * intensity f) e' h') as (e3 & h3 & E3).
      + intros f Hf. specialize (Hi f Hf). nra.
      + rewrite E3. simpl. eauto. }
  destruct dc; simpl.
  - assert (H35 : 0 < 35 < 90) by lra.
    destruct (collapse_ok limit rg (tan (to_radians 35)) (fun f => elev s f + dz f) Hs
                (tan_deg_neq 35 H35)) as (b & d & E).
    unfold slope_collapse_deg. rewrite E. simpl. apply G.
  - apply G.
Qed.

Lemma blanket_nz : compute_volume tri_row (fun f => Rmax (blanket f) 0) <> 0.
Proof. rewrite compute_volume_blanket. lra. Qed.
Lemma dig_nz : compute_volume tri_row dig <> 0.
Proof. rewrite dig_volume. lra. Qed.

(** ** Old ejecta inside the crater *)
Definition same_fields (a b : fields) : Prop :=
  (forall f, elev a f = elev b f) /\ (forall f, thick a f = thick b f).

Lemma form_ejecta_bm_cong rg V shape intensity k e h h' : (forall f, h f = h' f) ->
  match form_ejecta_basicmoon rg V shape intensity k (mk_fields e h),
        form_ejecta_basicmoon rg V shape intensity k (mk_fields e h') with
  | Ok a, Ok b => same_fields a b
  | Err x, Err y => x = y
  | _, _ => False
  end.
Proof.
  intro H. unfold form_ejecta_basicmoon, form_ejecta. destruct (Req_EM_T V 0); [reflexivity|].
  destruct (Req_EM_T _ 0); [reflexivity|]. cbn [rbind elev thick].
  unfold py_apply_diffusion.
  repeat match goal with
  | |- context [existsb ?a ?b] => destruct (existsb a b); cbn [rbind]; [try reflexivity|]
  | |- context [Rlt_dec ?a VSMALL] => destruct (Rlt_dec a VSMALL); cbn [rbind]
  end; try reflexivity; split; cbn [elev thick]; intro f; rewrite ?H; reflexivity.
Qed.

Lemma crater_erases rg limit dc ca fa dz inner shape intensity k e h h' :
  fa < ca -> (forall f, inner f = false -> h f = h' f) ->
  match form_crater rg limit dc ca fa dz inner shape intensity k (mk_fields e h),
        form_crater rg limit dc ca fa dz inner shape intensity k (mk_fields e h') with
  | Ok a, Ok b => same_fields a b
  | Err x, Err y => x = y
  | _, _ => False
  end.
Proof.
  intros L H. unfold form_crater. destruct (Rlt_dec fa ca); [|lra]. cbn [elev thick]. destruct dc.
  - destruct (slope_collapse_deg limit 35 rg _) as [[bb d]|]; cbn [rbind]; [|reflexivity].
    apply form_ejecta_bm_cong. intro f. destruct (inner f) eqn:E; [reflexivity|]. rewrite (H f E). reflexivity.
  - cbn [rbind]. apply form_ejecta_bm_cong. intro f. destruct (inner f) eqn:E; [reflexivity|]. apply H; exact E.
Qed.

Lemma small_crater_ignored rg limit dc ca fa dz inner shape intensity k s :
  ca <= fa -> form_crater rg limit dc ca fa dz inner shape intensity k s = Ok s.
Proof. intro L. unfold form_crater. destruct (Rlt_dec fa ca); [lra|reflexivity]. Qed.
