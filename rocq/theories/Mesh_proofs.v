From Coq Require Import Reals Lra Lia List ZArith Arith Psatz.
From Verif Require Import Common RSum Trig_model Mesh_model Mesh_spec.
Import ListNotations.
Open Scope R_scope.

Lemma extract_Some e n a b : extract_edge_faces e n = Some (a, b) ->
  e_f1 e = Z.of_nat a /\ e_f2 e = Z.of_nat b /\ (a < n)%nat /\ (b < n)%nat.
Proof.
  unfold extract_edge_faces.
  destruct (((0 <=? e_f1 e) && (e_f1 e <? Z.of_nat n) && (0 <=? e_f2 e) &&
             (e_f2 e <? Z.of_nat n))%Z%bool) eqn:E; [|discriminate].
  intros H. injection H as <- <-.
  rewrite !Bool.andb_true_iff, !Z.leb_le, !Z.ltb_lt in E. lia.
Qed.

Lemma sensible_edge rg e a b : sensible rg -> In e (edges rg) ->
  extract_edge_faces e (n_face rg) = Some (a, b) ->
  0 < e_dist e /\ 0 <= e_len e /\ (a < n_face rg)%nat /\ (b < n_face rg)%nat /\
  0 < face_area rg a /\ 0 < face_area rg b.
Proof.
  intros [HA HE] Hin Hx. apply extract_Some in Hx. destruct Hx as (H1 & H2 & H3 & H4).
  destruct (HE e a b Hin) as [Hd Hl]; [repeat split; assumption|].
  repeat split; auto.
Qed.

(** *** Volume conservation *)
Lemma volume_add_at rg h i v : (i < n_face rg)%nat ->
  volume rg (add_at h i v) = volume rg h + face_area rg i * v.
Proof.
  intros Hi. unfold volume.
  rewrite (fsum_ext _ _ (fun f => face_area rg f * h f +
            (if Nat.eqb f i then face_area rg i * v else 0))).
  - rewrite fsum_plus, fsum_single by exact Hi. reflexivity.
  - intros j _. unfold add_at. destruct (Nat.eqb_spec j i); [subst; ring|ring].
Qed.

Lemma flux_step_volume rg kappa h d e : sensible rg -> In e (edges rg) ->
  volume rg (flux_step kappa h rg d e) = volume rg d.
Proof.
  intros Hs Hin. unfold flux_step.
  destruct (extract_edge_faces e (n_face rg)) as [[a b]|] eqn:Hx; [|reflexivity].
  destruct (sensible_edge _ _ _ _ Hs Hin Hx) as (Hd & Hl & Ha & Hb & HAa & HAb).
  rewrite !volume_add_at by assumption. field. lra.
Qed.

Lemma fold_flux_volume rg kappa h l d : sensible rg -> incl l (edges rg) ->
  volume rg (fold_left (flux_step kappa h rg) l d) = volume rg d.
Proof.
  intros Hs. revert d. induction l as [|e l IH]; intros d Hi; simpl; [reflexivity|].
  rewrite IH by (intros x Hx; apply Hi; simpl; auto).
  apply flux_step_volume; [exact Hs|apply Hi; simpl; auto].
Qed.

Lemma volume_zero rg : volume rg (fun _ => 0) = 0.
Proof. unfold volume. rewrite (fsum_ext _ _ (fun _ => 0)) by (intros; ring). apply fsum_0. Qed.

Lemma volume_dhdt rg kappa h : sensible rg -> volume rg (dhdt kappa h rg) = 0.
Proof.
  intros Hs. unfold dhdt. rewrite fold_flux_volume; [apply volume_zero|exact Hs|apply incl_refl].
Qed.

Lemma volume_plus_scal rg a c b :
  volume rg (fun f => a f + c * b f) = volume rg a + c * volume rg b.
Proof.
  unfold volume. rewrite <- fsum_scal, <- fsum_plus. apply fsum_ext. intros. ring.
Qed.

Lemma volume_plus rg a b : volume rg (fun f => a f + b f) = volume rg a + volume rg b.
Proof. unfold volume. rewrite <- fsum_plus. apply fsum_ext. intros. ring. Qed.

Lemma diffusion_volume rg kappa v : sensible rg -> volume rg (apply_diffusion kappa v rg) = 0.
Proof.
  intros Hs. unfold apply_diffusion.
  destruct (compute_dt_max kappa rg) as [dt_max|]; [|apply volume_zero].
  destruct (Rle_dec dt_max 0); [apply volume_zero|].
  cbv zeta. set (fac := 1 / _ / 2). clearbody fac.
  generalize (Z.to_nat (ceil (1 / dt_max))); intros k.
  induction k as [|k IH]; [apply volume_zero|]. simpl.
  unfold diffusion_loop at 1. rewrite volume_plus_scal, IH, volume_dhdt by exact Hs. ring.
Qed.

(** *** Gather form *)
Lemma flux_step_gather rg kappa h d e f : (f < n_face rg)%nat -> sensible rg -> In e (edges rg) ->
  flux_step kappa h rg d e f = d f + 2 * edge_inflow kappa h rg f e / face_area rg f.
Proof.
  intros Hf Hs Hin. unfold flux_step, edge_inflow.
  pose proof (proj1 Hs f Hf) as HAf.
  destruct (extract_edge_faces e (n_face rg)) as [[a b]|] eqn:Hx.
  - destruct (sensible_edge _ _ _ _ Hs Hin Hx) as (Hd & Hl & Ha & Hb & HAa & HAb).
    unfold extract_edge_faces in Hx.
    destruct (((0 <=? e_f1 e) && _ && _ && _)%Z%bool); [|discriminate].
    injection Hx as -> ->. unfold add_at.
    destruct (Nat.eqb_spec f a) as [Hfa|Hfa], (Nat.eqb_spec f b) as [Hfb|Hfb];
      try (rewrite <- Hfa in * ); try (rewrite <- Hfb in * ); field; lra.
  - unfold extract_edge_faces in Hx.
    destruct (((0 <=? e_f1 e) && _ && _ && _)%Z%bool); [discriminate|]. field. lra.
Qed.

Lemma fold_flux_gather rg kappa h f l d : (f < n_face rg)%nat -> sensible rg ->
  incl l (edges rg) ->
  fold_left (flux_step kappa h rg) l d f =
  d f + 2 * lsum (edge_inflow kappa h rg f) l / face_area rg f.
Proof.
  intros Hf Hs. revert d. induction l as [|e l IH]; intros d Hi.
  - simpl. pose proof (proj1 Hs f Hf). field. lra.
  - cbn [fold_left]. rewrite IH by (intros x Hx; apply Hi; simpl; auto).
    rewrite flux_step_gather by (auto; apply Hi; simpl; auto).
    rewrite lsum_cons. pose proof (proj1 Hs f Hf). field. lra.
Qed.

Lemma dhdt_gather rg kappa h f : (f < n_face rg)%nat -> sensible rg ->
  dhdt kappa h rg f = 2 * lsum (edge_inflow kappa h rg f) (edges rg) / face_area rg f.
Proof.
  intros Hf Hs. unfold dhdt. rewrite fold_flux_gather by (auto; apply incl_refl). lra.
Qed.

Lemma edge_inflow_ext kappa g h rg f e : (forall i, (i < n_face rg)%nat -> g i = h i) ->
  edge_inflow kappa g rg f e = edge_inflow kappa h rg f e.
Proof.
  intros Hgh. unfold edge_inflow.
  destruct (((0 <=? e_f1 e) && (e_f1 e <? Z.of_nat (n_face rg)) && (0 <=? e_f2 e) &&
             (e_f2 e <? Z.of_nat (n_face rg)))%Z%bool) eqn:E; [|reflexivity].
  rewrite !Bool.andb_true_iff, !Z.leb_le, !Z.ltb_lt in E.
  rewrite (Hgh (Z.to_nat (e_f1 e))) by lia. rewrite (Hgh (Z.to_nat (e_f2 e))) by lia.
  reflexivity.
Qed.

Lemma fv_step_ext dt kappa rg g h f : (f < n_face rg)%nat ->
  (forall i, (i < n_face rg)%nat -> g i = h i) ->
  fv_step dt kappa rg g f = fv_step dt kappa rg h f.
Proof.
  intros Hf Hgh. unfold fv_step. rewrite (Hgh f Hf).
  do 3 f_equal. apply lsum_ext. intros e _. now apply edge_inflow_ext.
Qed.

Lemma loop_is_fv_step dt kappa v rg delta f : sensible rg -> (f < n_face rg)%nat ->
  v f + diffusion_loop (dt / 2) kappa v rg delta f =
  fv_step dt kappa rg (fun i => v i + delta i) f.
Proof.
  intros Hs Hf. unfold diffusion_loop, fv_step. rewrite dhdt_gather by assumption.
  pose proof (proj1 Hs f Hf). field. lra.
Qed.

Lemma iter_is_fv dt kappa v rg k f : sensible rg -> (f < n_face rg)%nat ->
  v f + Nat.iter k (diffusion_loop (dt / 2) kappa v rg) (fun _ => 0) f =
  Nat.iter k (fv_step dt kappa rg) v f.
Proof.
  intros Hs. revert f. induction k as [|k IH]; intros f Hf; [simpl; ring|].
  cbn [Nat.iter nat_rect]. rewrite loop_is_fv_step by assumption.
  apply fv_step_ext; [exact Hf|]. intros i Hi. apply IH; exact Hi.
Qed.

(** *** Stability of the time step *)
Definition weight (kappa : nat -> R) (rg : region) (f : nat) (e : edge) : R :=
  match extract_edge_faces e (n_face rg) with
  | None => 0
  | Some (a, b) =>
      let w := (kappa a + kappa b) * e_len e / (e_dist e) in
      (if Nat.eqb f a then w / face_area rg f else 0) +
      (if Nat.eqb f b then w / face_area rg f else 0)
  end.

Lemma inv_step_gather rg kappa acc e f : sensible rg -> nonneg_on rg kappa ->
  (f < n_face rg)%nat -> In e (edges rg) ->
  inv_dt_step kappa rg acc e f = acc f + weight kappa rg f e.
Proof.
  intros Hs Hk Hf Hin. unfold inv_dt_step, weight.
  destruct (extract_edge_faces e (n_face rg)) as [[a b]|] eqn:Hx.
  - destruct (sensible_edge _ _ _ _ Hs Hin Hx) as (Hd & Hl & Ha & Hb & HAa & HAb).
    destruct (Rle_dec (e_dist e) 0) as [H|H]; [lra|].
    pose proof (Hk a Ha). pose proof (Hk b Hb). pose proof (proj1 Hs f Hf).
    destruct (Rlt_dec 0 (/ 2 * (kappa a + kappa b))) as [Hp|Hp].
    + unfold add_at. destruct (Nat.eqb_spec f a) as [Hfa|Hfa], (Nat.eqb_spec f b) as [Hfb|Hfb];
        try (rewrite <- Hfa in * ); try (rewrite <- Hfb in * ); field; lra.
    + assert (Hz : kappa a + kappa b = 0) by lra. rewrite Hz.
      replace (0 * e_len e / e_dist e) with 0 by (field; lra).
      destruct (Nat.eqb f a), (Nat.eqb f b); field; lra.
  - destruct (Rle_dec (e_dist e) 0); lra.
Qed.

Lemma fold_inv_gather rg kappa l acc f : sensible rg -> nonneg_on rg kappa ->
  (f < n_face rg)%nat -> incl l (edges rg) ->
  fold_left (inv_dt_step kappa rg) l acc f = acc f + lsum (weight kappa rg f) l.
Proof.
  intros Hs Hk Hf. revert acc. induction l as [|e l IH]; intros acc Hi; [simpl; ring|].
  cbn [fold_left]. rewrite IH by (intros x Hx; apply Hi; simpl; auto).
  rewrite inv_step_gather by (auto; apply Hi; simpl; auto). rewrite lsum_cons. ring.
Qed.

Lemma inv_sum_gather rg kappa f : sensible rg -> nonneg_on rg kappa -> (f < n_face rg)%nat ->
  inverse_dt_sum kappa rg f = lsum (weight kappa rg f) (edges rg).
Proof.
  intros. unfold inverse_dt_sum. rewrite fold_inv_gather by (auto; apply incl_refl). ring.
Qed.

Lemma weight_nonneg rg kappa f e : sensible rg -> nonneg_on rg kappa -> (f < n_face rg)%nat ->
  In e (edges rg) -> 0 <= weight kappa rg f e.
Proof.
  intros Hs Hk Hf Hin. unfold weight.
  destruct (extract_edge_faces e (n_face rg)) as [[a b]|] eqn:Hx; [|lra].
  destruct (sensible_edge _ _ _ _ Hs Hin Hx) as (Hd & Hl & Ha & Hb & HAa & HAb).
  pose proof (Hk a Ha). pose proof (Hk b Hb). pose proof (proj1 Hs f Hf) as HAf.
  assert (0 <= (kappa a + kappa b) * e_len e / e_dist e / face_area rg f).
  { unfold Rdiv. repeat apply Rmult_le_pos; try lra; left; now apply Rinv_0_lt_compat. }
  destruct (Nat.eqb f a), (Nat.eqb f b); lra.
Qed.

Lemma min_inv_spec l acc m : fold_left min_inv l acc = Some m ->
  (match acc with Some m0 => m <= m0 | None => True end) /\
  (forall x, In x l -> 0 < x -> m <= 1 / x) /\
  (match acc with Some m0 => 0 < m0 | None => True end -> 0 < m).
Proof.
  revert acc. induction l as [|x l IH]; intros acc H; cbn [fold_left] in H.
  - subst acc. repeat split; try lra; intros; simpl in *; tauto.
  - destruct (IH _ H) as (H1 & H2 & H3). unfold min_inv in *.
    destruct (Rlt_dec 0 x) as [Hx|Hx].
    + assert (Hxi : 0 < 1 / x) by (unfold Rdiv; rewrite Rmult_1_l; now apply Rinv_0_lt_compat).
      destruct acc as [m0|].
      * pose proof (Rmin_l m0 (1 / x)). pose proof (Rmin_r m0 (1 / x)).
        split; [lra|]. split.
        -- intros y [->|Hy] Hpos; [lra|auto].
        -- intros Hm0. apply H3. apply Rmin_glb_lt; lra.
      * split; [exact I|]. split.
        -- intros y [->|Hy] Hpos; [lra|auto].
        -- intros _. apply H3. exact Hxi.
    + split; [exact H1|]. split; [|exact H3].
      intros y [->|Hy] Hpos; [lra|auto].
Qed.

Lemma min_inv_None l : fold_left min_inv l None = None -> forall x, In x l -> x <= 0.
Proof.
  assert (G : forall l acc, acc <> None -> fold_left min_inv l acc <> None).
  { clear. induction l as [|x l IH]; intros acc Ha; cbn [fold_left]; [exact Ha|].
    apply IH. unfold min_inv. destruct (Rlt_dec 0 x); [|exact Ha]. destruct acc; discriminate. }
  induction l as [|x l IH]; intros H y Hy; [destruct Hy|]. cbn [fold_left] in H.
  unfold min_inv at 2 in H. destruct (Rlt_dec 0 x) as [Hx|Hx].
  - exfalso. apply (G l (Some (1 / x))); [discriminate|exact H].
  - destruct Hy as [->|Hy]; [lra|]. now apply IH.
Qed.

Lemma ceil_ge x : x <= IZR (ceil x).
Proof.
  unfold ceil. rewrite opp_IZR. destruct (base_Int_part (- x)) as [H _]. lra.
Qed.

Lemma ceil_lt x : IZR (ceil x) < x + 1.
Proof.
  unfold ceil. rewrite opp_IZR. destruct (base_Int_part (- x)) as [_ H]. lra.
Qed.

(** Facts about a finite dt_max. *)
Lemma dt_max_facts rg kappa dm : sensible rg -> nonneg_on rg kappa ->
  compute_dt_max kappa rg = Some dm ->
  0 < dm /\
  (let n := Z.to_nat (ceil (1 / dm)) in
   0 < INR n /\ forall f, (f < n_face rg)%nat ->
     1 / INR n * lsum (weight kappa rg f) (edges rg) <= 1).
Proof.
  intros Hs Hk H. unfold compute_dt_max in H.
  destruct (min_inv_spec _ _ _ H) as (_ & H2 & H3).
  specialize (H3 I). split; [exact H3|]. cbv zeta.
  assert (Hpos : 0 < 1 / dm) by (unfold Rdiv; rewrite Rmult_1_l; now apply Rinv_0_lt_compat).
  pose proof (ceil_ge (1 / dm)) as Hc.
  assert (Hz : (0 < ceil (1 / dm))%Z) by (apply lt_IZR; lra).
  assert (HI : INR (Z.to_nat (ceil (1 / dm))) = IZR (ceil (1 / dm))).
  { rewrite INR_IZR_INZ, Z2Nat.id by lia. reflexivity. }
  rewrite HI. split; [apply IZR_lt; exact Hz|].
  intros f Hf. rewrite <- inv_sum_gather by assumption.
  set (x := inverse_dt_sum kappa rg f) in *.
  assert (HN : 0 < IZR (ceil (1 / dm))) by (apply IZR_lt; exact Hz).
  destruct (Rlt_dec 0 x) as [Hx|Hx].
  - assert (Hm : dm <= 1 / x).
    { apply H2; [|exact Hx]. apply in_map_iff. exists f. split; [reflexivity|].
      apply in_seq. lia. }
    assert (x <= 1 / dm).
    { apply Rmult_le_reg_r with dm; [exact H3|]. unfold Rdiv.
      rewrite Rmult_1_l, Rinv_l by lra.
      apply Rmult_le_reg_r with (/ x); [now apply Rinv_0_lt_compat|].
      rewrite (Rmult_comm x dm), Rmult_assoc, Rinv_r by lra. lra. }
    set (M := IZR (ceil (1 / dm))) in *.
    apply Rmult_le_reg_l with M; [exact HN|].
    replace (M * (1 / M * x)) with x by (field; lra). lra.
  - assert (0 < 1 / IZR (ceil (1 / dm)))
      by (unfold Rdiv; rewrite Rmult_1_l; now apply Rinv_0_lt_compat).
    nra.
Qed.

(** *** Maximum principle *)
Lemma inflow_bounds rg kappa h f e lo hi : sensible rg -> nonneg_on rg kappa ->
  (f < n_face rg)%nat -> In e (edges rg) -> within rg lo hi h ->
  weight kappa rg f e * (lo - h f) <= 2 * edge_inflow kappa h rg f e / face_area rg f
    <= weight kappa rg f e * (hi - h f).
Proof.
  intros Hs Hk Hf Hin Hw. unfold weight, edge_inflow.
  pose proof (proj1 Hs f Hf) as HAf. pose proof (Hw f Hf) as Hhf.
  destruct (extract_edge_faces e (n_face rg)) as [[a b]|] eqn:Hx.
  - destruct (sensible_edge _ _ _ _ Hs Hin Hx) as (Hd & Hl & Ha & Hb & HAa & HAb).
    unfold extract_edge_faces in Hx.
    destruct (((0 <=? e_f1 e) && _ && _ && _)%Z%bool); [|discriminate].
    injection Hx as -> ->.
    pose proof (Hk a Ha). pose proof (Hk b Hb).
    pose proof (Hw a Ha) as Hha. pose proof (Hw b Hb) as Hhb.
    set (c := (kappa a + kappa b) * e_len e / e_dist e / face_area rg f).
    assert (Hc : 0 <= c).
    { unfold c, Rdiv. repeat apply Rmult_le_pos; try lra; left; now apply Rinv_0_lt_compat. }
    replace (2 * ((if Nat.eqb f a then (kappa a + kappa b) / 2 * e_len e / e_dist e * (h b - h a) else 0) +
              (if Nat.eqb f b then (kappa a + kappa b) / 2 * e_len e / e_dist e * (h a - h b) else 0)) / face_area rg f)
      with ((if Nat.eqb f a then c * (h b - h a) else 0) + (if Nat.eqb f b then c * (h a - h b) else 0)).
    + destruct (Nat.eqb_spec f a) as [Hfa|Hfa]; destruct (Nat.eqb_spec f b) as [Hfb|Hfb];
        try (rewrite Hfa in * ); try (rewrite Hfb in * ); split; nra.
    + unfold c. destruct (Nat.eqb f a), (Nat.eqb f b); field; lra.
  - unfold extract_edge_faces in Hx.
    destruct (((0 <=? e_f1 e) && _ && _ && _)%Z%bool); [discriminate|].
    unfold Rdiv. lra.
Qed.

Lemma dhdt_bounds rg kappa h f lo hi : sensible rg -> nonneg_on rg kappa ->
  (f < n_face rg)%nat -> within rg lo hi h ->
  lsum (weight kappa rg f) (edges rg) * (lo - h f) <= dhdt kappa h rg f
   <= lsum (weight kappa rg f) (edges rg) * (hi - h f).
Proof.
  intros Hs Hk Hf Hw. rewrite dhdt_gather by assumption.
  replace (2 * lsum (edge_inflow kappa h rg f) (edges rg) / face_area rg f)
    with (lsum (fun e => 2 * edge_inflow kappa h rg f e / face_area rg f) (edges rg)).
  2:{ rewrite (lsum_ext _ (fun e => (2 / face_area rg f) * edge_inflow kappa h rg f e)).
      - rewrite lsum_scal. pose proof (proj1 Hs f Hf). field. lra.
      - intros e _. pose proof (proj1 Hs f Hf). field. lra. }
  rewrite (Rmult_comm _ (lo - h f)), (Rmult_comm _ (hi - h f)), <- !lsum_scal.
  split; apply lsum_le; intros e He;
    destruct (inflow_bounds rg kappa h f e lo hi Hs Hk Hf He Hw); lra.
Qed.

Lemma loop_within rg kappa v delta fac lo hi : sensible rg -> nonneg_on rg kappa ->
  0 <= fac ->
  (forall f, (f < n_face rg)%nat -> fac * lsum (weight kappa rg f) (edges rg) <= 1) ->
  within rg lo hi (fun f => v f + delta f) ->
  within rg lo hi (fun f => v f + diffusion_loop fac kappa v rg delta f).
Proof.
  intros Hs Hk Hfac Hst Hw f Hf. unfold diffusion_loop.
  destruct (dhdt_bounds rg kappa _ f lo hi Hs Hk Hf Hw) as [H1 H2].
  pose proof (Hw f Hf) as Hwf. cbv beta in *.
  set (W := lsum (weight kappa rg f) (edges rg)) in *.
  assert (HW : 0 <= W) by (apply lsum_nonneg; intros; now apply weight_nonneg).
  pose proof (Hst f Hf) as Hst1. fold W in Hst1.
  set (D := dhdt kappa _ rg f) in *. set (g := v f + delta f) in *.
  assert (fac * D <= fac * (W * (hi - g))) by (apply Rmult_le_compat_l; lra).
  assert (fac * (W * (lo - g)) <= fac * D) by (apply Rmult_le_compat_l; lra).
  replace (v f + (delta f + fac * D)) with (g + fac * D) by (unfold g; ring).
  split; nra.
Qed.

Lemma diffusion_within rg kappa v lo hi : sensible rg -> nonneg_on rg kappa ->
  within rg lo hi v -> within rg lo hi (fun f => v f + apply_diffusion kappa v rg f).
Proof.
  intros Hs Hk Hw. unfold apply_diffusion.
  assert (Hz : within rg lo hi (fun f => v f + 0)) by (intros f Hf; rewrite Rplus_0_r; auto).
  destruct (compute_dt_max kappa rg) as [dm|] eqn:Hdm; [|exact Hz].
  destruct (Rle_dec dm 0); [exact Hz|].
  destruct (dt_max_facts rg kappa dm Hs Hk Hdm) as (_ & HN & Hst). cbv zeta in *.
  set (N := Z.to_nat (ceil (1 / dm))) in *. clearbody N.
  assert (Hi : 0 < 1 / INR N) by (unfold Rdiv; rewrite Rmult_1_l; now apply Rinv_0_lt_compat).
  generalize N at 1; intros k. induction k as [|k IH]; [exact Hz|].
  apply loop_within; try assumption; [lra|].
  intros f Hf. pose proof (Hst f Hf).
  assert (0 <= lsum (weight kappa rg f) (edges rg))
    by (apply lsum_nonneg; intros; now apply weight_nonneg).
  set (W := lsum (weight kappa rg f) (edges rg)) in *.
  set (dt := 1 / INR N) in *. nra.
Qed.

Lemma diffusion_flat rg kappa v c : sensible rg -> nonneg_on rg kappa ->
  (forall f, (f < n_face rg)%nat -> v f = c) ->
  forall f, (f < n_face rg)%nat -> apply_diffusion kappa v rg f = 0.
Proof.
  intros Hs Hk Hc f Hf.
  assert (Hw : within rg c c v) by (intros i Hi; rewrite (Hc i Hi); lra).
  pose proof (diffusion_within rg kappa v c c Hs Hk Hw f Hf) as H. cbv beta in H.
  rewrite (Hc f Hf) in H. lra.
Qed.

(** *** The result as explicit Euler steps *)
Lemma diffusion_is_fv rg kappa v : sensible rg -> nonneg_on rg kappa ->
  (exists n : nat, (0 < n)%nat /\
   (forall f, (f < n_face rg)%nat ->
      v f + apply_diffusion kappa v rg f = Nat.iter n (fv_step (1 / INR n) kappa rg) v f)).
Proof.
  intros Hs Hk. unfold apply_diffusion.
  destruct (compute_dt_max kappa rg) as [dm|] eqn:Hdm.
  - destruct (dt_max_facts rg kappa dm Hs Hk Hdm) as (Hpos & HN & Hst). cbv zeta in *.
    destruct (Rle_dec dm 0) as [Hle|Hle]; [lra|].
    set (N := Z.to_nat (ceil (1 / dm))) in *. exists N. split.
    + apply INR_lt. simpl. exact HN.
    + intros f Hf. apply iter_is_fv; assumption.
  - exists 1%nat. split; [lia|]. intros f Hf. cbn [Nat.iter nat_rect].
    unfold fv_step.
    assert (Hw0 : forall e, In e (edges rg) -> weight kappa rg f e = 0).
    { intros e He.
      assert (Hle : inverse_dt_sum kappa rg f <= 0).
      { unfold compute_dt_max in Hdm. apply (min_inv_None _ Hdm).
        apply in_map_iff. exists f. split; [reflexivity|]. apply in_seq. lia. }
      rewrite inv_sum_gather in Hle by assumption.
      destruct (Rlt_dec 0 (weight kappa rg f e)) as [Hp|Hp].
      - assert (0 < lsum (weight kappa rg f) (edges rg)); [|lra].
        apply lsum_pos_elem with e; auto. intros; now apply weight_nonneg.
      - pose proof (weight_nonneg rg kappa f e Hs Hk Hf He). lra. }
    assert (Hfin : exists lo hi, within rg lo hi v).
    { clear. unfold within. induction (n_face rg) as [|n IH].
      - exists 0, 0. intros f Hf. lia.
      - destruct IH as (lo & hi & H). exists (Rmin lo (v n)), (Rmax hi (v n)).
        intros f Hf. destruct (Nat.eq_dec f n) as [->|Hne].
        + split; [apply Rmin_r|apply Rmax_r].
        + destruct (H f ltac:(lia)) as [A B].
          pose proof (Rmin_l lo (v n)). pose proof (Rmax_l hi (v n)). lra. }
    destruct Hfin as (lo & hi & Hw).
    assert (Hin0 : lsum (edge_inflow kappa v rg f) (edges rg) = 0).
    { rewrite (lsum_ext _ (fun _ => 0)).
      - clear. induction (edges rg) as [|e l IH]; [reflexivity|]. rewrite lsum_cons, IH. lra.
      - intros e He.
        pose proof (inflow_bounds rg kappa v f e lo hi Hs Hk Hf He Hw) as Hb.
        rewrite (Hw0 e He) in Hb. pose proof (proj1 Hs f Hf) as HA.
        assert (Hq : 2 * edge_inflow kappa v rg f e / face_area rg f = 0) by lra.
        apply Rmult_eq_reg_r with (2 / face_area rg f).
        + rewrite Rmult_0_l, <- Hq. field. lra.
        + unfold Rdiv. apply Rmult_integral_contrapositive_currified; [lra|].
          apply Rinv_neq_0_compat. lra. }
    rewrite Hin0. unfold Rdiv. ring.
Qed.

(** *** Energy decrease *)
Definition dissipation (kappa h : nat -> R) (rg : region) (e : edge) : R :=
  match extract_edge_faces e (n_face rg) with
  | None => 0
  | Some (a, b) => (kappa a + kappa b) * e_len e / e_dist e * (h a - h b) ^ 2
  end.

Lemma dissipation_nonneg rg kappa h e : sensible rg -> nonneg_on rg kappa -> In e (edges rg) ->
  0 <= dissipation kappa h rg e.
Proof.
  intros Hs Hk Hin. unfold dissipation.
  destruct (extract_edge_faces e (n_face rg)) as [[a b]|] eqn:Hx; [|lra].
  destruct (sensible_edge _ _ _ _ Hs Hin Hx) as (Hd & Hl & Ha & Hb & HAa & HAb).
  pose proof (Hk a Ha). pose proof (Hk b Hb).
  apply Rmult_le_pos; [|apply pow2_ge_0].
  unfold Rdiv. repeat apply Rmult_le_pos; try lra. left; now apply Rinv_0_lt_compat.
Qed.

(** summation by parts *)
Lemma work_of_flux rg kappa h : sensible rg ->
  fsum (n_face rg) (fun f => face_area rg f * (h f * dhdt kappa h rg f)) =
  - lsum (dissipation kappa h rg) (edges rg).
Proof.
  intros Hs.
  rewrite (fsum_ext _ _ (fun f => lsum (fun e => h f * (2 * edge_inflow kappa h rg f e)) (edges rg))).
  2:{ intros f Hf. rewrite dhdt_gather by assumption. pose proof (proj1 Hs f Hf).
      rewrite (lsum_ext (fun e => h f * (2 * edge_inflow kappa h rg f e))
                 (fun e => (2 * h f) * edge_inflow kappa h rg f e)) by (intros; ring).
      rewrite lsum_scal. field. lra. }
  rewrite fsum_lsum_swap.
  replace (- lsum (dissipation kappa h rg) (edges rg))
    with (lsum (fun e => (-1) * dissipation kappa h rg e) (edges rg)) by (rewrite lsum_scal; ring).
  apply lsum_ext. intros e He. unfold dissipation, edge_inflow.
  destruct (extract_edge_faces e (n_face rg)) as [[a b]|] eqn:Hx.
  - destruct (sensible_edge _ _ _ _ Hs He Hx) as (Hd & Hl & Ha & Hb & HAa & HAb).
    unfold extract_edge_faces in Hx.
    destruct (((0 <=? e_f1 e) && _ && _ && _)%Z%bool); [|discriminate].
    injection Hx as -> ->.
    set (w := (kappa a + kappa b) / 2 * e_len e / e_dist e).
    rewrite (fsum_ext _ _ (fun f => (if Nat.eqb f a then h a * (2 * (w * (h b - h a))) else 0) +
                                    (if Nat.eqb f b then h b * (2 * (w * (h a - h b))) else 0))).
    + rewrite fsum_plus, !fsum_single by assumption. unfold w. field. lra.
    + intros f _. destruct (Nat.eqb_spec f a), (Nat.eqb_spec f b); subst; ring.
  - unfold extract_edge_faces in Hx.
    destruct (((0 <=? e_f1 e) && _ && _ && _)%Z%bool); [discriminate|].
    rewrite (fsum_ext _ _ (fun _ => 0)) by (intros; ring). rewrite fsum_0. ring.
Qed.

(** Cauchy-Schwarz for weighted sums *)
Lemma wcs {A} (w x : A -> R) l : (forall a, In a l -> 0 <= w a) ->
  (lsum (fun a => w a * x a) l) ^ 2 <= lsum w l * lsum (fun a => w a * (x a) ^ 2) l.
Proof.
  induction l as [|a l IH]; intros Hw; [simpl; lra|].
  rewrite !lsum_cons.
  assert (H0 : 0 <= w a) by (apply Hw; simpl; auto).
  assert (IH' := IH (fun b Hb => Hw b (or_intror Hb))). clear IH.
  set (S1 := lsum (fun a => w a * x a) l) in *. set (W := lsum w l) in *.
  set (S2 := lsum (fun a => w a * x a ^ 2) l) in *.
  assert (HW : 0 <= W) by (apply lsum_nonneg; intros; apply Hw; simpl; auto).
  assert (HS2 : 0 <= S2).
  { apply lsum_nonneg. intros b Hb. apply Rmult_le_pos; [apply Hw; simpl; auto|apply pow2_ge_0]. }
  (* w x^2 W + w S2 >= 2 w x S1 *)
  assert (Hk : 2 * x a * S1 <= x a ^ 2 * W + S2).
  { destruct (Req_dec W 0) as [E|E].
    - rewrite E in *. assert (S1 = 0) by nra. subst. nra.
    - assert (HWp : 0 < W) by lra.
      assert (Hq : 0 <= (x a * W - S1) ^ 2) by apply pow2_ge_0.
      apply Rmult_le_reg_r with W; [exact HWp|]. nra. }
  nra.
Qed.

Definition signed (h : nat -> R) (rg : region) (f : nat) (e : edge) : R :=
  match extract_edge_faces e (n_face rg) with
  | None => 0
  | Some (a, b) => if Nat.eqb f a then h b - h a else h a - h b
  end.

Lemma dhdt_signed rg kappa h f : sensible rg -> (f < n_face rg)%nat ->
  dhdt kappa h rg f = lsum (fun e => weight kappa rg f e * signed h rg f e) (edges rg).
Proof.
  intros Hs Hf. rewrite dhdt_gather by assumption.
  pose proof (proj1 Hs f Hf) as HA.
  rewrite (lsum_ext (fun e => weight kappa rg f e * signed h rg f e)
             (fun e => (2 / face_area rg f) * edge_inflow kappa h rg f e)).
  - rewrite lsum_scal. field. lra.
  - intros e He. unfold weight, signed, edge_inflow.
    destruct (extract_edge_faces e (n_face rg)) as [[a b]|] eqn:Hx.
    + destruct (sensible_edge _ _ _ _ Hs He Hx) as (Hd & Hl & Ha & Hb & HAa & HAb).
      unfold extract_edge_faces in Hx.
      destruct (((0 <=? e_f1 e) && _ && _ && _)%Z%bool); [|discriminate].
      injection Hx as -> ->.
      destruct (Nat.eqb_spec f a), (Nat.eqb_spec f b); subst; try subst; field; lra.
    + unfold extract_edge_faces in Hx.
      destruct (((0 <=? e_f1 e) && _ && _ && _)%Z%bool); [discriminate|]. ring.
Qed.

Lemma sq_weight_sum rg kappa h : sensible rg ->
  fsum (n_face rg) (fun f => face_area rg f *
     lsum (fun e => weight kappa rg f e * (signed h rg f e) ^ 2) (edges rg)) =
  2 * lsum (dissipation kappa h rg) (edges rg).
Proof.
  intros Hs.
  rewrite (fsum_ext _ _ (fun f => lsum (fun e => face_area rg f *
     (weight kappa rg f e * (signed h rg f e) ^ 2)) (edges rg))).
  2:{ intros f _. now rewrite lsum_scal. }
  rewrite fsum_lsum_swap, <- lsum_scal. apply lsum_ext. intros e He.
  unfold weight, signed, dissipation.
  destruct (extract_edge_faces e (n_face rg)) as [[a b]|] eqn:Hx.
  - destruct (sensible_edge _ _ _ _ Hs He Hx) as (Hd & Hl & Ha & Hb & HAa & HAb).
    set (w := (kappa a + kappa b) * e_len e / e_dist e).
    rewrite (fsum_ext _ _ (fun f => (if Nat.eqb f a then w * (h a - h b) ^ 2 else 0) +
                                    (if Nat.eqb f b then w * (h a - h b) ^ 2 else 0))).
    + rewrite fsum_plus, !fsum_single by assumption. ring.
    + intros f Hf. pose proof (proj1 Hs f Hf).
      destruct (Nat.eqb_spec f a), (Nat.eqb_spec f b); subst; try subst; field; lra.
  - rewrite (fsum_ext _ _ (fun _ => 0)) by (intros; ring). rewrite fsum_0. ring.
Qed.

(** one explicit step dissipates at least dt/2 * dissipation *)
Lemma loop_energy rg kappa v delta dt : sensible rg -> nonneg_on rg kappa -> 0 < dt ->
  (forall f, (f < n_face rg)%nat -> dt * lsum (weight kappa rg f) (edges rg) <= 1) ->
  let g := fun f => v f + delta f in
  energy rg (fun f => v f + diffusion_loop (dt / 2) kappa v rg delta f)
  <= energy rg g - dt / 2 * lsum (dissipation kappa g rg) (edges rg).
Proof.
  intros Hs Hk Hdt Hst g. unfold energy.
  set (D := dhdt kappa g rg).
  rewrite (fsum_ext _ _ (fun f => face_area rg f * (g f * g f) +
      (dt * (face_area rg f * (g f * D f)) + dt * dt / 4 * (face_area rg f * (D f) ^ 2)))).
  2:{ intros f _. unfold diffusion_loop. fold g. fold D. unfold g. field. }
  rewrite !fsum_plus, !fsum_scal. unfold D at 1. rewrite work_of_flux by exact Hs.
  set (S := lsum (dissipation kappa g rg) (edges rg)).
  assert (HD : fsum (n_face rg) (fun f => face_area rg f * (D f) ^ 2) <= 2 / dt * S).
  { apply Rle_trans with (fsum (n_face rg) (fun f => (1 / dt) * (face_area rg f *
     lsum (fun e => weight kappa rg f e * (signed g rg f e) ^ 2) (edges rg)))).
    - apply fsum_le. intros f Hf. unfold D. rewrite dhdt_signed by assumption.
      pose proof (proj1 Hs f Hf) as HA.
      pose proof (wcs (weight kappa rg f) (signed g rg f) (edges rg)
                    (fun e He => weight_nonneg rg kappa f e Hs Hk Hf He)) as Hcs.
      set (X := lsum (fun e => weight kappa rg f e * signed g rg f e) (edges rg)) in *.
      set (W := lsum (weight kappa rg f) (edges rg)) in *.
      set (Y := lsum (fun e => weight kappa rg f e * signed g rg f e ^ 2) (edges rg)) in *.
      assert (HY : 0 <= Y).
      { apply lsum_nonneg. intros e He. apply Rmult_le_pos; [now apply weight_nonneg|apply pow2_ge_0]. }
      assert (HWd : W <= 1 / dt).
      { apply Rmult_le_reg_l with dt; [exact Hdt|].
        replace (dt * (1 / dt)) with 1 by (field; lra). apply Hst; exact Hf. }
      assert (X ^ 2 <= 1 / dt * Y) by (apply Rle_trans with (W * Y); [exact Hcs|apply Rmult_le_compat_r; lra]).
      replace (1 / dt * (face_area rg f * Y)) with (face_area rg f * (1 / dt * Y)) by ring.
      apply Rmult_le_compat_l; lra.
    - rewrite fsum_scal, sq_weight_sum by exact Hs. fold S. right. field. lra. }
  assert (0 <= S) by (apply lsum_nonneg; intros; now apply dissipation_nonneg).
  assert (dt * dt / 4 * fsum (n_face rg) (fun f => face_area rg f * D f ^ 2)
          <= dt * dt / 4 * (2 / dt * S)).
  { apply Rmult_le_compat_l; [nra|exact HD]. }
  replace (dt * dt / 4 * (2 / dt * S)) with (dt / 2 * S) in * by (field; lra).
  lra.
Qed.

Lemma diffusion_energy rg kappa v : sensible rg -> nonneg_on rg kappa ->
  energy rg (fun f => v f + apply_diffusion kappa v rg f) <= energy rg v /\
  (forall e a b, In e (edges rg) -> joins rg e a b -> 0 < e_len e ->
     0 < kappa a + kappa b -> v a <> v b ->
     energy rg (fun f => v f + apply_diffusion kappa v rg f) < energy rg v).
Proof.
  intros Hs Hk.
  assert (Hv0 : energy rg (fun f => v f + 0) = energy rg v)
    by (unfold energy; apply fsum_ext; intros; now rewrite Rplus_0_r).
  unfold apply_diffusion.
  destruct (compute_dt_max kappa rg) as [dm|] eqn:Hdm.
  - destruct (dt_max_facts rg kappa dm Hs Hk Hdm) as (Hpos & HN & Hst). cbv zeta in *.
    destruct (Rle_dec dm 0) as [Hle|Hle]; [lra|].
    set (N := Z.to_nat (ceil (1 / dm))) in *.
    assert (HNn : (0 < N)%nat) by (apply INR_lt; simpl; exact HN).
    clearbody N.
    assert (Hi : 0 < 1 / INR N) by (unfold Rdiv; rewrite Rmult_1_l; now apply Rinv_0_lt_compat).
    set (dt := 1 / INR N) in *. clearbody dt.
    assert (Hmono : forall k, (0 < k)%nat ->
      energy rg (fun f => v f + Nat.iter k (diffusion_loop (dt / 2) kappa v rg) (fun _ => 0) f)
      <= energy rg v - dt / 2 * lsum (dissipation kappa (fun f => v f + 0) rg) (edges rg)).
    { induction k as [|k IH]; [lia|]. intros _.
      pose proof (loop_energy rg kappa v (Nat.iter k (diffusion_loop (dt / 2) kappa v rg) (fun _ => 0))
                    dt Hs Hk Hi Hst) as Hl. cbv zeta in Hl.
      cbn [Nat.iter nat_rect] in *.
      set (S := lsum (dissipation kappa _ rg) (edges rg)) in Hl.
      assert (0 <= S) by (apply lsum_nonneg; intros; now apply dissipation_nonneg).
      destruct k as [|k].
      - unfold S in *. simpl in Hl. rewrite Hv0 in Hl. exact Hl.
      - specialize (IH ltac:(lia)). cbn [Nat.iter nat_rect] in *. nra. }
    specialize (Hmono N HNn).
    set (S0 := lsum (dissipation kappa (fun f => v f + 0) rg) (edges rg)) in *.
    assert (0 <= S0) by (apply lsum_nonneg; intros; now apply dissipation_nonneg).
    split; [nra|].
    intros e a b Hin (Ha1 & Hb1 & Ha & Hb) Hl Hkk Hne.
    assert (0 < S0); [|nra].
    apply lsum_pos_elem with e; [exact Hin| |intros; now apply dissipation_nonneg].
    unfold dissipation, extract_edge_faces.
    assert (Hb' : ((0 <=? e_f1 e) && (e_f1 e <? Z.of_nat (n_face rg)) && (0 <=? e_f2 e) &&
                   (e_f2 e <? Z.of_nat (n_face rg)))%Z%bool = true)
      by (rewrite !Bool.andb_true_iff, !Z.leb_le, !Z.ltb_lt; lia).
    rewrite Hb', Ha1, Hb1, !Nat2Z.id.
    destruct (proj2 Hs e a b Hin) as [Hd _]; [repeat split; assumption|].
    apply Rmult_lt_0_compat.
    + unfold Rdiv. repeat apply Rmult_lt_0_compat; try lra. now apply Rinv_0_lt_compat.
    + assert (v a + 0 - (v b + 0) <> 0) by lra.
      rewrite <- Rsqr_pow2. now apply Rsqr_pos_lt.
  - rewrite Hv0. split; [lra|].
    intros e a b Hin (Ha1 & Hb1 & Ha & Hb) Hl Hkk Hne. exfalso.
    assert (Hle : inverse_dt_sum kappa rg a <= 0).
    { unfold compute_dt_max in Hdm. apply (min_inv_None _ Hdm).
      apply in_map_iff. exists a. split; [reflexivity|]. apply in_seq. lia. }
    rewrite inv_sum_gather in Hle by assumption.
    assert (0 < lsum (weight kappa rg a) (edges rg)); [|lra].
    apply lsum_pos_elem with e; [exact Hin| |intros; now apply weight_nonneg].
    unfold weight, extract_edge_faces.
    assert (Hb' : ((0 <=? e_f1 e) && (e_f1 e <? Z.of_nat (n_face rg)) && (0 <=? e_f2 e) &&
                   (e_f2 e <? Z.of_nat (n_face rg)))%Z%bool = true)
      by (rewrite !Bool.andb_true_iff, !Z.leb_le, !Z.ltb_lt; lia).
    rewrite Hb', Ha1, Hb1, !Nat2Z.id, Nat.eqb_refl.
    destruct (proj2 Hs e a b Hin) as [Hd _]; [repeat split; assumption|].
    pose proof (proj1 Hs a Ha).
    assert (0 < (kappa a + kappa b) * e_len e / e_dist e / face_area rg a).
    { unfold Rdiv. repeat apply Rmult_lt_0_compat; try lra; now apply Rinv_0_lt_compat. }
    destruct (Nat.eqb a b); lra.
Qed.

(** *** Slope collapse *)
Lemma any_positive_false n kappa : any_positive n kappa = false ->
  forall f, (f < n)%nat -> kappa f <= 0.
Proof.
  unfold any_positive. intros H f Hf.
  destruct (Rlt_dec 0 (kappa f)) as [Hp|Hp]; [|lra]. exfalso.
  enough (E : existsb (fun f => if Rlt_dec 0 (kappa f) then true else false) (seq 0 n) = true)
    by congruence.
  apply existsb_exists. exists f. split; [apply in_seq; lia|].
  destruct (Rlt_dec 0 (kappa f)); [reflexivity|contradiction].
Qed.

Lemma any_steep_false rg c h : any_steep rg c h = false ->
  forall f, (f < n_face rg)%nat -> slope_squared rg h f <= c.
Proof.
  unfold any_steep. intros H f Hf.
  destruct (Rlt_dec c (slope_squared rg h f)) as [Hp|Hp]; [|lra]. exfalso.
  enough (E : existsb (fun f => if Rlt_dec c (slope_squared rg h f) then true else false)
                (seq 0 (n_face rg)) = true) by congruence.
  apply existsb_exists. exists f. split; [apply in_seq; lia|].
  destruct (Rlt_dec c (slope_squared rg h f)); [reflexivity|contradiction].
Qed.

Lemma ones_nonneg rg : nonneg_on rg (fun _ => 1).
Proof. intros f _. lra. Qed.

Lemma slope_squared_nonneg rg h f : 0 <= slope_squared rg h f.
Proof. unfold slope_squared. destruct (compute_one_face_gradient rg h f) as [a b]. nra. Qed.

Lemma collapse_kappa_nonneg rg dm c h : 0 < dm -> 0 < c -> nonneg_on rg (collapse_kappa rg dm c h).
Proof.
  intros Hd Hc f _. unfold collapse_kappa.
  destruct (Rlt_dec c (slope_squared rg h f)); [|lra].
  assert (0 <= slope_squared rg h f / c).
  { apply Rmult_le_pos; [apply slope_squared_nonneg|left; now apply Rinv_0_lt_compat]. }
  nra.
Qed.

Lemma collapse_kappa_pos rg dm c h f : 0 < dm -> 0 < c -> c < slope_squared rg h f ->
  0 < collapse_kappa rg dm c h f.
Proof.
  intros Hd Hc Hs. unfold collapse_kappa.
  destruct (Rlt_dec c (slope_squared rg h f)) as [H|H]; [|contradiction].
  assert (0 <= slope_squared rg h f / c).
  { apply Rmult_le_pos; [apply slope_squared_nonneg|left; now apply Rinv_0_lt_compat]. }
  nra.
Qed.

Lemma energy_ext rg a b : (forall f, a f = b f) -> energy rg a = energy rg b.
Proof. intros H. unfold energy. apply fsum_ext. intros. now rewrite H. Qed.

Lemma collapse_loop_inv fuel rg dm c h0 delta b out lo hi :
  sensible rg -> 0 <= c ->
  (match dm with Some d => 0 < d | None => True end) ->
  volume rg delta = 0 ->
  within rg lo hi (fun f => h0 f + delta f) ->
  collapse_loop fuel rg dm c h0 delta = Ok (b, out) ->
  volume rg out = 0 /\ within rg lo hi (fun f => h0 f + out f) /\
  energy rg (fun f => h0 f + out f) <= energy rg (fun f => h0 f + delta f) /\
  (b = true -> forall f, (f < n_face rg)%nat -> slope_squared rg (fun i => h0 i + out i) f <= c).
Proof.
  intros Hs Hc Hdm. revert delta. induction fuel as [|fuel IH]; intros delta Hv Hw H.
  - simpl in H. injection H as <- <-. split; [exact Hv|]. split; [exact Hw|]. split; [lra|discriminate].
  - cbn [collapse_loop] in H.
    assert (Hbase : any_steep rg c (fun f => h0 f + delta f) = false -> Ok (true, delta) = Ok (b, out) ->
      volume rg out = 0 /\ within rg lo hi (fun f => h0 f + out f) /\
      energy rg (fun f => h0 f + out f) <= energy rg (fun f => h0 f + delta f) /\
      (b = true -> forall f, (f < n_face rg)%nat -> slope_squared rg (fun i => h0 i + out i) f <= c)).
    { intros Ha E. injection E as <- <-. split; [exact Hv|]. split; [exact Hw|]. split; [lra|].
      intros _. now apply any_steep_false. }
    destruct dm as [d|].
    + destruct (Req_EM_T c 0) as [Ec|Ec].
      * destruct (any_steep rg c (fun f => h0 f + delta f)) eqn:Ha; [discriminate|]. now apply Hbase.
      * assert (Hcp : 0 < c) by lra.
        destruct (any_positive (n_face rg) _) eqn:Ha.
        -- pose proof (collapse_kappa_nonneg rg d c (fun f => h0 f + delta f) Hdm Hcp) as Hk.
           set (kap := collapse_kappa rg d c (fun f => h0 f + delta f)) in *.
           pose proof (diffusion_within rg kap _ lo hi Hs Hk Hw) as Hw'.
           pose proof (diffusion_energy rg kap (fun f => h0 f + delta f) Hs Hk) as [He _].
           cbv beta in Hw', He.
           set (dd := apply_diffusion kap (fun f => h0 f + delta f) rg) in *.
           destruct (IH (fun f => delta f + dd f)) as (I1 & I2 & I3 & I4).
           ++ rewrite volume_plus, Hv. unfold dd. rewrite diffusion_volume by exact Hs. ring.
           ++ intros f Hf. specialize (Hw' f Hf). cbv beta in Hw'.
              rewrite <- Rplus_assoc. exact Hw'.
           ++ exact H.
           ++ split; [exact I1|]. split; [exact I2|]. split; [|exact I4].
              eapply Rle_trans; [exact I3|]. eapply Rle_trans; [|exact He].
              right. apply energy_ext. intros f. ring.
        -- injection H as <- <-. split; [exact Hv|]. split; [exact Hw|]. split; [lra|].
           intros _ f Hf. pose proof (any_positive_false _ _ Ha f Hf) as Hle.
           destruct (Rlt_dec c (slope_squared rg (fun i => h0 i + delta i) f)) as [Hlt|]; [|lra].
           pose proof (collapse_kappa_pos rg d c (fun i => h0 i + delta i) f Hdm Hcp Hlt). lra.
    + destruct (any_steep rg c (fun f => h0 f + delta f)) eqn:Ha; [discriminate|]. now apply Hbase.
Qed.

Lemma dt_max_pos kappa rg : match compute_dt_max kappa rg with Some d => 0 < d | None => True end.
Proof.
  destruct (compute_dt_max kappa rg) eqn:E; [|exact I].
  unfold compute_dt_max in E. destruct (min_inv_spec _ _ _ E) as (_ & _ & H). now apply H.
Qed.

Lemma collapse_inv fuel rg cs h0 b out lo hi : sensible rg -> within rg lo hi h0 ->
  slope_collapse fuel cs rg h0 = Ok (b, out) ->
  volume rg out = 0 /\ within rg lo hi (fun f => h0 f + out f) /\
  energy rg (fun f => h0 f + out f) <= energy rg h0 /\
  (b = true -> forall f, (f < n_face rg)%nat -> slope_squared rg (fun i => h0 i + out i) f <= cs * cs).
Proof.
  intros Hs Hw H. unfold slope_collapse in H. cbv zeta in H.
  assert (Hcs : 0 <= cs * cs) by nra.
  destruct (collapse_loop_inv fuel _ _ _ _ _ _ _ lo hi Hs Hcs (dt_max_pos _ _)
              (volume_zero rg)
              ltac:(intros f Hf; rewrite Rplus_0_r; auto) H) as (A & B & C & D).
  repeat split; auto; try apply B; auto.
  eapply Rle_trans; [exact C|]. right. apply energy_ext. intros; ring.
Qed.

Lemma neighbour_edge rg f z x : neighbour rg f z = Some x ->
  exists e a b, In e (edges rg) /\ extract_edge_faces e (n_face rg) = Some (a, b) /\
    0 < e_dist e /\ 0 < e_len e.
Proof.
  unfold neighbour. destruct (z <? 0)%Z; [discriminate|].
  destruct (nth_error (edges rg) (Z.to_nat z)) as [e|] eqn:En; [|discriminate].
  apply nth_error_In in En.
  destruct (extract_edge_faces e (n_face rg)) as [[a b]|] eqn:Hx; [|discriminate].
  intros H. exists e, a, b. split; [exact En|]. split; [exact Hx|].
  destruct (Rle_dec (e_dist e) 0) as [H1|H1]; [destruct (Nat.eqb f a), (Nat.eqb f b); discriminate|].
  destruct (Rle_dec (e_len e) 0) as [H2|H2]; [destruct (Nat.eqb f a), (Nat.eqb f b); discriminate|].
  lra.
Qed.

Lemma filter_map_nil_or {A B} (g : A -> option B) l :
  filter_map g l = [] \/ exists a b, In a l /\ g a = Some b.
Proof.
  induction l as [|a l IH]; [left; reflexivity|]. simpl.
  destruct (g a) as [b|] eqn:E; [right; exists a, b; auto|].
  destruct IH as [->|(x & y & H1 & H2)]; [left; reflexivity|right; exists x, y; auto].
Qed.

Lemma dt_none_flat rg h f : sensible rg -> compute_dt_max (fun _ => 1) rg = None ->
  slope_squared rg h f = 0.
Proof.
  intros Hs Hdm. unfold slope_squared, compute_one_face_gradient.
  destruct (filter_map_nil_or (neighbour rg f) (face_edges rg f)) as [E|(z & x & _ & E)].
  - rewrite E. simpl. ring.
  - exfalso. destruct (neighbour_edge _ _ _ _ E) as (e & a & b & Hin & Hx & Hd & Hl).
    destruct (sensible_edge _ _ _ _ Hs Hin Hx) as (_ & _ & Ha & Hb & HAa & HAb).
    assert (Hle : inverse_dt_sum (fun _ => 1) rg a <= 0).
    { unfold compute_dt_max in Hdm. apply (min_inv_None _ Hdm).
      apply in_map_iff. exists a. split; [reflexivity|]. apply in_seq. lia. }
    rewrite inv_sum_gather in Hle by (auto using ones_nonneg).
    assert (0 < lsum (weight (fun _ => 1) rg a) (edges rg)); [|lra].
    apply lsum_pos_elem with e; [exact Hin| |intros; apply weight_nonneg; auto using ones_nonneg].
    unfold weight. rewrite Hx, Nat.eqb_refl.
    assert (0 < (1 + 1) * e_len e / e_dist e / face_area rg a).
    { unfold Rdiv. repeat apply Rmult_lt_0_compat; try lra; now apply Rinv_0_lt_compat. }
    destruct (Nat.eqb a b); lra.
Qed.

Lemma collapse_ok fuel rg cs h0 : sensible rg -> cs <> 0 -> exists b out, slope_collapse fuel cs rg h0 = Ok (b, out).
Proof.
  intros Hs Hcs. unfold slope_collapse.
  assert (Hc : 0 < cs * cs) by nra.
  assert (G : forall fuel delta, exists b out,
    collapse_loop fuel rg (compute_dt_max (fun _ => 1) rg) (cs * cs) h0 delta = Ok (b, out)).
  { clear fuel. destruct (compute_dt_max (fun _ => 1) rg) as [d|] eqn:E.
    - induction fuel as [|fuel IH]; intros delta; [simpl; eauto|]. cbn [collapse_loop].
      destruct (Req_EM_T (cs * cs) 0) as [Z|_]; [lra|].
      destruct (any_positive _ _); [apply IH|eauto].
    - intros [|fuel] delta; [simpl; eauto|]. cbn [collapse_loop].
      destruct (any_steep rg (cs * cs) (fun f => h0 f + delta f)) eqn:Ha; [|eauto].
      exfalso. unfold any_steep in Ha. apply existsb_exists in Ha.
      destruct Ha as (f & _ & Hf). rewrite dt_none_flat in Hf by assumption.
      destruct (Rlt_dec (cs * cs) 0); [lra|discriminate]. }
  apply G.
Qed.

Lemma collapse_already fuel rg cs h0 : sensible rg -> (0 < fuel)%nat -> cs <> 0 ->
  (forall f, (f < n_face rg)%nat -> slope_squared rg h0 f <= cs * cs) ->
  exists b out, slope_collapse fuel cs rg h0 = Ok (b, out) /\ b = true /\ forall f, out f = 0.
Proof.
  intros Hs Hfuel Hcs Hle. unfold slope_collapse.
  assert (Hc : 0 < cs * cs) by nra.
  assert (Hext : forall f, slope_squared rg (fun i => h0 i + 0) f = slope_squared rg h0 f).
  { intros f. unfold slope_squared, compute_one_face_gradient.
    replace (fold_left _ (filter_map (neighbour rg f) (face_edges rg f)) (0, 0, 0))
      with (fold_left (fun '(dz, dm, ws) '(other, distance, len) =>
      let theta := compute_one_bearing (to_radians (face_lon rg f)) (to_radians (face_lat rg f))
                     (to_radians (face_lon rg other)) (to_radians (face_lat rg other)) in
      let flux := (h0 other - h0 f) * len / distance in
      (dz + flux * sin theta, dm + flux * cos theta, ws + len))
        (filter_map (neighbour rg f) (face_edges rg f)) (0, 0, 0)); [reflexivity|].
    generalize (0, 0, 0). induction (filter_map (neighbour rg f) (face_edges rg f)) as [|[[o d] l] r IH];
      intros [[p q] w]; [reflexivity|]. cbn [fold_left].
    replace (h0 o + 0 - (h0 f + 0)) with (h0 o - h0 f) by ring. apply IH. }
  exists true, (fun _ => 0). split; [|split; reflexivity].
  destruct fuel as [|k]; [lia|]. cbn [collapse_loop].
  destruct (compute_dt_max (fun _ => 1) rg) as [d|] eqn:E.
  - destruct (Req_EM_T (cs * cs) 0) as [Z|_]; [lra|].
    destruct (any_positive _ _) eqn:Ha; [|reflexivity]. exfalso.
    unfold any_positive in Ha. apply existsb_exists in Ha. destruct Ha as (f & Hf & Hp).
    apply in_seq in Hf. unfold collapse_kappa in Hp. rewrite Hext in Hp.
    destruct (Rlt_dec (cs * cs) (slope_squared rg h0 f)) as [H|H].
    + specialize (Hle f ltac:(lia)). lra.
    + destruct (Rlt_dec 0 0); [lra|discriminate].
  - destruct (any_steep _ _ _) eqn:Ha; [|reflexivity]. exfalso.
    unfold any_steep in Ha. apply existsb_exists in Ha.
    destruct Ha as (f & _ & Hf). rewrite dt_none_flat in Hf by assumption.
    destruct (Rlt_dec (cs * cs) 0); [lra|discriminate].
Qed.

Lemma deg_range angle : 0 < angle < 90 -> 0 < to_radians angle < PI / 2.
Proof. intros H. unfold to_radians. pose proof PI_RGT_0. split; nra. Qed.

Lemma slope_deg_le rg h f angle : 0 < angle < 90 ->
  slope_squared rg h f <= tan (to_radians angle) * tan (to_radians angle) <->
  compute_slope_deg rg h f <= angle.
Proof.
  intros Ha. pose proof (deg_range angle Ha) as Hr. pose proof PI_RGT_0 as HPI.
  assert (Ht : 0 < tan (to_radians angle)) by (apply tan_gt_0; lra).
  pose proof (slope_squared_nonneg rg h f) as Hn.
  unfold compute_slope_deg. set (s := slope_squared rg h f) in *.
  set (t := tan (to_radians angle)) in *.
  assert (E1 : s <= t * t <-> sqrt s <= t).
  { split; intros H.
    - rewrite <- (sqrt_square t) by lra. now apply sqrt_le_1_alt.
    - rewrite <- (sqrt_sqrt s) by lra. pose proof (sqrt_pos s). nra. }
  assert (E2 : sqrt s <= t <-> atan (sqrt s) <= to_radians angle).
  { assert (Hat : atan t = to_radians angle) by (apply atan_tan; lra).
    rewrite <- Hat. split; intros H.
    - destruct (Req_dec (sqrt s) t) as [->|]; [lra|]. left. apply atan_increasing. lra.
    - destruct (Rle_dec (sqrt s) t); [assumption|].
      assert (atan t < atan (sqrt s)) by (apply atan_increasing; lra). lra. }
  rewrite E1, E2. unfold to_radians. split; intros H.
  - apply Rmult_le_reg_r with (PI / 180); [lra|].
    replace (atan (sqrt s) * 180 / PI * (PI / 180)) with (atan (sqrt s)) by (field; lra). lra.
  - apply Rmult_le_reg_r with (180 / PI).
    + apply Rdiv_lt_0_compat; lra.
    + replace (angle * PI / 180 * (180 / PI)) with angle by (field; lra). lra.
Qed.

Lemma tan_deg_neq angle : 0 < angle < 90 -> tan (to_radians angle) <> 0.
Proof. intros H. apply deg_range in H. assert (0 < tan (to_radians angle)) by (apply tan_gt_0; lra). lra. Qed.

Lemma collapse_angles limit rg angle h :
  slope_collapse_deg limit (- angle) rg h = slope_collapse_deg limit angle rg h /\
  slope_collapse_deg limit (180 - angle) rg h = slope_collapse_deg limit angle rg h.
Proof.
  unfold slope_collapse_deg, slope_collapse. set (t := tan (to_radians angle)).
  assert (A : tan (to_radians (- angle)) = - t).
  { unfold t, to_radians. replace (- angle * PI / 180) with (- (angle * PI / 180)) by field. apply tan_neg. }
  assert (B : tan (to_radians (180 - angle)) = - t).
  { unfold t, to_radians, tan. replace ((180 - angle) * PI / 180) with (PI - angle * PI / 180) by field.
    rewrite sin_PI_x, Rtrigo_facts.cos_pi_minus. destruct (Req_dec (cos (angle * PI / 180)) 0) as [E|E]; [|field; exact E].
    rewrite E, Ropp_0. unfold Rdiv. rewrite Ropp_mult_distr_l. 
    assert (I : / 0 = 0) by apply Rinv_0. rewrite I. ring. }
  rewrite A, B. replace (- t * - t) with (t * t) by ring. now split.
Qed.

(** *** Node interpolation *)
Lemma node_fold rg h row ws area :
  fold_left (fun '(ws, area) fid =>
      if (fid <? 0)%Z then (ws, area)
      else let f := Z.to_nat fid in (ws + h f * face_area rg f, area + face_area rg f))
      row (ws, area) =
  (ws + lsum (fun f => face_area rg f * h f) (real_faces row),
   area + lsum (face_area rg) (real_faces row)).
Proof.
  revert ws area. induction row as [|z row IH]; intros ws area.
  - simpl. f_equal; ring.
  - cbn [fold_left]. unfold real_faces. cbn [filter].
    destruct (Z.ltb_spec z 0) as [Hz|Hz]; destruct (Z.leb_spec 0 z); try lia.
    + rewrite IH. reflexivity.
    + rewrite IH. cbn [map]. fold (real_faces row). rewrite !lsum_cons. f_equal; ring.
Qed.

Lemma real_faces_lt rg row f : faces_in_range rg row -> In f (real_faces row) -> (f < n_face rg)%nat.
Proof.
  intros Hr H. unfold real_faces in H. apply in_map_iff in H. destruct H as (z & <- & Hz).
  apply filter_In in Hz. destruct Hz as [Hz1 Hz2]. apply Z.leb_le in Hz2.
  specialize (Hr z Hz1). lia.
Qed.

Lemma node_area_pos rg row : sensible rg -> faces_in_range rg row -> real_faces row <> [] ->
  0 < lsum (face_area rg) (real_faces row).
Proof.
  intros Hs Hr Hne. destruct (real_faces row) as [|f l] eqn:E; [congruence|].
  assert (Hall : forall g, In g (f :: l) -> 0 < face_area rg g).
  { intros g Hg. apply (proj1 Hs). apply (real_faces_lt rg row); [exact Hr|now rewrite E]. }
  apply lsum_pos_elem with f; [simpl; auto|apply Hall; simpl; auto|].
  intros b Hb. left. now apply Hall.
Qed.

Lemma node_average rg h row : sensible rg -> faces_in_range rg row -> real_faces row <> [] ->
  node_elevation rg h row =
  lsum (fun f => face_area rg f * h f) (real_faces row) / lsum (face_area rg) (real_faces row).
Proof.
  intros Hs Hr Hne. pose proof (node_area_pos rg row Hs Hr Hne) as Hp.
  unfold node_elevation. rewrite node_fold, !Rplus_0_l.
  destruct (Rlt_dec 0 (lsum (face_area rg) (real_faces row))); [reflexivity|contradiction].
Qed.

Lemma node_bounds rg h row lo hi : sensible rg -> faces_in_range rg row -> real_faces row <> [] ->
  (forall f, In f (real_faces row) -> lo <= h f <= hi) ->
  lo <= node_elevation rg h row <= hi.
Proof.
  intros Hs Hr Hne Hb. rewrite node_average by assumption.
  pose proof (node_area_pos rg row Hs Hr Hne) as Hp.
  assert (Hl : forall c, (c * lsum (face_area rg) (real_faces row) =
                lsum (fun f => c * face_area rg f) (real_faces row))).
  { intros c. now rewrite lsum_scal. }
  assert (HA : forall f, In f (real_faces row) -> 0 < face_area rg f)
    by (intros f Hf; apply (proj1 Hs); now apply (real_faces_lt rg row)).
  split.
  - apply Rmult_le_reg_r with (lsum (face_area rg) (real_faces row)); [exact Hp|].
    unfold Rdiv. rewrite Rmult_assoc, Rinv_l, Rmult_1_r, Hl by lra.
    apply lsum_le. intros f Hf. pose proof (HA f Hf). pose proof (Hb f Hf). nra.
  - apply Rmult_le_reg_r with (lsum (face_area rg) (real_faces row)); [exact Hp|].
    unfold Rdiv. rewrite Rmult_assoc, Rinv_l, Rmult_1_r, Hl by lra.
    apply lsum_le. intros f Hf. pose proof (HA f Hf). pose proof (Hb f Hf). nra.
Qed.

Lemma node_no_faces rg h row : real_faces row = [] -> node_elevation rg h row = 0.
Proof.
  intros E. unfold node_elevation. rewrite node_fold, E. simpl. rewrite !Rplus_0_l.
  destruct (Rlt_dec 0 0); [lra|reflexivity].
Qed.

(** *** The Python entry point *)
Lemma existsb_neg_false n (k : nat -> R) :
  existsb (fun f => if Rlt_dec (k f) 0 then true else false) (seq 0 n) = false ->
  forall f, (f < n)%nat -> 0 <= k f.
Proof.
  intros H f Hf. destruct (Rlt_dec (k f) 0) as [Hp|Hp]; [|lra]. exfalso.
  enough (E : existsb (fun f => if Rlt_dec (k f) 0 then true else false) (seq 0 n) = true)
    by congruence.
  apply existsb_exists. exists f. split; [apply in_seq; lia|].
  destruct (Rlt_dec (k f) 0); [reflexivity|contradiction].
Qed.

Lemma py_diffusion_err rg k el ej :
  py_apply_diffusion k rg el ej = Err ValueError <-> exists f, (f < n_face rg)%nat /\ k f < 0.
Proof.
  unfold py_apply_diffusion.
  destruct (existsb _ (seq 0 (n_face rg))) eqn:E.
  - split; [intros _|reflexivity]. apply existsb_exists in E. destruct E as (f & Hf & Hp).
    exists f. apply in_seq in Hf. split; [lia|]. destruct (Rlt_dec (k f) 0); [assumption|discriminate].
  - split.
    + destruct (Rlt_dec _ VSMALL); discriminate.
    + intros (f & Hf & Hlt). pose proof (existsb_neg_false _ _ E f Hf). lra.
Qed.

Lemma py_diffusion_ok rg k el ej el' ej' : py_apply_diffusion k rg el ej = Ok (el', ej') ->
  nonneg_on rg k /\
  ((el' = el /\ ej' = ej) \/
   (el' = (fun f => el f + apply_diffusion k el rg f) /\
    ej' = (fun f => Rmax 0 (ej f + apply_diffusion k el rg f)))).
Proof.
  unfold py_apply_diffusion. intros H.
  destruct (existsb _ (seq 0 (n_face rg))) eqn:E; [discriminate|].
  split; [intros f Hf; now apply (existsb_neg_false _ _ E)|].
  destruct (Rlt_dec _ VSMALL); injection H as <- <-; auto.
Qed.

Lemma volume_ext rg a b : (forall f, a f = b f) -> volume rg a = volume rg b.
Proof. intros H. unfold volume. apply fsum_ext. intros. now rewrite H. Qed.

Lemma py_diffusion_props rg k el ej el' ej' lo hi : sensible rg ->
  py_apply_diffusion k rg el ej = Ok (el', ej') ->
  within rg lo hi el ->
  volume rg el' = volume rg el /\ within rg lo hi el'.
Proof.
  intros Hs H Hw. destruct (py_diffusion_ok _ _ _ _ _ _ H) as [Hk [[-> ->]|[-> ->]]]; [auto|].
  split; [|now apply diffusion_within].
  rewrite volume_plus, diffusion_volume by exact Hs. ring.
Qed.

(** *** A concrete mesh for the examples: three unit cells in a row, with fill
    values on the outer edges. *)
Definition tri_row : region := {|
  n_face := 3; face_area := fun _ => 1;
  face_lon := fun f => INR f; face_lat := fun _ => 0;
  edges := [mk_edge 0 1 1 1; mk_edge 1 2 1 1; mk_edge (-1) 0 1 1; mk_edge 2 (-1) 0 1];
  face_edges := fun f => match f with 0%nat => [0; 2]%Z | 1%nat => [0; 1]%Z | _ => [1; 3]%Z end;
  node_faces := [[0; 1]%Z; [1; 2]%Z; [-1; -1]%Z] |}.
Definition step_height (f : nat) : R := match f with O => 5 | _ => 0 end.

Lemma tri_row_sensible : sensible tri_row.
Proof.
  split.
  - intros f _. simpl. lra.
  - intros e a b Hin (H1 & H2 & _). simpl in Hin.
    destruct Hin as [<-|[<-|[<-|[<-|[]]]]]; simpl in *; try lra; lia.
Qed.

Lemma tri_row_within : within tri_row 0 5 step_height.
Proof. intros f _. unfold step_height. destruct f; lra. Qed.

Lemma tri_row_joins : joins tri_row (mk_edge 0 1 1 1) 0 1.
Proof. unfold joins. simpl. repeat split; lia. Qed.
