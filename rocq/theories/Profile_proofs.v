(** Lemmas about the crater and ejecta profiles. *)
From Coq Require Import Reals Lra Psatz.
From Verif Require Import Common Profile_model Profile_spec.
Open Scope R_scope.

Definition gpoly (x : R) : R := x + coef_A * x ^ 2 + coef_B * x ^ 3.

Lemma gpoly_diff : forall x y,
  gpoly y - gpoly x = (y - x) * (1 + coef_A * (x + y) + coef_B * (x ^ 2 + x * y + y ^ 2)).
Proof. intros. unfold gpoly. ring. Qed.

Lemma gpoly_slope : forall x y, 0 <= x <= 1 -> 0 <= y <= 1 ->
  1 / 3 <= 1 + coef_A * (x + y) + coef_B * (x ^ 2 + x * y + y ^ 2) <= 2.
Proof.
  intros x y Hx Hy. unfold coef_A, coef_B.
  assert (0 <= x ^ 2 + x * y + y ^ 2 <= 3) by nra. lra.
Qed.

Lemma gpoly_le : forall x y, 0 <= x -> x <= y -> y <= 1 -> gpoly x <= gpoly y.
Proof.
  intros. pose proof (gpoly_diff x y). pose proof (gpoly_slope x y ltac:(lra) ltac:(lra)). nra.
Qed.

Lemma gpoly_lt : forall x y, 0 <= x -> x < y -> y <= 1 -> gpoly x < gpoly y.
Proof.
  intros. pose proof (gpoly_diff x y). pose proof (gpoly_slope x y ltac:(lra) ltac:(lra)). nra.
Qed.

(** Slope coefficient of the interior polynomial. *)
Definition c1_of (p : shape) : R :=
  (rim_height p - floor_depth p) / (gpoly 1 - gpoly (floor_diameter p / diameter p)).

Lemma flrad_range : forall p, admissible p -> 0 < floor_diameter p / diameter p < 1.
Proof.
  intros p (Hd & [Hf Hfd] & _). split.
  - apply Rdiv_lt_0_compat; lra.
  - apply Rmult_lt_reg_r with (diameter p); [lra|]. unfold Rdiv.
    rewrite Rmult_assoc, Rinv_l by lra. lra.
Qed.

Lemma c1_pos : forall p, admissible p -> 0 < c1_of p.
Proof.
  intros p H. pose proof (flrad_range p H) as F. destruct H as (Hd & Hf & Hr).
  unfold c1_of. apply Rdiv_lt_0_compat; [lra|].
  pose proof (gpoly_lt (floor_diameter p / diameter p) 1 ltac:(lra) ltac:(lra) ltac:(lra)). lra.
Qed.

Lemma c1_floor : forall p, admissible p ->
  c1_of p * (gpoly (floor_diameter p / diameter p) - gpoly 1) = floor_depth p - rim_height p.
Proof.
  intros p H. pose proof (flrad_range p H) as F. destruct H as (Hd & Hf & Hr).
  pose proof (gpoly_lt (floor_diameter p / diameter p) 1 ltac:(lra) ltac:(lra) ltac:(lra)).
  unfold c1_of. field. lra.
Qed.

(** Value at one point given the mean reference [m]. *)
Definition height (p : shape) (m r e : R) : R :=
  let radius := diameter p / 2 in
  let h := if Rle_dec 1 (r / radius) then e + (rim_height p - ejrim p) * Rpower (r / radius) (- RIMDROP)
           else e + rim_height p + c1_of p * (gpoly (r / radius) - gpoly 1) in
  if Rle_dec r radius then Rmax h (m + floor_depth p) else h.

Lemma profile_heights : forall p pts out, admissible p -> crater_profile p pts = Ok out ->
  exists m, meanref (diameter p / 2) pts = Some m /\
    out = map (fun q => height p m (fst q) (snd q)) pts.
Proof.
  intros p pts out H E. unfold crater_profile in E.
  destruct (meanref (diameter p / 2) pts) as [m|]; [|discriminate].
  exists m. split; [reflexivity|].
  apply (f_equal (fun x : result (list R) => match x with Ok a => a | Err _ => [] end)) in E.
  cbv beta iota zeta in E. subst out.
  apply map_ext. intros [r e]. cbn [fst snd]. unfold height, crater_profile_function. cbv zeta.
  pose proof (flrad_range p H) as F. pose proof H as (Hd & Hf & Hr).
  pose proof (gpoly_lt (floor_diameter p / diameter p) 1 ltac:(lra) ltac:(lra) ltac:(lra)) as G.
  set (fl := floor_diameter p / diameter p) in *.
  assert (D : fl - 1 + coef_A * (fl ^ 2 - 1) + coef_B * (fl ^ 3 - 1) = gpoly fl - gpoly 1)
    by (unfold gpoly; ring).
  rewrite D.
  assert (C : (floor_depth p - rim_height p) / (gpoly fl - gpoly 1) = c1_of p).
  { unfold c1_of. fold fl. field. lra. }
  rewrite C. set (x := r / (diameter p / 2)).
  assert (P : forall A B : R, A = B -> (if Rle_dec r (diameter p / 2) then Rmax A (m + floor_depth p) else A)
    = (if Rle_dec r (diameter p / 2) then Rmax B (m + floor_depth p) else B)) by (intros; subst; reflexivity).
  apply P. destruct (Rle_dec 1 x); [reflexivity|]. unfold gpoly. ring.
Qed.

Lemma entry_height : forall p pts out r e z, admissible p -> crater_profile p pts = Ok out ->
  entry pts out r e z ->
  exists m, meanref (diameter p / 2) pts = Some m /\ z = height p m r e /\ In (r, e) pts.
Proof.
  intros p pts out r e z H E (i & Hi & Ho).
  destruct (profile_heights _ _ _ H E) as (m & Hm & ->). exists m. split; [exact Hm|].
  rewrite nth_error_map, Hi in Ho. simpl in Ho. injection Ho as <-. split; [reflexivity|].
  eapply nth_error_In; eauto.
Qed.

Lemma profile_total : forall p pts, pts <> [] -> exists out, crater_profile p pts = Ok out.
Proof.
  intros p pts H. unfold crater_profile.
  destruct (meanref (diameter p / 2) pts) as [m|] eqn:E; [eauto|].
  exfalso. unfold meanref in E. destruct pts as [|q t]; [congruence|].
  destruct (filter _ _); discriminate.
Qed.

Lemma sum_list_const : forall e l, (forall x, In x l -> x = e) -> sum_list l = e * INR (List.length l).
Proof.
  intros e l H. induction l as [|a l IH]; simpl List.length; [simpl; ring|].
  rewrite S_INR. simpl. rewrite IH by (intros; apply H; right; assumption).
  rewrite (H a) by (left; reflexivity). ring.
Qed.

Lemma nearest_in : forall l b, nearest b l = b \/ In (nearest b l) l.
Proof.
  induction l as [|a l IH]; intro b; simpl; [auto|].
  destruct (Rlt_dec (fst a) (fst b)).
  - destruct (IH a) as [-> | H]; auto.
  - destruct (IH b) as [-> | H]; auto.
Qed.

Lemma some_inj : forall (A : Type) (a b : A), Some a = Some b -> a = b.
Proof. congruence. Qed.

Lemma meanref_flat : forall radius pts e m, flat e pts -> meanref radius pts = Some m -> m = e.
Proof.
  intros radius pts e m F. unfold meanref.
  destruct (filter _ pts) as [|q t] eqn:Ef.
  - destruct pts as [|q t]; [discriminate|]. intro H. injection H as <-.
    destruct (nearest_in t q) as [-> | Hn].
    + destruct q as [a b]. simpl. apply (F a). left. reflexivity.
    + destruct (nearest q t) as [a b]. simpl. apply (F a). right. assumption.
  - intro H. apply some_inj in H. subst m.
    assert (S : sum_list (map snd (q :: t)) = e * INR (List.length (q :: t))).
    { rewrite (sum_list_const e); [rewrite map_length; reflexivity|].
      intros x Hx. apply in_map_iff in Hx. destruct Hx as ((a & b) & <- & Hin). simpl. apply (F a).
      rewrite <- Ef in Hin. apply filter_In in Hin. tauto. }
    rewrite S. field. apply not_0_INR. simpl. lia.
Qed.

Lemma meanref_mean : forall radius pts m,
  meanref radius pts = Some m -> inside_refs radius pts <> [] -> is_mean (inside_refs radius pts) m.
Proof.
  intros radius pts m H N. unfold is_mean. split; [exact N|].
  unfold inside_refs, meanref in *. destruct (filter _ pts) as [|q t]; [simpl in N; congruence|].
  apply some_inj in H. subst m. rewrite map_length. unfold sum_list. field. apply not_0_INR. simpl. lia.
Qed.

Lemma ratio_ge1 : forall r Rc, 0 < Rc -> (1 <= r / Rc <-> Rc <= r).
Proof.
  intros. split; intro H0.
  - apply Rmult_le_compat_r with (r := Rc) in H0; [|lra].
    replace (r / Rc * Rc) with r in H0 by (field; lra). lra.
  - apply Rmult_le_reg_r with Rc; [lra|]. unfold Rdiv. rewrite Rmult_assoc, Rinv_l by lra. lra.
Qed.

Lemma ratio_le : forall r s Rc, 0 < Rc -> r <= s -> r / Rc <= s / Rc.
Proof. intros. unfold Rdiv. apply Rmult_le_compat_r; [|lra]. left. apply Rinv_0_lt_compat. lra. Qed.

Lemma ratio_self : forall Rc, 0 < Rc -> Rc / Rc = 1.
Proof. intros. field. lra. Qed.

Lemma ratio_nonneg : forall r Rc, 0 < Rc -> 0 <= r -> 0 <= r / Rc.
Proof. intros. unfold Rdiv. apply Rmult_le_pos; [lra|]. left. apply Rinv_0_lt_compat. lra. Qed.

Lemma Rpower_1_l : forall y, Rpower 1 y = 1.
Proof. intros. unfold Rpower. rewrite ln_1, Rmult_0_r. apply exp_0. Qed.

Lemma Rpower_pos : forall x y, 0 < Rpower x y.
Proof. intros. unfold Rpower. apply exp_pos. Qed.

Lemma Rpower_neg_le : forall x y k, 0 < x -> x <= y -> 0 <= k -> Rpower y (- k) <= Rpower x (- k).
Proof.
  intros x y k Hx Hxy Hk. rewrite !Rpower_Ropp.
  apply Rinv_le_contravar; [apply Rpower_pos|]. apply Rle_Rpower_l; lra.
Qed.

Lemma Rpower_neg_le1 : forall x k, 1 <= x -> 0 <= k -> Rpower x (- k) <= 1.
Proof. intros. rewrite <- (Rpower_1_l (- k)). apply Rpower_neg_le; lra. Qed.

(** ** C32 *)

(** Interior of a flat reference in closed form. *)
Lemma height_inside_flat : forall p e r, admissible p -> 0 <= r < diameter p / 2 ->
  height p e r e = Rmax (e + rim_height p + c1_of p * (gpoly (r / (diameter p / 2)) - gpoly 1))
                        (e + floor_depth p).
Proof.
  intros p e r H Hr. pose proof H as (Hd & _). unfold height.
  destruct (Rle_dec 1 (r / (diameter p / 2))) as [L|L].
  - exfalso. assert (diameter p / 2 <= r) by (apply (proj1 (ratio_ge1 r (diameter p / 2) ltac:(lra))); exact L). lra.
  - destruct (Rle_dec r (diameter p / 2)); [reflexivity|lra].
Qed.

Lemma ratio_floor : forall p, 0 < diameter p ->
  floor_diameter p / 2 / (diameter p / 2) = floor_diameter p / diameter p.
Proof. intros. field. lra. Qed.

Lemma floor_flat : forall p pts out e r z, admissible p -> flat e pts ->
  crater_profile p pts = Ok out -> entry pts out r e z ->
  0 <= r <= floor_diameter p / 2 -> z = e + floor_depth p.
Proof.
  intros p pts out e r z H F E En Hr.
  destruct (entry_height _ _ _ _ _ _ H E En) as (m & Hm & -> & _).
  rewrite (meanref_flat _ _ _ _ F Hm).
  pose proof H as (Hd & Hf & Hrim).
  rewrite height_inside_flat by (auto; lra).
  pose proof (c1_floor p H). pose proof (c1_pos p H). pose proof (flrad_range p H).
  assert (G : gpoly (r / (diameter p / 2)) <= gpoly (floor_diameter p / diameter p)).
  { apply gpoly_le; [apply ratio_nonneg; lra| |lra]. rewrite <- ratio_floor by lra. apply ratio_le; lra. }
  rewrite Rmax_right; [reflexivity|]. nra.
Qed.

Lemma wall_rises : forall p pts out e r1 r2 z1 z2, admissible p -> flat e pts ->
  crater_profile p pts = Ok out -> entry pts out r1 e z1 -> entry pts out r2 e z2 ->
  floor_diameter p / 2 <= r1 -> r1 < r2 -> r2 < diameter p / 2 -> z1 < z2 < e + rim_height p.
Proof.
  intros p pts out e r1 r2 z1 z2 H F E E1 E2 Ha Hb Hc.
  destruct (entry_height _ _ _ _ _ _ H E E1) as (m & Hm & -> & _).
  destruct (entry_height _ _ _ _ _ _ H E E2) as (m' & Hm' & -> & _).
  rewrite (meanref_flat _ _ _ _ F Hm), (meanref_flat _ _ _ _ F Hm').
  pose proof H as (Hd & Hf & Hrim).
  rewrite !height_inside_flat by (auto; lra).
  pose proof (c1_floor p H) as CF. pose proof (c1_pos p H) as CP. pose proof (flrad_range p H).
  set (Rc := diameter p / 2) in *. assert (0 < Rc) by (unfold Rc; lra).
  assert (G1 : gpoly (floor_diameter p / diameter p) <= gpoly (r1 / Rc)).
  { apply gpoly_le; [lra| |].
    - rewrite <- ratio_floor by lra. apply ratio_le; lra.
    - rewrite <- (ratio_self Rc) by lra. apply ratio_le; lra. }
  assert (L : r1 / Rc < r2 / Rc).
  { unfold Rdiv. apply Rmult_lt_compat_r; [apply Rinv_0_lt_compat; lra|lra]. }
  assert (L2 : r2 / Rc < 1).
  { rewrite <- (ratio_self Rc) by lra. unfold Rdiv. apply Rmult_lt_compat_r; [apply Rinv_0_lt_compat; lra|lra]. }
  assert (0 <= r1 / Rc) by (apply ratio_nonneg; lra).
  pose proof (gpoly_lt (r1 / Rc) (r2 / Rc) ltac:(lra) L ltac:(lra)).
  pose proof (gpoly_lt (r2 / Rc) 1 ltac:(lra) L2 ltac:(lra)).
  rewrite !Rmax_left by nra. nra.
Qed.

Lemma never_below_floor : forall p pts out r e z m, admissible p ->
  crater_profile p pts = Ok out -> entry pts out r e z -> r <= diameter p / 2 ->
  is_mean (inside_refs (diameter p / 2) pts) m -> m + floor_depth p <= z.
Proof.
  intros p pts out r e z m H E En Hr [N M].
  destruct (entry_height _ _ _ _ _ _ H E En) as (m' & Hm & -> & _).
  destruct (meanref_mean _ _ _ Hm N) as [_ M'].
  assert (m = m').
  { apply Rmult_eq_reg_r with (INR (List.length (inside_refs (diameter p / 2) pts))); [congruence|].
    apply not_0_INR. destruct (inside_refs (diameter p / 2) pts); simpl; [congruence|lia]. }
  subst m'. unfold height. destruct (Rle_dec r (diameter p / 2)); [|contradiction].
  apply Rmax_r.
Qed.

Lemma inside_nonempty : forall p pts out r e z, entry pts out r e z -> r <= diameter p / 2 ->
  inside_refs (diameter p / 2) pts <> [].
Proof.
  intros p pts out r e z (i & Hi & _) Hr. unfold inside_refs.
  apply nth_error_In in Hi. intro C.
  assert (I : In (r, e) (filter (fun q => if Rle_dec (fst q) (diameter p / 2) then true else false) pts)).
  { apply filter_In. split; [assumption|]. simpl. destruct (Rle_dec r (diameter p / 2)); tauto. }
  destruct (filter _ pts); [destruct I|discriminate].
Qed.

Lemma exterior_value : forall p m r e, 0 < diameter p -> diameter p / 2 < r ->
  height p m r e = e + (rim_height p - ejrim p) * Rpower (r / (diameter p / 2)) (- RIMDROP).
Proof.
  intros p m r e Hd Hr. unfold height.
  destruct (Rle_dec 1 (r / (diameter p / 2))) as [L|L]; [|elim L; apply ratio_ge1; lra].
  destruct (Rle_dec r (diameter p / 2)); [lra|reflexivity].
Qed.

Lemma rim_value : forall p m e, admissible p -> m <= e -> ejrim p <= rim_height p - floor_depth p ->
  height p m (diameter p / 2) e = e + rim_height p - ejrim p.
Proof.
  intros p m e H Hm Hj. pose proof H as (Hd & Hf & Hrim). unfold height.
  rewrite ratio_self by lra. destruct (Rle_dec 1 1); [|lra].
  destruct (Rle_dec (diameter p / 2) (diameter p / 2)); [|lra].
  rewrite Rpower_1_l, Rmax_left; [ring|lra].
Qed.

Lemma exterior_between : forall p pts out r e z, admissible p -> ejrim p <= rim_height p ->
  crater_profile p pts = Ok out -> entry pts out r e z -> diameter p / 2 < r ->
  e <= z <= e + (rim_height p - ejrim p).
Proof.
  intros p pts out r e z H Hj E En Hr.
  destruct (entry_height _ _ _ _ _ _ H E En) as (m & Hm & -> & _). pose proof H as (Hd & _).
  rewrite exterior_value by auto.
  pose proof (Rpower_pos (r / (diameter p / 2)) (- RIMDROP)).
  assert (Rpower (r / (diameter p / 2)) (- RIMDROP) <= 1).
  { apply Rpower_neg_le1; [apply ratio_ge1; lra|unfold RIMDROP; lra]. }
  nra.
Qed.

Lemma exterior_falls : forall p pts out r1 r2 e z1 z2, admissible p -> ejrim p <= rim_height p ->
  crater_profile p pts = Ok out -> entry pts out r1 e z1 -> entry pts out r2 e z2 ->
  diameter p / 2 < r1 -> r1 <= r2 -> z2 <= z1.
Proof.
  intros p pts out r1 r2 e z1 z2 H Hj E E1 E2 Ha Hb.
  destruct (entry_height _ _ _ _ _ _ H E E1) as (m & Hm & -> & _).
  destruct (entry_height _ _ _ _ _ _ H E E2) as (m' & Hm' & -> & _). pose proof H as (Hd & _).
  rewrite !exterior_value by (auto; lra).
  assert (Rpower (r2 / (diameter p / 2)) (- RIMDROP) <= Rpower (r1 / (diameter p / 2)) (- RIMDROP)).
  { apply Rpower_neg_le; [|apply ratio_le; lra|unfold RIMDROP; lra].
    apply Rdiv_lt_0_compat; lra. }
  nra.
Qed.

(** *** Continuity at the rim of crater plus ejecta. *)
Lemma Rpower_cont_1 : forall k eps, 0 < eps -> exists d, 0 < d /\
  forall x, 1 <= x < 1 + d -> Rabs (Rpower x k - 1) < eps.
Proof.
  intros k eps He.
  assert (C : continuity_pt (fun x => exp (k * ln x)) 1).
  { apply (continuity_pt_comp (fun x => k * ln x) exp).
    - apply (continuity_pt_scal ln k).
      apply derivable_continuous_pt. exists (/ 1). apply derivable_pt_lim_ln. lra.
    - apply derivable_continuous_pt. apply derivable_pt_exp. }
  destruct (C eps He) as (a & Ha & Hx). exists a. split; [exact Ha|].
  intros x [L U]. destruct (Req_dec x 1) as [->|Ne].
  - rewrite Rpower_1_l. rewrite Rabs_pos_eq; lra.
  - specialize (Hx x). simpl in Hx. unfold R_dist in Hx. unfold Rpower.
    rewrite ln_1, Rmult_0_r, exp_0 in Hx. apply Hx. split.
    + split; [exact I|]. auto.
    + rewrite Rabs_pos_eq; lra.
Qed.

Lemma rim_continuous : forall p e eps, admissible p -> ejrim p <= rim_height p - floor_depth p ->
  0 < eps -> exists d, 0 < d /\
  forall pts out r z, flat e pts -> crater_profile p pts = Ok out -> entry pts out r e z ->
    Rabs (r - diameter p / 2) < d ->
    Rabs (z + ejecta_profile_function r (diameter p / 2) (ejrim p) - (e + rim_height p)) < eps.
Proof.
  intros p e eps H Hj He. pose proof H as (Hd & Hf & Hrim).
  set (Rc := diameter p / 2). assert (HR : 0 < Rc) by (unfold Rc; lra).
  pose proof (c1_pos p H) as CP.
  set (K := Rabs (rim_height p - ejrim p) + Rabs (ejrim p) + 1).
  assert (HK : 0 < K) by (unfold K; pose proof (Rabs_pos (rim_height p - ejrim p)); pose proof (Rabs_pos (ejrim p)); lra).
  destruct (Rpower_cont_1 (- RIMDROP) (eps / K) ltac:(apply Rdiv_lt_0_compat; lra)) as (d1 & D1 & P1).
  destruct (Rpower_cont_1 (- EJPROFILE) (eps / K) ltac:(apply Rdiv_lt_0_compat; lra)) as (d2 & D2 & P2).
  set (d3 := eps / (2 * c1_of p + 1)).
  assert (D3 : 0 < d3) by (apply Rdiv_lt_0_compat; lra).
  exists (Rc * Rmin (Rmin d1 d2) (Rmin d3 1)).
  assert (M0 : 0 < Rmin (Rmin d1 d2) (Rmin d3 1)) by (repeat apply Rmin_glb_lt; lra).
  split; [apply Rmult_lt_0_compat; lra|].
  intros pts out r z F E En Hr.
  destruct (entry_height _ _ _ _ _ _ H E En) as (m & Hm & -> & _).
  rewrite (meanref_flat _ _ _ _ F Hm). fold Rc.
  assert (Mle : Rmin (Rmin d1 d2) (Rmin d3 1) <= d1 /\ Rmin (Rmin d1 d2) (Rmin d3 1) <= d2
             /\ Rmin (Rmin d1 d2) (Rmin d3 1) <= d3 /\ Rmin (Rmin d1 d2) (Rmin d3 1) <= 1).
  { pose proof (Rmin_l (Rmin d1 d2) (Rmin d3 1)). pose proof (Rmin_r (Rmin d1 d2) (Rmin d3 1)).
    pose proof (Rmin_l d1 d2). pose proof (Rmin_r d1 d2). pose proof (Rmin_l d3 1). pose proof (Rmin_r d3 1). lra. }
  set (mm := Rmin (Rmin d1 d2) (Rmin d3 1)) in *.
  fold Rc in Hr.
  assert (X : r = (r / Rc) * Rc) by (field; lra).
  set (x := r / Rc) in *.
  assert (Hx : Rabs (x - 1) < mm).
  { replace (x - 1) with ((r - Rc) / Rc) by (unfold x; field; lra).
    unfold Rdiv. rewrite Rabs_mult, (Rabs_pos_eq (/ Rc)) by (left; apply Rinv_0_lt_compat; lra).
    apply Rmult_lt_reg_r with Rc; [lra|]. rewrite Rmult_assoc, Rinv_l by lra. lra. }
  apply Rabs_def2 in Hx.
  assert (Ext : 1 <= x -> Rabs (e + (rim_height p - ejrim p) * Rpower x (- RIMDROP)
     + ejrim p * Rpower x (- EJPROFILE) - (e + rim_height p)) < eps).
  { intro L.
    replace (e + (rim_height p - ejrim p) * Rpower x (- RIMDROP)
     + ejrim p * Rpower x (- EJPROFILE) - (e + rim_height p)) with
     ((rim_height p - ejrim p) * (Rpower x (- RIMDROP) - 1) + ejrim p * (Rpower x (- EJPROFILE) - 1)) by ring.
    eapply Rle_lt_trans; [apply Rabs_triang|]. rewrite !Rabs_mult.
    pose proof (P1 x ltac:(lra)) as Q1. pose proof (P2 x ltac:(lra)) as Q2.
    pose proof (Rabs_pos (rim_height p - ejrim p)). pose proof (Rabs_pos (ejrim p)).
    assert (S : eps / K * K = eps) by (field; lra).
    assert (0 < eps / K) by (apply Rdiv_lt_0_compat; lra).
    set (q := eps / K) in *.
    assert (Rabs (rim_height p - ejrim p) * Rabs (Rpower x (- RIMDROP) - 1) <= Rabs (rim_height p - ejrim p) * q)
      by (apply Rmult_le_compat_l; lra).
    assert (Rabs (ejrim p) * Rabs (Rpower x (- EJPROFILE) - 1) <= Rabs (ejrim p) * q)
      by (apply Rmult_le_compat_l; lra).
    unfold K in S. lra. }
  destruct (Rlt_le_dec r Rc) as [In|Out].
  - assert (R1 : 0 <= r < diameter p / 2).
    { fold Rc. split; [|lra]. rewrite X. apply Rmult_le_pos; lra. }
    rewrite height_inside_flat by auto. fold Rc x.
    unfold ejecta_profile_function. destruct (Rle_dec Rc r); [lra|].
    assert (Xlt : x < 1).
    { apply Rmult_lt_reg_r with Rc; [lra|]. rewrite <- X. lra. }
    pose proof (gpoly_diff x 1) as GD. pose proof (gpoly_slope x 1 ltac:(lra) ltac:(lra)) as GS.
    assert (Q : d3 * (2 * c1_of p + 1) = eps) by (unfold d3; field; lra).
    set (B := 1 + coef_A * (x + 1) + coef_B * (x ^ 2 + x * 1 + 1 ^ 2)) in *.
    assert (LB : - eps < c1_of p * (gpoly x - gpoly 1) <= 0).
    { replace (gpoly x - gpoly 1) with (- ((1 - x) * B)) by lra.
      assert (0 <= (1 - x) * B) by (apply Rmult_le_pos; lra).
      assert ((1 - x) * B <= d3 * 2) by (apply Rmult_le_compat; lra).
      assert (0 <= c1_of p * ((1 - x) * B)) by (apply Rmult_le_pos; lra).
      assert (c1_of p * ((1 - x) * B) <= c1_of p * (d3 * 2)) by (apply Rmult_le_compat_l; lra).
      lra. }
    unfold Rmax. destruct (Rle_dec _ _) as [L|L].
    + apply Rabs_def1; lra.
    + apply Rabs_def1; lra.
  - assert (L : 1 <= x) by (apply ratio_ge1; lra).
    unfold ejecta_profile_function. destruct (Rle_dec Rc r); [|lra]. fold x.
    destruct (Req_dec r Rc) as [Er|Nr].
    + assert (X1 : x = 1) by (unfold x; rewrite Er; apply ratio_self; lra).
      rewrite Er. unfold Rc. rewrite rim_value by (auto; lra).
      rewrite X1, Rpower_1_l. rewrite Rabs_pos_eq; lra.
    + rewrite exterior_value by (auto; fold Rc; lra). fold Rc x. auto.
Qed.

(** ** Ejecta *)
Lemma ejecta_facts : forall Rc ej, 0 < Rc -> 0 <= ej ->
  (forall r, r < Rc -> ejecta_profile_function r Rc ej = 0) /\
  ejecta_profile_function Rc Rc ej = ej /\
  (forall r, 0 <= ejecta_profile_function r Rc ej <= ej) /\
  (forall r s, Rc <= r <= s -> ejecta_profile_function s Rc ej <= ejecta_profile_function r Rc ej) /\
  (forall r, Rc <= r -> ejecta_profile_function r Rc ej = ej * (Rc / r) ^ 3).
Proof.
  intros Rc ej HR He. unfold ejecta_profile_function.
  assert (P : forall r, Rc <= r -> Rpower (r / Rc) (- EJPROFILE) <= 1).
  { intros r Hr. apply Rpower_neg_le1; [apply ratio_ge1; lra|unfold EJPROFILE; lra]. }
  repeat split.
  - intros r Hr. destruct (Rle_dec Rc r); [lra|reflexivity].
  - destruct (Rle_dec Rc Rc); [|lra]. rewrite ratio_self, Rpower_1_l by lra. ring.
  - destruct (Rle_dec Rc r); [|lra]. pose proof (Rpower_pos (r / Rc) (- EJPROFILE)). nra.
  - destruct (Rle_dec Rc r); [|lra]. specialize (P r ltac:(lra)).
    pose proof (Rpower_pos (r / Rc) (- EJPROFILE)). nra.
  - intros r s [H1 H2]. destruct (Rle_dec Rc r); [|lra]. destruct (Rle_dec Rc s); [|lra].
    apply Rmult_le_compat_l; [lra|]. apply Rpower_neg_le.
    + apply Rdiv_lt_0_compat; lra.
    + apply ratio_le; lra.
    + unfold EJPROFILE; lra.
  - intros r Hr. destruct (Rle_dec Rc r); [|lra]. f_equal.
    assert (0 < r / Rc) by (apply Rdiv_lt_0_compat; lra).
    rewrite Rpower_Ropp. unfold EJPROFILE. replace 3 with (INR 3) by (simpl; ring).
    rewrite Rpower_pow by assumption. simpl. field. lra.
Qed.

Lemma ejecta_entries : forall rs d ej i r, nth_error rs i = Some r ->
  nth_error (ejecta_profile rs d ej) i = Some (ejecta_profile_function r (d / 2) ej).
Proof. intros. unfold ejecta_profile. rewrite nth_error_map, H. reflexivity. Qed.

Lemma ejecta_array : forall rs d ej, 0 < d -> 0 <= ej ->
  forall i r t, nth_error rs i = Some r -> nth_error (ejecta_profile rs d ej) i = Some t ->
    (r < d / 2 -> t = 0) /\ (r = d / 2 -> t = ej) /\ 0 <= t <= ej /\
    (d / 2 <= r -> t = ej * (d / 2 / r) ^ 3) /\
    (forall j s u, nth_error rs j = Some s -> nth_error (ejecta_profile rs d ej) j = Some u ->
       d / 2 <= r -> r <= s -> u <= t).
Proof.
  intros rs d ej Hd He i r t Hi Ht. rewrite (ejecta_entries _ _ _ _ _ Hi) in Ht. injection Ht as <-.
  destruct (ejecta_facts (d / 2) ej ltac:(lra) He) as (A & B & C & D & E).
  split; [auto|]. split; [intros ->; exact B|]. split; [apply C|]. split; [apply E|].
  intros j s u Hj Hu H1 H2. rewrite (ejecta_entries _ _ _ _ _ Hj) in Hu. injection Hu as <-.
  apply D. lra.
Qed.

(** ** The lunar morphometric relations are admissible. *)
Lemma Rpower_5 : Rpower 10000 (143 / 1000) < 5.
Proof.
  apply Rle_lt_trans with (Rpower 10000 (1 / 6)).
  - apply Rle_Rpower; lra.
  - replace 5 with (Rpower (5 ^ 6) (1 / 6)).
    + apply Rlt_Rpower_l; [lra|]. split; [lra|]. simpl. lra.
    + rewrite <- Rpower_pow by lra. rewrite Rpower_mult. replace (INR 6 * (1 / 6)) with 1 by (simpl; field).
      apply Rpower_1. lra.
Qed.

Lemma basicmoon_admissible : forall m d p, 0 < d <= 10000000 ->
  basicmoon_shape m d = Ok p -> admissible p /\ 0 < ejrim p /\ diameter p = d.
Proof.
  intros m d p Hd E. pose proof (Rpower_pos (d / 2) (74 / 100)).
  assert (S : forall p', admissible (mk_shape d (- (224 / 1000 * Rpower (d / 1000) (1010 / 1000) * 1000))
                   (200 / 1000 * Rpower (d / 1000) (1143 / 1000) * 1000)
                   (43 / 1000 * Rpower (d / 1000) (1014 / 1000) * 1000) p')).
  { intro p'. unfold admissible; simpl.
    pose proof (Rpower_pos (d / 1000) (1010 / 1000)). pose proof (Rpower_pos (d / 1000) (1143 / 1000)).
    pose proof (Rpower_pos (d / 1000) (1014 / 1000)).
    repeat split; try lra.
    replace (1143 / 1000) with (1 + 143 / 1000) by lra. rewrite Rpower_plus, Rpower_1 by lra.
    assert (Rpower (d / 1000) (143 / 1000) < 5).
    { eapply Rle_lt_trans; [|apply Rpower_5]. apply Rle_Rpower_l; [lra|]. split; lra. }
    nra. }
  assert (C : forall p', admissible (mk_shape d (- (1044 / 1000 * Rpower (d / 1000) (301 / 1000) * 1000))
                   (Rmin (187 / 1000 * Rpower (d / 1000) (1249 / 1000) * 1000) (9 / 10 * d))
                   (236 / 1000 * Rpower (d / 1000) (399 / 1000) * 1000) p')).
  { intro p'. unfold admissible; simpl.
    pose proof (Rpower_pos (d / 1000) (301 / 1000)). pose proof (Rpower_pos (d / 1000) (1249 / 1000)).
    pose proof (Rpower_pos (d / 1000) (399 / 1000)).
    repeat split; try lra.
    - apply Rmin_glb_lt; lra.
    - eapply Rle_lt_trans; [apply Rmin_r|]. lra. }
  destruct m; simpl in E; try discriminate; injection E as <-; simpl; repeat split; auto; try lra;
    try apply S; try apply C.
Qed.

(** A one-metre simple crater has less rim than ejecta at the rim. *)
Lemma small_crater_rim : forall p, basicmoon_shape Simple 1 = Ok p -> rim_height p < ejrim p.
Proof.
  intros p E. simpl in E. injection E as <-. simpl.
  assert (A : Rpower (1 / 1000) (1014 / 1000) < 1 / 1000).
  { replace (1014 / 1000) with (1 + 14 / 1000) by lra. rewrite Rpower_plus, Rpower_1 by lra.
    assert (Rpower (1 / 1000) (14 / 1000) < 1).
    { eapply Rlt_le_trans; [apply (Rlt_Rpower_l (1 / 1000) 1 (14 / 1000)); lra|]. rewrite Rpower_1_l. lra. }
    lra. }
  assert (B : 1 / 2 <= Rpower (1 / 2) (74 / 100)).
  { unfold Rpower. replace (1 / 2) with (exp (ln (1 / 2))) at 1 by (apply exp_ln; lra).
    assert (ln (1 / 2) < 0) by (rewrite <- ln_1; apply ln_increasing; lra).
    destruct (Rle_lt_or_eq_dec (ln (1 / 2)) (74 / 100 * ln (1 / 2))); [lra| |].
    - left. apply exp_increasing. lra.
    - lra. }
  lra.
Qed.

Lemma depressed_exterior : exists p out z, basicmoon_shape Simple 1 = Ok p /\
  crater_profile p [(1, 0)] = Ok out /\ entry [(1, 0)] out 1 0 z /\ z < 0.
Proof.
  destruct (basicmoon_shape Simple 1) as [p|] eqn:E; [|simpl in E; discriminate].
  destruct (profile_total p [(1, 0)] ltac:(discriminate)) as [out Eo].
  assert (HA : 0 < 1 <= 10000000) by lra.
  destruct (basicmoon_admissible _ _ _ HA E) as (A & J & D).
  destruct (profile_heights _ _ _ A Eo) as (m & Hm & Ho).
  exists p, out, (height p m 1 0). split; [reflexivity|]. split; [exact Eo|]. split.
  - exists 0%nat. rewrite Ho. split; reflexivity.
  - rewrite exterior_value by lra. pose proof (small_crater_rim p E).
    pose proof (Rpower_pos (1 / (diameter p / 2)) (- RIMDROP)). nra.
Qed.

(** ** Extent of a feature *)
Lemma extent_limit_eq : forall p truncation tr upper, extent_limit p truncation tr upper ->
  upper = match truncation with None => PI * tr | Some k => if Req_EM_T k 0 then PI * tr else k * (diameter p / 2) end.
Proof.
  intros p [k|] tr upper H; simpl in H; [|exact H].
  destruct (Req_EM_T k 0); destruct H as [[A B]|[A B]]; congruence.
Qed.

Lemma rmax_cases : forall brentq p truncation tr mt ft res upper,
  good_root_finder brentq -> 0 < diameter p ->
  extent_limit p truncation tr upper ->
  diameter p / 2 * (10001 / 10000) <= upper ->
  rmax brentq p truncation tr mt ft = Ok res ->
  diameter p / 2 <= res <= upper.
Proof.
  intros bq p trunc tr mt ft res upper G Hd Hu Hl E. apply extent_limit_eq in Hu. unfold rmax in E. cbv zeta in E.
  rewrite <- Hu in E. unfold rbind at 1 in E.
  destruct (rbind (feature_height p ft (diameter p / 2 * (10001 / 10000))) _) as [fl|] eqn:E1; [|discriminate].
  destruct (Rlt_dec fl 0); [injection E as <-; lra|]. unfold rbind at 1 in E.
  destruct (rbind (feature_height p ft upper) _) as [fu|] eqn:E2; [|discriminate].
  destruct (Rlt_dec 0 fu); [injection E as <-; lra|].
  destruct (bq _ _ _) as [root conv] eqn:Eb. injection E as <-. destruct conv; [|lra].
  destruct (G _ _ _ _ Eb) as [[A B] _].
  rewrite Rmin_left in A by lra. rewrite Rmax_right in B by lra. lra.
Qed.

Lemma ejecta_strict : forall Rc ej r s, 0 < Rc -> 0 < ej -> Rc <= r < s ->
  ejecta_profile_function s Rc ej < ejecta_profile_function r Rc ej.
Proof.
  intros Rc ej r s HR He H.
  destruct (ejecta_facts Rc ej HR ltac:(lra)) as (_ & _ & _ & _ & F). rewrite !F by lra.
  apply Rmult_lt_compat_l; [lra|].
  assert (L : Rc / s < Rc / r).
  { unfold Rdiv. apply Rmult_lt_compat_l; [lra|]. apply Rinv_lt_contravar; [nra|lra]. }
  assert (0 < Rc / s) by (apply Rdiv_lt_0_compat; lra).
  set (a := Rc / s) in *. set (b := Rc / r) in *. clearbody a b. clear F. assert (a * a < b * b) by nra. simpl. rewrite !Rmult_1_r. apply Rmult_le_0_lt_compat; nra.
Qed.

Lemma rmax_ejecta : forall brentq p truncation tr mt res upper,
  good_root_finder brentq -> 0 < diameter p -> 0 < ejrim p ->
  extent_limit p truncation tr upper ->
  diameter p / 2 * (10001 / 10000) <= upper ->
  rmax brentq p truncation tr mt FEjecta = Ok res ->
  res = diameter p / 2 \/
  (forall r, diameter p / 2 <= r -> res < r -> r <= upper ->
     ejecta_profile_function r (diameter p / 2) (ejrim p) < mt) /\
  (forall r, diameter p / 2 * (10001 / 10000) <= r < res ->
     mt < ejecta_profile_function r (diameter p / 2) (ejrim p)).
Proof.
  intros bq p trunc tr mt res upper G Hd Hj Hu Hl E. apply extent_limit_eq in Hu. unfold rmax in E. cbv zeta in E.
  rewrite <- Hu in E. unfold feature_height, rbind in E.
  set (Rc := diameter p / 2) in *. assert (HR : 0 < Rc) by (unfold Rc; lra).
  set (L := Rc * (10001 / 10000)) in *. assert (HL : Rc < L) by (unfold L; lra).
  pose proof (fun r s => ejecta_strict Rc (ejrim p) r s HR Hj) as S.
  destruct (Rlt_dec _ 0) as [A|A].
  - right. injection E as <-. split; [|intros; lra]. intros r H1 H2 H3. specialize (S L r ltac:(lra)). lra.
  - destruct (Rlt_dec 0 _) as [B|B].
    + right. injection E as <-. split; [intros; lra|].
      intros r [H1 H2]. specialize (S r upper ltac:(lra)). lra.
    + destruct (bq _ L upper) as [root conv] eqn:Eb.
      injection E as <-. destruct conv; [right|left; reflexivity]. destruct (G _ _ _ _ Eb) as [[X Y] Z].
      rewrite Rmin_left in X by lra. rewrite Rmax_right in Y by lra. injection Z as Z.
      split.
      * intros r H1 H2 H3. specialize (S root r ltac:(lra)). lra.
      * intros r [H1 H2]. specialize (S r root ltac:(lra)). lra.
Qed.

Lemma rmax_truncation : exists p, admissible p /\ 0 < ejrim p /\
  forall brentq tr, exists res, rmax brentq p (Some 1) tr 1 FEjecta = Ok res /\ 1 * (diameter p / 2) < res.
Proof.
  exists (mk_shape 2 (-1) 1 1 (1 / 2)). split; [unfold admissible; simpl; lra|].
  split; [simpl; lra|]. intros bq tr. simpl. eexists. split.
  - unfold rmax. cbv zeta. unfold feature_height, rbind. simpl diameter. simpl ejrim.
    destruct (Rlt_dec _ 0) as [A|A]; [reflexivity|]. elim A.
    destruct (ejecta_facts (2 / 2) (1 / 2) ltac:(lra) ltac:(lra)) as (_ & _ & B & _).
    specialize (B (2 / 2 * (10001 / 10000))). lra.
  - lra.
Qed.

Definition unit_crater : shape := mk_shape 2 (-1) 1 (1 / 2) (1 / 4).
Lemma unit_admissible : admissible unit_crater.
Proof. unfold admissible, unit_crater; simpl; lra. Qed.

(** A root finder that only tries the point 2. *)
Definition try_two (f : R -> result R) (a b : R) : R * bool :=
  match f 2 with
  | Ok v => if Req_EM_T v 0 then
              if Rle_dec (Rmin a b) 2 then if Rle_dec 2 (Rmax a b) then (2, true) else (a, false)
              else (a, false)
            else (a, false)
  | Err _ => (a, false)
  end.

Lemma try_two_good : good_root_finder try_two.
Proof.
  intros f a b x. unfold try_two. destruct (f 2) as [v|] eqn:E; [|discriminate].
  destruct (Req_EM_T v 0); [|discriminate].
  destruct (Rle_dec _ 2); [|discriminate]. destruct (Rle_dec 2 _); [|discriminate].
  intro H. injection H as <-. subst v. auto.
Qed.

Lemma rmax_case : rmax try_two unit_crater (Some 10) 1 (1 / 32) FEjecta = Ok 2.
Proof.
  unfold rmax. cbv zeta. unfold feature_height, rbind. simpl diameter. simpl ejrim.
  destruct (Req_EM_T 10 0); [lra|].
  destruct (ejecta_facts (2 / 2) (1 / 4) ltac:(lra) ltac:(lra)) as (_ & _ & _ & D & F).
  assert (V2 : ejecta_profile_function 2 (2 / 2) (1 / 4) = 1 / 32).
  { rewrite F by lra. field. }
  destruct (Rlt_dec _ 0) as [A|A].
  - exfalso. specialize (D (2 / 2 * (10001 / 10000)) 2 ltac:(lra)). lra.
  - destruct (Rlt_dec 0 _) as [B|B].
    + exfalso. specialize (D 2 (10 * (2 / 2)) ltac:(lra)). lra.
    + unfold try_two. rewrite V2. destruct (Req_EM_T (1 / 32 - 1 / 32) 0); [|lra].
      rewrite Rmin_left, Rmax_right by lra.
      destruct (Rle_dec _ 2); [|lra]. destruct (Rle_dec 2 _); [|lra]. reflexivity.
Qed.
