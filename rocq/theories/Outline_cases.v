(** Concrete cases for the theorems about crater outlines. *)
From Coq Require Import Reals Lra Lia ZArith.
From Verif Require Import Common Coords_model Trig_model Geo_spec Geo_proofs Outline_model Outline_spec Outline_proofs.
Import ListNotations.
Open Scope R_scope.

(** A solver of the direct problem. *)
Definition deg (x : R) : R := x * 180 / PI.
Definition sphere (radius lon lat b d : R) : R * R :=
  let '(x, y, z) := reached (rad lon) (rad lat) (rad b) (d / radius) in (deg (atan2 y x), deg (asin z)).
Lemma rad_deg x : rad (deg x) = x.
Proof. unfold rad, deg. field. pose proof PI_RGT_0. lra. Qed.
Lemma deg_range x a : - (a * PI / 180) <= x <= a * PI / 180 -> - a <= deg x <= a.
Proof.
  intros [A B]. pose proof PI_RGT_0 as P. unfold deg. assert (K : 0 < 180 / PI) by (apply Rdiv_lt_0_compat; lra).
  replace (x * 180 / PI) with (x * (180 / PI)) by (field; lra). split.
  - replace (- a) with (- (a * PI / 180) * (180 / PI)) by (field; lra). apply Rmult_le_compat_r; lra.
  - apply Rle_trans with (a * PI / 180 * (180 / PI)); [apply Rmult_le_compat_r; lra | right; field; lra].
Qed.
Lemma reached_unit lon lat b s : let '(x, y, z) := reached lon lat b s in x * x + y * y + z * z = 1.
Proof.
  unfold reached, direction, north, east, add, scale. pose proof (cs lon) as A. pose proof (cs lat) as B. pose proof (cs b) as C. pose proof (cs s) as D.
  assert (A' : cos lon * cos lon = 1 - sin lon * sin lon) by lra. assert (B' : cos lat * cos lat = 1 - sin lat * sin lat) by lra.
  assert (C' : cos b * cos b = 1 - sin b * sin b) by lra. assert (D' : cos s * cos s = 1 - sin s * sin s) by lra.
  ring [A' B' C' D'].
Qed.
Lemma sphere_solves radius : 0 < radius -> solves radius (sphere radius).
Proof.
  intros P lon lat b d _. unfold sphere. pose proof (reached_unit (rad lon) (rad lat) (rad b) (d / radius)) as U.
  destruct (reached _ _ _ _) as [[x y] z] eqn:E. pose proof (atan2_range y x) as [T1 T2]. pose proof PI_RGT_0 as Pp.
  assert (Z : -1 <= z <= 1) by (split; nra). pose proof (asin_bound z) as Az.
  split; [apply deg_range; lra |]. split; [apply deg_range; lra |]. unfold place, direction. rewrite !rad_deg.
  assert (Cz : cos (asin z) = sqrt (x ^ 2 + y ^ 2)) by (rewrite cos_asin by lra; f_equal; unfold Rsqr; lra).
  rewrite Cz, sin_asin by lra. destruct (atan2_polar y x) as [-> ->]. reflexivity.
Qed.

(** Cutting by keeping the points on each side, and the mean longitude. *)
Definition slice (poly : list point) (m : R) : list (list point) :=
  ((if existsb (fun p => if Rlt_dec (p_lon p) m then true else false) poly then [filter (fun p => if Rle_dec (p_lon p) m then true else false) poly] else []) ++
   (if existsb (fun p => if Rlt_dec m (p_lon p) then true else false) poly then [filter (fun p => if Rle_dec m (p_lon p) then true else false) poly] else []))%list.
Definition total (l : list point) : R := fold_right (fun p s => p_lon p + s) 0 l.
Definition mean (l : list point) : R := total l / INR (List.length l).
Lemma total_le l m : (forall p, In p l -> p_lon p <= m) -> total l <= m * INR (List.length l).
Proof. induction l as [| p l IH]; intros H; [cbn; lra |]. change (total (p :: l)) with (p_lon p + total l). cbn [List.length]. rewrite S_INR. pose proof (H p (or_introl eq_refl)). specialize (IH (fun q Q => H q (or_intror Q))). lra. Qed.
Lemma total_lt l m : (forall p, In p l -> p_lon p <= m) -> (exists p, In p l /\ p_lon p < m) -> total l < m * INR (List.length l).
Proof.
  induction l as [| p l IH]; intros H [q [Q L]]; [destruct Q |]. change (total (p :: l)) with (p_lon p + total l). cbn [List.length]. rewrite S_INR.
  pose proof (H p (or_introl eq_refl)). pose proof (total_le l m (fun q Q => H q (or_intror Q))).
  destruct Q as [<- | Q]; [lra |]. specialize (IH (fun q Q => H q (or_intror Q)) (ex_intro _ q (conj Q L))). lra.
Qed.
Definition mirror (p : point) := mk_point (- p_lon p) (p_lat p) (p_z p).
Lemma total_mirror l : total (map mirror l) = - total l.
Proof. induction l as [| p l IH]; cbn [map]; [cbn; lra |]. change (total (mirror p :: map mirror l)) with (- p_lon p + total (map mirror l)). change (total (p :: l)) with (p_lon p + total l). lra. Qed.
Lemma len_pos {A} (l : list A) x : In x l -> 0 < INR (List.length l).
Proof. intros I. apply lt_0_INR. destruct l; [destruct I | cbn; lia]. Qed.
Lemma mean_lt l m : (forall p, In p l -> p_lon p <= m) -> (exists p, In p l /\ p_lon p < m) -> mean l < m.
Proof.
  intros H X. pose proof (total_lt l m H X) as T. destruct X as [p [P _]]. pose proof (len_pos l p P) as L. unfold mean.
  apply Rmult_lt_reg_r with (INR (List.length l)); [exact L |]. unfold Rdiv. rewrite Rmult_assoc, Rinv_l by lra. lra.
Qed.
Lemma mean_le l m x : In x l -> (forall p, In p l -> p_lon p <= m) -> mean l <= m.
Proof.
  intros I H. pose proof (total_le l m H) as T. pose proof (len_pos l x I) as L. unfold mean.
  apply Rmult_le_reg_r with (INR (List.length l)); [exact L |]. unfold Rdiv. rewrite Rmult_assoc, Rinv_l by lra. lra.
Qed.
Lemma mean_mirror l : mean (map mirror l) = - mean l.
Proof. unfold mean. rewrite total_mirror, map_length. unfold Rdiv. ring. Qed.
Lemma mean_gt l m : (forall p, In p l -> m <= p_lon p) -> (exists p, In p l /\ m < p_lon p) -> m < mean l.
Proof.
  intros H [p [P L]]. assert (T : mean (map mirror l) < - m).
  { apply mean_lt. - intros q Q. apply in_map_iff in Q as (r & <- & Q). specialize (H r Q). cbn [mirror p_lon]. lra. - exists (mirror p). split; [apply in_map, P | cbn [mirror p_lon]; lra]. }
  rewrite mean_mirror in T. lra.
Qed.
Lemma mean_ge l m x : In x l -> (forall p, In p l -> m <= p_lon p) -> m <= mean l.
Proof.
  intros I H. assert (T : mean (map mirror l) <= - m).
  { apply (mean_le _ _ (mirror x)); [apply in_map, I |]. intros q Q. apply in_map_iff in Q as (r & <- & Q). specialize (H r Q). cbn [mirror p_lon]. lra. }
  rewrite mean_mirror in T. lra.
Qed.
Lemma slice_cuts : cuts slice mean.
Proof.
  intros poly m part I. unfold slice in I. apply in_app_or in I as [I | I].
  - destruct (existsb _ poly) eqn:E; [destruct I as [<- | []] | destruct I]. apply existsb_exists in E as (q & Q & L). destruct (Rlt_dec (p_lon q) m) as [L' |]; [| discriminate].
    assert (F : forall p, In p (filter (fun p => if Rle_dec (p_lon p) m then true else false) poly) -> In p poly /\ p_lon p <= m).
    { intros p Hp. apply filter_In in Hp as [A B]. split; [exact A |]. destruct (Rle_dec (p_lon p) m); [assumption | discriminate]. }
    assert (G : In q (filter (fun p => if Rle_dec (p_lon p) m then true else false) poly)).
    { apply filter_In. split; [exact Q |]. destruct (Rle_dec (p_lon q) m); [reflexivity | lra]. }
    split. { left. split; [intros p Hp; apply F, Hp |]. apply mean_lt; [intros p Hp; apply F, Hp | exists q; auto]. }
    intros lo hi B. assert (B' : forall p, In p (filter (fun p => if Rle_dec (p_lon p) m then true else false) poly) -> lo <= p_lon p <= hi) by (intros p Hp; apply B, F, Hp).
    split; [exact B' |]. split; [apply (mean_ge _ _ q G); intros p Hp; apply B', Hp | apply (mean_le _ _ q G); intros p Hp; apply B', Hp].
  - destruct (existsb _ poly) eqn:E; [destruct I as [<- | []] | destruct I]. apply existsb_exists in E as (q & Q & L). destruct (Rlt_dec m (p_lon q)) as [L' |]; [| discriminate].
    assert (F : forall p, In p (filter (fun p => if Rle_dec m (p_lon p) then true else false) poly) -> In p poly /\ m <= p_lon p).
    { intros p Hp. apply filter_In in Hp as [A B]. split; [exact A |]. destruct (Rle_dec m (p_lon p)); [assumption | discriminate]. }
    assert (G : In q (filter (fun p => if Rle_dec m (p_lon p) then true else false) poly)).
    { apply filter_In. split; [exact Q |]. destruct (Rle_dec m (p_lon q)); [reflexivity | lra]. }
    split. { right. split; [intros p Hp; apply F, Hp |]. apply mean_gt; [intros p Hp; apply F, Hp | exists q; auto]. }
    intros lo hi B. assert (B' : forall p, In p (filter (fun p => if Rle_dec m (p_lon p) then true else false) poly) -> lo <= p_lon p <= hi) by (intros p Hp; apply B, F, Hp).
    split; [exact B' |]. split; [apply (mean_ge _ _ q G); intros p Hp; apply B', Hp | apply (mean_le _ _ q G); intros p Hp; apply B', Hp].
Qed.

(** A longitude read off the equatorial components. *)
Lemma lon_of lon lat c u : 0 < c -> -180 < deg u < 180 -> -180 <= lon <= 180 -> -90 <= lat <= 90 ->
  cos (rad lat) * cos (rad lon) = c * cos u -> cos (rad lat) * sin (rad lon) = c * sin u -> lon = deg u.
Proof.
  intros Cp Hu Hl Hlat A B. assert (P := PI_RGT_0).
  assert (L : 0 <= cos (rad lat)).
  { apply cos_ge_0; unfold rad; [replace (- (PI / 2)) with (-90 * PI / 180) by field | replace (PI / 2) with (90 * PI / 180) by field]; unfold Rdiv; apply Rmult_le_compat_r; try lra; apply Rmult_le_compat_r; lra. }
  assert (E : cos (rad lat) = c).
  { pose proof (cs (rad lon)) as C1. pose proof (cs u) as C2. assert (Q : cos (rad lat) * cos (rad lat) = c * c).
    { transitivity (cos (rad lat) * cos (rad lat) * (cos (rad lon) * cos (rad lon) + sin (rad lon) * sin (rad lon))); [rewrite C1; ring |].
      transitivity ((cos (rad lat) * cos (rad lon)) * (cos (rad lat) * cos (rad lon)) + (cos (rad lat) * sin (rad lon)) * (cos (rad lat) * sin (rad lon))); [ring |].
      rewrite A, B. transitivity (c * c * (cos u * cos u + sin u * sin u)); [ring | rewrite C2; ring]. }
    nra. }
  rewrite E in A, B. apply Rmult_eq_reg_l in A; [| lra]. apply Rmult_eq_reg_l in B; [| lra].
  destruct (angle_unique _ _ A B) as [k K]. assert (D : lon = deg u + 360 * IZR k).
  { replace lon with (deg (rad lon)) by (unfold deg, rad; field; lra). rewrite K. unfold deg. field. lra. }
  assert (Kb : -1 < IZR k < 1) by lra. destruct Kb as [K1 K2]. apply lt_IZR in K1, K2. assert (k = 0%Z) by lia. subst k. lra.
Qed.

(** A crater on the antimeridian: 1 radian in radius on a sphere of radius 1. *)
Definition across : ellipse := mk_ellipse 1 1 180 0 0 1.
Lemma across_proper : proper across /\ clear_of_poles 1 across.
Proof.
  split; [repeat split; cbn; lra |]. unfold clear_of_poles. cbn. replace (rad 0) with 0 by (unfold rad; field). rewrite Rabs_R0. pose proof PI2_3_2. lra.
Qed.
Definition flat (_ _ _ : R) : list R := [5; 7; 6].

Lemma thetas5 : thetas 5 = [360 * INR 0 / INR 4; 360 * INR 1 / INR 4; 360 * INR 2 / INR 4; 360 * INR 3 / INR 4; 360 * INR 4 / INR 4].
Proof. reflexivity. Qed.
Lemma fmod0 : fmod 0 360 = 0.
Proof.
  unfold fmod. replace (0 / 360) with 0 by field. pose proof (base_Int_part 0) as [A B]. assert (K : (-1 < Int_part 0)%Z /\ (Int_part 0 < 1)%Z) by (split; apply lt_IZR; lra).
  assert (Int_part 0 = 0%Z) by lia. rewrite H. lra.
Qed.
Lemma circle_polar a theta : 0 < a -> polar a a theta = a.
Proof. intros H. pose proof (polar_bounds a a theta ltac:(lra)). lra. Qed.

Lemma sin1_pos : 0 < sin 1.
Proof. apply sin_gt_0; pose proof PI2_3_2; lra. Qed.
Lemma deg1 : 0 < deg 1 < 90.
Proof.
  unfold deg. pose proof PI2_3_2 as P. split; [apply Rdiv_lt_0_compat; lra |]. apply Rmult_lt_reg_r with PI; [lra |]. unfold Rdiv. rewrite Rmult_assoc, Rinv_l by lra. lra.
Qed.
Lemma rad90 : rad 90 = PI / 2. Proof. unfold rad. field. Qed.
Lemma rad270 : rad 270 = 3 * (PI / 2). Proof. unfold rad. field. Qed.
Lemma deg_plus x y : deg (x + y) = deg x + deg y.
Proof. unfold deg. field. pose proof PI_RGT_0. lra. Qed.
Lemma deg_pi : deg PI = 180. Proof. unfold deg. field. pose proof PI_RGT_0. lra. Qed.

Section Across.
Variable fwd : R -> R -> R -> R -> R * R.
Hypothesis good : solves 1 fwd.
Lemma across_east : In (deg 1 - 180) (map fst (vertices fwd 5 across)).
Proof.
  replace (deg 1 - 180) with (fst (fwd 180 0 90 1)).
  - apply in_map_iff. exists (fwd 180 0 90 1). split; [reflexivity |]. unfold vertices. apply in_map_iff. exists 90. split.
    + cbn [e_lon e_lat e_phi e_a e_b across]. rewrite fmod0, circle_polar, Rplus_0_r by lra. reflexivity.
    + rewrite thetas5. right. left. cbn. field.
  - destruct (fwd_spec 1 fwd good 180 0 90 1 ltac:(lra)) as (A & B & C). set (v := fwd _ _ _ _) in *. clearbody v. unfold place, reached, direction, north, east, add, scale in C.
    injection C as C1 C2 C3. rewrite rad90, cos_PI2, sin_PI2 in *. replace (rad 0) with 0 in * by (unfold rad; field). replace (rad 180) with PI in * by (unfold rad; field).
    rewrite cos_PI, sin_PI, cos_0, sin_0 in *. replace (1 / 1) with 1 in * by field.
    replace (deg 1 - 180) with (deg (1 - PI)) by (unfold Rminus; rewrite deg_plus; replace (deg (- PI)) with (- deg PI) by (unfold deg; field; pose proof PI_RGT_0; lra); rewrite deg_pi; reflexivity).
    apply (lon_of (fst v) (snd v) 1 (1 - PI)); try lra.
    + unfold Rminus. rewrite deg_plus. replace (deg (- PI)) with (- deg PI) by (unfold deg; field; pose proof PI_RGT_0; lra). rewrite deg_pi. pose proof deg1. lra.
    + rewrite C1, cos_minus, cos_PI, sin_PI. ring.
    + rewrite C2, sin_minus, cos_PI, sin_PI. ring.
Qed.
Lemma across_west : In (180 - deg 1) (map fst (vertices fwd 5 across)).
Proof.
  replace (180 - deg 1) with (fst (fwd 180 0 270 1)).
  - apply in_map_iff. exists (fwd 180 0 270 1). split; [reflexivity |]. unfold vertices. apply in_map_iff. exists 270. split.
    + cbn [e_lon e_lat e_phi e_a e_b across]. rewrite fmod0, circle_polar, Rplus_0_r by lra. reflexivity.
    + rewrite thetas5. do 3 right. left. cbn. field.
  - destruct (fwd_spec 1 fwd good 180 0 270 1 ltac:(lra)) as (A & B & C). set (v := fwd _ _ _ _) in *. clearbody v. unfold place, reached, direction, north, east, add, scale in C.
    injection C as C1 C2 C3. rewrite rad270, cos_3PI2, sin_3PI2 in *. replace (rad 0) with 0 in * by (unfold rad; field). replace (rad 180) with PI in * by (unfold rad; field).
    rewrite cos_PI, sin_PI, cos_0, sin_0 in *. replace (1 / 1) with 1 in * by field.
    replace (180 - deg 1) with (deg (PI - 1)) by (unfold Rminus; rewrite deg_plus; replace (deg (- (1))) with (- deg 1) by (unfold deg; field; pose proof PI_RGT_0; lra); rewrite deg_pi; reflexivity).
    apply (lon_of (fst v) (snd v) 1 (PI - 1)); try lra.
    + unfold Rminus. rewrite deg_plus. replace (deg (- (1))) with (- deg 1) by (unfold deg; field; pose proof PI_RGT_0; lra). rewrite deg_pi. pose proof deg1. lra.
    + rewrite C1, cos_minus, cos_PI, sin_PI. ring.
    + rewrite C2, sin_minus, cos_PI, sin_PI. ring.
Qed.
Lemma across_wide : 180 < ptp (map fst (vertices fwd 5 across)).
Proof. pose proof (ptp_spec _ _ _ across_west across_east). pose proof deg1. lra. Qed.
End Across.

(** Its eastern part has lost its height. *)
Lemma across_lost : exists parts part p, to_geoseries (sphere 1) slice mean flat 5 true false across across = Parts parts /\ In part parts /\ In p part /\ p_z p = None.
Proof.
  pose proof (across_wide (sphere 1) (sphere_solves 1 Rlt_0_1)) as W. pose proof (across_east (sphere 1) (sphere_solves 1 Rlt_0_1)) as Ea.
  unfold to_geoseries. cbn [andb chosen]. destruct (Rlt_dec 180 (ptp (map fst (vertices (sphere 1) 5 across)))) as [_ | N]; [| contradiction].
  assert (Sg : sign 180 = 1) by (unfold sign; destruct (Rlt_dec 0 180); [reflexivity | lra]). cbn [e_lon across]. rewrite Sg. replace (180 * 1) with 180 by ring.
  apply in_map_iff in Ea as (v & Ev & Iv). set (z := top flat across). set (poly := map _ (vertices (sphere 1) 5 across)).
  pose (q := mk_point (deg 1 + 180) (snd v) (Some z)). pose proof deg1 as D1.
  assert (Q : In q poly).
  { apply in_map_iff. exists v. split; [| exact Iv]. unfold q. f_equal. rewrite Ev. unfold unwrap. rewrite Sg. unfold sign. destruct (Rlt_dec 0 (deg 1 - 180)); [lra |]. destruct (Rlt_dec (deg 1 - 180) 0); [| lra].
    destruct (Req_EM_T (-1) 1); lra. }
  set (far := filter (fun p => if Rle_dec 180 (p_lon p) then true else false) poly).
  assert (Fq : In q far) by (apply filter_In; split; [exact Q |]; destruct (Rle_dec 180 (p_lon q)) as [|X]; [reflexivity | exfalso; apply X; unfold q; cbn; lra]).
  assert (Far : In far (slice poly 180)).
  { unfold slice. apply in_or_app. right. destruct (existsb (fun p => if Rlt_dec 180 (p_lon p) then true else false) poly) eqn:E; [left; reflexivity |].
    assert (X : existsb (fun p => if Rlt_dec 180 (p_lon p) then true else false) poly = true); [| congruence]. apply existsb_exists. exists q. split; [exact Q |]. destruct (Rlt_dec 180 (p_lon q)) as [|X]; [reflexivity | exfalso; apply X; unfold q; cbn; lra]. }
  assert (M : 180 < mean far).
  { apply mean_gt; [| exists q; split; [exact Fq | unfold q; cbn; lra]]. intros p Hp. apply filter_In in Hp as [_ Hp]. destruct (Rle_dec 180 (p_lon p)); [assumption | discriminate]. }
  eexists _, (map lon_flip far), (lon_flip q). split; [reflexivity |]. split.
  - apply in_map_iff. exists far. split; [| exact Far]. destruct (Rlt_dec 180 (Rabs (mean far))) as [|X]; [reflexivity | exfalso; apply X; rewrite Rabs_pos_eq; lra].
  - split; [apply in_map, Fq | reflexivity].
Qed.

(** A crater around the north pole whose centre is given the longitude 0. *)
Definition polar_cap : ellipse := mk_ellipse 1 1 0 90 0 1.
Lemma cap_proper : proper polar_cap. Proof. repeat split; cbn; lra. Qed.
Lemma cap_vertex fwd b : solves 1 fwd -> let v := fwd 0 90 b 1 in -180 <= fst v <= 180 /\ -90 <= snd v <= 90 /\
  cos (rad (snd v)) * cos (rad (fst v)) = sin 1 * - cos (rad b) /\ cos (rad (snd v)) * sin (rad (fst v)) = sin 1 * sin (rad b).
Proof.
  intros good v. destruct (fwd_spec 1 fwd good 0 90 b 1 ltac:(lra)) as (A & B & C). fold v in A, B, C. split; [exact A |]. split; [exact B |].
  unfold place, reached, direction, north, east, add, scale in C. injection C as C1 C2 _. rewrite rad90, cos_PI2, sin_PI2 in *. replace (rad 0) with 0 in * by (unfold rad; field).
  rewrite cos_0, sin_0 in *. replace (1 / 1) with 1 in * by field. split; [rewrite C1; ring | rewrite C2; ring].
Qed.
Lemma cap_in fwd i b : b = 360 * INR i / INR 4 -> (i < 5)%nat -> In (fst (fwd 0 90 b 1)) (map fst (vertices fwd 5 polar_cap)).
Proof.
  intros -> H. apply in_map. unfold vertices. apply in_map_iff. exists (360 * INR i / INR 4). split.
  - cbn [e_lon e_lat e_phi e_a e_b polar_cap]. rewrite fmod0, circle_polar, Rplus_0_r by lra. reflexivity.
  - apply (nth_error_In _ i). apply (thetas_nth 5 i); lia.
Qed.
Lemma cap_wide fwd : solves 1 fwd -> 180 < ptp (map fst (vertices fwd 5 polar_cap)).
Proof.
  intros good. pose proof sin1_pos as S1. pose proof PI_RGT_0 as P.
  assert (E90 : fst (fwd 0 90 90 1) = 90).
  { destruct (cap_vertex fwd 90 good) as (A & B & C & D). rewrite rad90, cos_PI2, sin_PI2 in *. assert (Dg : deg (PI / 2) = 90) by (unfold deg; field; lra). transitivity (deg (PI / 2)); [| exact Dg].
    apply (lon_of _ (snd (fwd 0 90 90 1)) (sin 1) (PI / 2)); try lra; [rewrite C, cos_PI2; ring | rewrite D, sin_PI2; ring]. }
  assert (E270 : fst (fwd 0 90 270 1) = -90).
  { destruct (cap_vertex fwd 270 good) as (A & B & C & D). rewrite rad270, cos_3PI2, sin_3PI2 in *. assert (Dg : deg (- (PI / 2)) = -90) by (unfold deg; field; lra). rewrite <- Dg.
    apply (lon_of _ (snd (fwd 0 90 270 1)) (sin 1) (- (PI / 2))); try lra; [rewrite C, cos_neg, cos_PI2; ring | rewrite D, sin_neg, sin_PI2; ring]. }
  pose proof (cap_in fwd 0 0 ltac:(cbn; field) ltac:(lia)) as I0. pose proof (cap_in fwd 1 90 ltac:(cbn; field) ltac:(lia)) as I1. pose proof (cap_in fwd 3 270 ltac:(cbn; field) ltac:(lia)) as I3.
  rewrite E90 in I1. rewrite E270 in I3. destruct (cap_vertex fwd 0 good) as (A & B & C & D). set (x := fst (fwd 0 90 0 1)) in *. set (y := snd (fwd 0 90 0 1)) in *.
  replace (rad 0) with 0 in C, D by (unfold rad; field). rewrite cos_0 in C. rewrite sin_0 in D.
  assert (F : ~ (-90 <= x <= 90)).
  { intros Hx. assert (0 <= cos (rad x)). { apply cos_ge_0; unfold rad; [replace (- (PI / 2)) with (-90 * PI / 180) by field | replace (PI / 2) with (90 * PI / 180) by field]; unfold Rdiv; apply Rmult_le_compat_r; try lra; apply Rmult_le_compat_r; lra. }
    assert (0 <= cos (rad y)). { apply cos_ge_0; unfold rad; [replace (- (PI / 2)) with (-90 * PI / 180) by field | replace (PI / 2) with (90 * PI / 180) by field]; unfold Rdiv; apply Rmult_le_compat_r; try lra; apply Rmult_le_compat_r; lra. }
    nra. }
  pose proof (ptp_spec _ _ _ I0 I3). pose proof (ptp_spec _ _ _ I1 I0). destruct (Rlt_dec x (-90)); [| assert (90 < x) by lra]; lra.
Qed.
