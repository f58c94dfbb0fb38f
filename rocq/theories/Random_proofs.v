From Coq Require Import Reals List Lra Lia Permutation Sorted ZArith.
From Verif Require Import Common Random_model Random_spec.
Import ListNotations.
Open Scope R_scope.

(* ------------------------------ locations ------------------------------ *)
Lemma rad2deg_le a b : a <= b <-> rad2deg a <= rad2deg b.
Proof.
  unfold rad2deg. pose proof PI_RGT_0. assert (0 < / PI) by (apply Rinv_0_lt_compat; lra).
  unfold Rdiv. split; intros; [apply Rmult_le_compat_r; lra |].
  apply Rmult_le_reg_r with (180 * / PI); [nra |]. lra.
Qed.
Lemma rad2deg_lt a b : a < b <-> rad2deg a < rad2deg b.
Proof. pose proof (rad2deg_le b a). split; intros; apply Rnot_le_lt; intros X; apply H in X; lra. Qed.
Lemma rad2deg_deg x : rad2deg (deg2rad x) = x.
Proof. unfold rad2deg, deg2rad. pose proof PI_RGT_0. field. lra. Qed.
Lemma deg_le r x : rad2deg r <= x <-> r <= deg2rad x.
Proof. rewrite <- (rad2deg_deg x) at 1. symmetry. apply rad2deg_le. Qed.
Lemma le_deg r x : x <= rad2deg r <-> deg2rad x <= r.
Proof. rewrite <- (rad2deg_deg x) at 1. symmetry. apply rad2deg_le. Qed.
Lemma deg_lt r x : rad2deg r < x <-> r < deg2rad x.
Proof. rewrite <- (rad2deg_deg x) at 1. symmetry. apply rad2deg_lt. Qed.

Lemma lon_eq u : random_lon u = 360 * u - 180.
Proof. unfold random_lon, rad2deg. pose proof PI_RGT_0. field. lra. Qed.
Lemma lon_range u : draw01 u -> -180 <= random_lon u < 180.
Proof. unfold draw01. rewrite lon_eq. lra. Qed.
Lemma lon_dist u x : random_lon u <= x <-> u <= (x + 180) / 360.
Proof. rewrite lon_eq. lra. Qed.

Lemma lat_sin v : draw01 v -> sin (deg2rad (random_lat v)) = 1 - 2 * v.
Proof.
  intros H. unfold draw01 in H. unfold random_lat.
  replace (deg2rad (rad2deg (acos (2 * v - 1) - PI / 2))) with (acos (2 * v - 1) - PI / 2)
    by (unfold deg2rad, rad2deg; pose proof PI_RGT_0; field; lra).
  replace (acos (2 * v - 1) - PI / 2) with (- (PI / 2 - acos (2 * v - 1))) by lra.
  rewrite sin_neg, sin_shift, cos_acos by lra. lra.
Qed.
Lemma lat_range v : draw01 v -> -90 <= random_lat v <= 90.
Proof.
  intros H. pose proof (acos_bound (2 * v - 1)). unfold random_lat. split.
  - apply le_deg. unfold deg2rad. lra.
  - apply deg_le. unfold deg2rad. lra.
Qed.
Lemma lat_dist v x : draw01 v -> -90 <= x <= 90 -> (random_lat v <= x <-> (1 - sin (deg2rad x)) / 2 <= v).
Proof.
  intros H X. pose proof (lat_sin v H) as S. pose proof (lat_range v H) as L. pose proof PI_RGT_0 as P.
  set (y := random_lat v) in *.
  assert (A : - (PI / 2) <= deg2rad y <= PI / 2) by (unfold deg2rad; split; nra).
  assert (B : - (PI / 2) <= deg2rad x <= PI / 2) by (unfold deg2rad; split; nra).
  assert (E : y <= x <-> deg2rad y <= deg2rad x).
  { unfold deg2rad. split; intros; [nra |]. assert (y * PI <= x * PI) by lra. nra. }
  rewrite E. split; intros K.
  - assert (sin (deg2rad y) <= sin (deg2rad x)) by (apply sin_incr_1; lra). lra.
  - apply sin_incr_0; lra.
Qed.

Lemma angle_range u : draw01 u -> 0 <= random_angle u < 90.
Proof.
  intros H. unfold draw01 in H. unfold random_angle. assert (S : 0 <= sqrt u < 1).
  { split; [apply sqrt_pos |]. rewrite <- sqrt_1. apply sqrt_lt_1; lra. }
  pose proof (asin_bound (sqrt u)) as B. pose proof PI_RGT_0 as P. pose proof (sin_asin (sqrt u) ltac:(lra)) as E. split.
  - apply le_deg. unfold deg2rad. replace (0 * PI / 180) with 0 by lra.
    destruct (Rle_dec 0 (asin (sqrt u))) as [? | N]; [assumption |]. exfalso.
    assert (sin (asin (sqrt u)) < 0) by (apply sin_lt_0_var; lra). lra.
  - apply deg_lt. unfold deg2rad. replace (90 * PI / 180) with (PI / 2) by lra.
    destruct (Rlt_dec (asin (sqrt u)) (PI / 2)); [assumption |]. exfalso.
    assert (asin (sqrt u) = PI / 2) as Q by lra. rewrite Q, sin_PI2 in E. lra.
Qed.
Lemma angle_dist u x : draw01 u -> 0 <= x <= 90 -> (random_angle u <= x <-> u <= (sin (deg2rad x))²).
Proof.
  intros H X. unfold draw01 in H. unfold random_angle. rewrite deg_le.
  assert (S : 0 <= sqrt u < 1).
  { split; [apply sqrt_pos |]. rewrite <- sqrt_1. apply sqrt_lt_1; lra. }
  pose proof (asin_bound (sqrt u)) as B. pose proof PI_RGT_0 as P. pose proof (sin_asin (sqrt u) ltac:(lra)) as E.
  assert (Y : 0 <= deg2rad x <= PI / 2) by (unfold deg2rad; split; nra).
  assert (Q : u = sqrt u * sqrt u) by (symmetry; apply sqrt_sqrt; lra).
  assert (0 <= sin (deg2rad x)) by (apply sin_ge_0; lra).
  unfold Rsqr. split; intros K.
  - assert (sin (asin (sqrt u)) <= sin (deg2rad x)) by (apply sin_incr_1; lra). nra.
  - apply sin_incr_0; try lra. rewrite E. nra.
Qed.

(* --------------------------- points on a face --------------------------- *)
Lemma weights_ok r1 r2 : draw01 r1 -> draw01 r2 ->
  let '(a, b, c) := weights r1 r2 in 0 <= a /\ 0 <= b /\ 0 <= c /\ a + b + c = 1.
Proof. unfold draw01, weights. intros. destruct (Rlt_dec 1 (r1 + r2)); lra. Qed.
Lemma wsum_zero l : wsum (repeat 0 (List.length l)) l = {| vx := 0; vy := 0; vz := 0 |}.
Proof. induction l as [| v l IH]; [reflexivity |]. cbn [List.length repeat wsum]. rewrite IH. unfold vadd, vscale. cbn. f_equal; lra. Qed.
Lemma rsum_zero n : rsum (repeat 0 n) = 0.
Proof. induction n; cbn; [reflexivity | lra]. Qed.
Lemma Forall_zero n : Forall (fun a => 0 <= a) (repeat 0 n).
Proof. induction n; constructor; [lra | assumption]. Qed.

(** A convex combination of three corners of the fan is one of all corners. *)
Lemma fan_weights v0 r t : In t (fan v0 r) -> forall a b c, 0 <= a -> 0 <= b -> 0 <= c ->
  exists w, List.length w = List.length r /\ Forall (fun x => 0 <= x) w /\ rsum w = b + c /\
    fst (fst t) = v0 /\ wsum w r = vadd (vscale b (snd (fst t))) (vscale c (snd t)).
Proof.
  induction r as [| x r IH]; [intros [] |]. intros H a b c Ha Hb Hc.
  destruct r as [| y r]; [destruct H |]. destruct H as [<- | H].
  - exists (b :: c :: repeat 0 (List.length r)). cbn [List.length]. rewrite repeat_length. split; [reflexivity |].
    split; [repeat (constructor; [assumption |]); apply Forall_zero |]. split; [cbn; rewrite rsum_zero; lra |].
    split; [reflexivity |]. cbn [wsum fst snd]. rewrite wsum_zero. unfold vadd, vscale. cbn. f_equal; lra.
  - destruct (IH H a b c Ha Hb Hc) as (w & L & F & S & E1 & E2). exists (0 :: w).
    split; [cbn [List.length]; f_equal; exact L |]. split; [constructor; [lra | exact F] |].
    split; [cbn [rsum]; lra |]. split; [exact E1 |]. cbn [wsum]. rewrite E2. unfold vadd, vscale. cbn. f_equal; lra.
Qed.
Lemma tri_convex corners t r1 r2 : In t (triangles corners) -> draw01 r1 -> draw01 r2 ->
  let '(w0, w1, w2) := weights r1 r2 in let '(v0, v1, v2) := t in
  convex_combination corners (vadd (vadd (vscale w0 v0) (vscale w1 v1)) (vscale w2 v2)).
Proof.
  intros H D1 D2. pose proof (weights_ok r1 r2 D1 D2) as W. destruct (weights r1 r2) as [[w0 w1] w2]. destruct W as (W0 & W1 & W2 & WS).
  destruct corners as [| c0 r]; [destruct H |]. cbn [triangles] in H.
  destruct (fan_weights c0 r t H w0 w1 w2 W0 W1 W2) as (w & L & F & S & E1 & E2). destruct t as [[v0 v1] v2]. cbn [fst snd] in *. subst v0.
  exists (w0 :: w). split; [cbn; f_equal; exact L |]. split; [constructor; assumption |]. split; [cbn [rsum]; lra |].
  cbn [wsum]. rewrite E2. unfold vadd, vscale. cbn. f_equal; lra.
Qed.

Lemma rsum_nonneg l : Forall (fun a => 0 <= a) l -> 0 <= rsum l.
Proof. induction 1; cbn; lra. Qed.
Lemma cumsum_length acc l : List.length (cumsum acc l) = List.length l.
Proof. revert acc. induction l as [| x l IH]; intros acc; [reflexivity |]. cbn. f_equal. apply IH. Qed.
Lemma cumsum_ge acc l : Forall (fun a => 0 <= a) l -> Forall (fun c => acc <= c) (cumsum acc l).
Proof.
  intros H. revert acc. induction H as [| x l Hx H IH]; intros acc; [constructor |]. cbn. constructor; [lra |].
  eapply Forall_impl; [| apply IH]. cbn. intros; lra.
Qed.
Lemma filter_none {A} (f : A -> bool) l : Forall (fun x => f x = false) l -> filter f l = [].
Proof. induction 1; cbn; [reflexivity |]. rewrite H. exact IHForall. Qed.
Lemma Rltb_true a b : Rltb a b = true <-> a < b.
Proof. unfold Rltb. destruct (Rlt_dec a b); split; congruence || auto. Qed.
Lemma Rltb_false a b : Rltb a b = false <-> b <= a.
Proof. unfold Rltb. destruct (Rlt_dec a b); split; try congruence; try lra. Qed.
Lemma Rleb_true a b : Rleb a b = true <-> a <= b.
Proof. unfold Rleb. destruct (Rle_dec a b); split; congruence || auto. Qed.
Lemma Rleb_false a b : Rleb a b = false <-> b < a.
Proof. unfold Rleb. destruct (Rle_dec a b); split; try congruence; try lra. Qed.

(** Position k is found iff the draw is between the k-th and the next partial sum. *)
Lemma search_iff l : forall acc x k, Forall (fun a => 0 <= a) l -> acc < x -> x <= acc + rsum l ->
  (searchsorted_left (cumsum acc l) x = k <->
   (k < List.length l)%nat /\ acc + rsum (firstn k l) < x <= acc + rsum (firstn (S k) l)).
Proof.
  induction l as [| a l IH]; intros acc x k F A B.
  - cbn in B. lra.
  - inversion F; subst. cbn [rsum] in B. unfold searchsorted_left in *. cbn [cumsum filter].
    destruct (Rltb (acc + a) x) eqn:E.
    + apply Rltb_true in E. cbn [List.length]. destruct k as [| k].
      * cbn [firstn rsum]. split; [discriminate |]. intros [_ [_ X]]. lra.
      * specialize (IH (acc + a) x k H2 E ltac:(lra)). cbn [firstn rsum] in *. split.
        -- intros X. injection X as X. apply IH in X. destruct X as [X1 X2]. split; [cbn; lia | lra].
        -- intros [X1 X2]. f_equal. apply IH. cbn in X1. split; [lia | lra].
    + apply Rltb_false in E. rewrite filter_none.
      * cbn [List.length]. split.
        -- intros <-. cbn. split; [lia | lra].
        -- intros [X1 X2]. destruct k as [| k]; [reflexivity |]. exfalso. cbn [firstn rsum] in X2.
           assert (0 <= rsum (firstn k l)); [| lra]. apply rsum_nonneg.
           clear - H2. revert k. induction H2 as [| b l Hb H IH]; intros [| k]; cbn; constructor; auto.
      * eapply Forall_impl; [| apply cumsum_ge; exact H2]. cbn. intros c Hc. apply Rltb_false. lra.
Qed.
Lemma search_left_lt l acc x : (forall y, In y l -> 0 <= y) -> l <> [] -> x <= acc + rsum l ->
  (searchsorted_left (cumsum acc l) x < List.length l)%nat.
Proof.
  intros F NE B. apply Forall_forall in F. destruct (Rlt_dec acc x) as [L | L].
  - destruct (proj1 (search_iff l acc x _ F L B) eq_refl) as [K _]. exact K.
  - unfold searchsorted_left. rewrite filter_none.
    + destruct l; [congruence | cbn; lia].
    + eapply Forall_impl; [| apply cumsum_ge; exact F]. cbn. intros c Hc. apply Rltb_false. lra.
Qed.
Lemma area_nonneg t : 0 <= tri_area t.
Proof. destruct t as [[a b] c]. unfold tri_area, vnorm. pose proof (sqrt_pos (vx (vcross (vsub b a) (vsub c a)) * vx (vcross (vsub b a) (vsub c a)) + vy (vcross (vsub b a) (vsub c a)) * vy (vcross (vsub b a) (vsub c a)) + vz (vcross (vsub b a) (vsub c a)) * vz (vcross (vsub b a) (vsub c a)))). lra. Qed.
Lemma rsum_scale c l : rsum (map (fun a => a / c) l) = rsum l / c.
Proof. induction l as [| a l IH]; cbn; [lra |]. rewrite IH. lra. Qed.
Lemma areas_nonneg ts c : 0 < c -> Forall (fun a => 0 <= a) (map (fun a => a / c) (map tri_area ts)).
Proof.
  intros C. apply Forall_forall. intros x Hx. apply in_map_iff in Hx. destruct Hx as (y & <- & Hy). apply in_map_iff in Hy.
  destruct Hy as (t & <- & _). pose proof (area_nonneg t). apply Rmult_le_pos; [lra |]. left. apply Rinv_0_lt_compat. exact C.
Qed.

Lemma face_point corners u0 r1 r2 : 0 < rsum (map tri_area (triangles corners)) ->
  draw01 u0 -> draw01 r1 -> draw01 r2 ->
  exists p, random_on_face corners u0 r1 r2 = Ok p /\ convex_combination corners p.
Proof.
  intros T U D1 D2. unfold random_on_face. set (ts := triangles corners) in *. set (total := rsum (map tri_area ts)) in *.
  assert (NE : ts <> []) by (intros X; unfold total in T; rewrite X in T; cbn in T; lra).
  pose proof (areas_nonneg ts total T) as F.
  assert (K : (searchsorted_left (cumsum 0%R (map (fun a => (a / total)%R) (map tri_area ts))) u0 < List.length ts)%nat).
  { eapply Nat.lt_le_trans; [apply search_left_lt |].
    - apply Forall_forall. exact F.
    - destruct ts; [congruence | discriminate].
    - rewrite rsum_scale. fold total. replace (total / total) with 1 by (field; lra). unfold draw01 in U. lra.
    - rewrite !map_length. lia. }
  destruct (nth_error ts _) as [t |] eqn:N; [| apply nth_error_None in N; lia].
  apply nth_error_In in N. pose proof (tri_convex corners t r1 r2 N D1 D2) as C.
  destruct t as [[v0 v1] v2]. destruct (weights r1 r2) as [[w0 w1] w2]. eexists. split; [reflexivity | exact C].
Qed.
Lemma corners_eq node row l : corners_of node row l -> face_corners row node = l.
Proof.
  unfold face_corners. induction 1 as [|i r l N _ IH|n r l _ IH]; cbn [filter map]; [reflexivity | |].
  - destruct (Z.leb_spec 0 i) as [A|A]; [exfalso; lia | exact IH].
  - destruct (Z.leb_spec 0 (Z.of_nat n)) as [A|A]; [| exfalso; lia]. cbn [map]. rewrite Nat2Z.id, IH. reflexivity.
Qed.
Lemma face_row_point node row corners u0 r1 r2 : corners_of node row corners -> 0 < rsum (map tri_area (triangles corners)) ->
  draw01 u0 -> draw01 r1 -> draw01 r2 ->
  exists p, random_on_face (face_corners row node) u0 r1 r2 = Ok p /\ convex_combination corners p.
Proof. intros C. rewrite (corners_eq _ _ _ C). apply face_point. Qed.
Lemma face_choice corners u0 k : let areas := map tri_area (triangles corners) in 0 < rsum areas -> 0 < u0 < 1 ->
  (searchsorted_left (cumsum 0 (map (fun a => a / rsum areas) areas)) u0 = k <->
   (k < List.length areas)%nat /\ rsum (firstn k areas) / rsum areas < u0 <= rsum (firstn (S k) areas) / rsum areas).
Proof.
  intros areas T U. rewrite (search_iff _ 0 u0 k).
  - rewrite map_length, !firstn_map, !rsum_scale. split; intros [A B]; (split; [exact A | lra]).
  - apply areas_nonneg. exact T.
  - lra.
  - rewrite rsum_scale. replace (rsum areas / rsum areas) with 1 by (field; lra). lra.
Qed.

(* ------------------------------ velocities ------------------------------ *)
Lemma maxwell_nonneg vm d : 0 <= maxwell3 vm d.
Proof. destruct d as [[a b] c]. apply sqrt_pos. Qed.
Lemma fast_velocity vm ve size batches vs : 0 <= ve < vm ->
  random_velocity vm (Some ve) size batches = Some vs -> Forall (fun v => ve <= v) vs.
Proof.
  intros H. unfold random_velocity. destruct (Rlt_dec ve vm); [| lra]. intros E.
  assert (vs = map (fun v => sqrt (v * v + ve * ve)) (map (maxwell3 (sqrt (vm * vm - ve * ve))) (firstn size (hd [] batches)))) as -> by congruence.
  apply Forall_forall. intros x Hx. apply in_map_iff in Hx. destruct Hx as (v & <- & _).
  rewrite <- (sqrt_square ve) at 1 by lra. apply sqrt_le_1; nra.
Qed.
Lemma refill_length ve vs : forall new, List.length (refill ve vs new) = List.length vs.
Proof.
  induction vs as [| v r IH]; intros new; [reflexivity |]. cbn [refill]. destruct (Rlt_dec ve v); [destruct new |]; cbn; f_equal; apply IH.
Qed.
Lemma refill_nonneg ve vs : forall new, Forall (fun v => 0 <= v) vs -> Forall (fun v => 0 <= v) new -> Forall (fun v => 0 <= v) (refill ve vs new).
Proof.
  induction vs as [| v r IH]; intros new F G; [constructor |]. inversion F; subst. cbn [refill].
  destruct (Rlt_dec ve v); [destruct new as [| x new]; [| inversion G; subst] |]; constructor; auto.
Qed.
Lemma Forall_firstn {A} (P : A -> Prop) n l : Forall P l -> Forall P (firstn n l).
Proof. intros H. revert n. induction H; intros [| n]; cbn; constructor; auto. Qed.
Lemma rejection_ok vm ve batches : forall vs out, rejection vm ve vs batches = Some out -> Forall (fun v => 0 <= v) vs ->
  Forall (fun v => 0 <= v < ve) out /\ List.length out = List.length vs.
Proof.
  induction batches as [| b rest IH]; intros vs out E F; [discriminate |]. cbn [rejection] in E.
  set (vs' := refill ve vs _) in E.
  assert (F' : Forall (fun v => 0 <= v) vs').
  { apply refill_nonneg; [exact F |]. apply Forall_forall. intros x Hx. apply in_map_iff in Hx. destruct Hx as (d & <- & _). apply maxwell_nonneg. }
  assert (L' : List.length vs' = List.length vs) by apply refill_length.
  destruct (forallb (fun v => Rltb v ve) vs') eqn:A.
  - assert (out = vs') as -> by congruence. split; [| exact L']. rewrite forallb_forall in A. rewrite Forall_forall in *. intros v Hv. split; [apply F'; exact Hv |].
    apply Rltb_true. apply A. exact Hv.
  - destruct (IH vs' out E F') as [P Q]. split; [exact P | congruence].
Qed.
Lemma slow_velocity vm ve size batches vs : vm <= ve -> 0 <= ve ->
  random_velocity vm (Some ve) size batches = Some vs -> Forall (fun v => 0 <= v < ve) vs /\ List.length vs = size.
Proof.
  intros H P E. unfold random_velocity in E. destruct (Rlt_dec ve vm); [lra |].
  destruct (rejection_ok vm ve batches _ _ E) as [A B].
  - apply Forall_forall. intros x Hx. apply repeat_spec in Hx. subst. lra.
  - split; [exact A |]. rewrite B. apply repeat_length.
Qed.
Lemma refill_keeps ve vs : forall new, In ve vs -> In ve (refill ve vs new).
Proof.
  induction vs as [| v r IH]; intros new H; [destruct H |]. cbn [refill]. destruct H as [-> | H].
  - destruct (Rlt_dec ve ve); [lra | left; reflexivity].
  - destruct (Rlt_dec ve v); [destruct new |]; right; apply IH; exact H.
Qed.
Lemma stuck vm ve batches : forall vs, In ve vs -> rejection vm ve vs batches = None.
Proof.
  induction batches as [| b rest IH]; intros vs H; [reflexivity |]. cbn [rejection].
  set (vs' := refill ve vs _). assert (In ve vs') as I by (apply refill_keeps; exact H).
  assert (forallb (fun v => Rltb v ve) vs' = false) as ->; [| apply IH; exact I].
  destruct (forallb _ vs') eqn:A; [| reflexivity]. rewrite forallb_forall in A. specialize (A ve I). apply Rltb_true in A. lra.
Qed.

Lemma bounded_ok loc scale lower upper draw : 0 < scale ->
  (forall a b, a <= b -> a <= draw a b <= b) ->
  let lo := match lower with Some x => x | None => loc - scale end in
  let hi := match upper with Some x => x | None => loc + scale end in
  lo <= hi -> lo <= bounded_norm loc scale lower upper draw <= hi.
Proof.
  intros S Dr lo hi H. unfold bounded_norm, bounds. fold lo hi.
  assert (I : 0 < / scale) by (apply Rinv_0_lt_compat; exact S).
  assert (A : (lo - loc) / scale <= (hi - loc) / scale) by (unfold Rdiv; apply Rmult_le_compat_r; lra).
  specialize (Dr _ _ A). set (x := draw _ _) in *.
  assert (E1 : scale * ((lo - loc) / scale) = lo - loc) by (field; lra).
  assert (E2 : scale * ((hi - loc) / scale) = hi - loc) by (field; lra).
  assert (scale * ((lo - loc) / scale) <= scale * x) by (apply Rmult_le_compat_l; lra).
  assert (scale * x <= scale * ((hi - loc) / scale)) by (apply Rmult_le_compat_l; lra). lra.
Qed.
