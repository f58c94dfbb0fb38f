(** Particular distributions. *)
From Coq Require Import Reals Lra Lia ZArith.
From Verif Require Import Common Hires_model Hires_spec Hires_sizes Hires_grid Hires_rings Hires_rotation Hires_sphere.
Open Scope R_scope.

Lemma PI_gt_3 : 3 < PI.
Proof. pose proof PI2_3_2. lra. Qed.
Lemma cos_up x : 0 <= x <= 1.5 -> cos x <= 1 - x ^ 2 / 2 + x ^ 4 / 24.
Proof.
  intros H. pose proof PI_gt_3. destruct (cos_bound x 0 ltac:(lra) ltac:(lra)) as [_ B]. apply Rle_trans with (1 := B). unfold cos_approx, cos_term. cbn [sum_f_R0 Nat.mul Nat.add]. cbn [pow fact Nat.mul Nat.add INR]. right. field.
Qed.
Lemma cos_lo x : 0 <= x <= 1.5 -> 1 - x ^ 2 / 2 + x ^ 4 / 24 - x ^ 6 / 720 <= cos x.
Proof.
  intros H. pose proof PI_gt_3. destruct (cos_bound x 1 ltac:(lra) ltac:(lra)) as [B _]. apply Rle_trans with (2 := B). unfold cos_approx, cos_term. cbn [sum_f_R0 Nat.mul Nat.add].
  replace (INR (fact 0)) with 1 by reflexivity. replace (INR (fact 2)) with 2 by (cbn; ring). replace (INR (fact 4)) with 24 by (cbn; ring). replace (INR (fact 6)) with 720 by (rewrite INR_IZR_INZ; reflexivity).
  right. cbn [pow]. field.
Qed.
Lemma versine x : Rabs x <= 2 -> 25 / 72 * x ^ 2 <= 1 - cos x.
Proof.
  intros H. rewrite <- cos_Rabs, <- sq_Rabs. set (y := Rabs x) in *. pose proof (Rabs_pos x). fold y in H0. pose proof PI_gt_3. set (z := y / 2).
  replace y with (2 * z) by (unfold z; field). rewrite cos_2a_sin. assert (Z : 0 <= z <= 1) by (unfold z; lra).
  destruct (sin_bound z 0 ltac:(lra) ltac:(lra)) as [B _]. unfold sin_approx, sin_term in B. cbn [sum_f_R0 Nat.mul Nat.add pow fact INR] in B.
  assert (C : 5 / 6 * z <= sin z). { apply Rle_trans with (2 := B). assert (0 <= z * (1 - z * z)). { apply Rmult_le_pos; [lra|]. assert (z * z <= 1 * 1) by (apply Rmult_le_compat; lra). lra. } lra. }
  assert (D : (5 / 6 * z) * (5 / 6 * z) <= sin z * sin z) by (apply Rmult_le_compat; lra). cbn [pow]. lra.
Qed.
Definition g_b : R := 0.728.
Definition g_P : vec := interior_point (g_b, g_b).
Definition g_h : hires := mk_h 1 0.001 1 (Some 1) None None.
Lemma g_make : make 1 0.001 1 1 = Ok g_h.
Proof. pose proof PI_gt_3. apply make_intro; lra. Qed.
Lemma g_inside : angle pole g_P <= 0.985.
Proof.
  pose proof PI_gt_3. unfold angle. apply acos_le; [lra|]. assert (V : vdot pole g_P = cos g_b * cos g_b) by (unfold pole, g_P, interior_point, vdot; ring). rewrite V.
  pose proof (cos_up 0.985 ltac:(lra)). pose proof (cos_lo (2 * g_b) ltac:(unfold g_b; lra)) as L. rewrite cos_2a_cos in L. unfold g_b in *. pose proof (COS_bound 0.728). split; [lra|].
  assert (0 <= (1 - cos 0.728) * (1 + cos 0.728)) by (apply Rmult_le_pos; lra). lra.
Qed.
Lemma dot_range u v : vdot u u = 1 -> vdot v v = 1 -> -1 <= vdot u v <= 1.
Proof.
  destruct u as [[a b] c], v as [[x y] z]. unfold vdot. intros U V.
  pose proof (Rle_0_sqr (a + x)). pose proof (Rle_0_sqr (b + y)). pose proof (Rle_0_sqr (c + z)). pose proof (Rle_0_sqr (a - x)). pose proof (Rle_0_sqr (b - y)). pose proof (Rle_0_sqr (c - z)). unfold Rsqr in *. lra.
Qed.
Lemma cos15 : 1 - 1.126e-4 < cos 0.015.
Proof. pose proof (cos_lo 0.015 ltac:(lra)). lra. Qed.
Lemma g_interior p : (fst p) ^ 2 + (snd p) ^ 2 < 1 -> 0.015 < angle g_P (interior_point p).
Proof.
  intros L. destruct p as [f l]. cbn [fst snd] in L. pose proof PI_gt_3. unfold angle. apply acos_gt; [lra|]. split; [apply dot_range; apply interior_unit|].
  assert (V : vdot g_P (interior_point (f, l)) = cos (f - g_b) - cos f * cos g_b * (1 - cos (l - g_b))).
  { unfold g_P, interior_point, vdot. rewrite !cos_minus. ring. }
  rewrite V. pose proof cos15. assert (F : -1 < f < 1 /\ -1 < l < 1).
  { pose proof (Rle_0_sqr f). pose proof (Rle_0_sqr l). unfold Rsqr in *. cbn [pow] in L. split; split; apply Rnot_le_lt; intros N.
    - assert (1 * 1 <= (- f) * (- f)) by (apply Rmult_le_compat; lra). lra.
    - assert (1 * 1 <= f * f) by (apply Rmult_le_compat; lra). lra.
    - assert (1 * 1 <= (- l) * (- l)) by (apply Rmult_le_compat; lra). lra.
    - assert (1 * 1 <= l * l) by (apply Rmult_le_compat; lra). lra. }
  assert (A : 25 / 72 * (f - g_b) ^ 2 <= 1 - cos (f - g_b)) by (apply versine; unfold g_b; apply Rabs_le; lra).
  assert (B : 25 / 72 * (l - g_b) ^ 2 <= 1 - cos (l - g_b)) by (apply versine; unfold g_b; apply Rabs_le; lra).
  assert (CF : 0.54 <= cos f). { rewrite <- cos_Rabs. assert (0 <= Rabs f <= 1) by (split; [apply Rabs_pos|apply Rabs_le; lra]). apply Rle_trans with (cos 1).
    - pose proof (cos_lo 1 ltac:(lra)). lra.
    - destruct (Req_dec (Rabs f) 1) as [->|]; [lra|]. apply Rlt_le, cos_decreasing_1; lra. }
  assert (CB : 0.745 <= cos g_b) by (unfold g_b; pose proof (cos_lo 0.728 ltac:(lra)); lra).
  assert (CC : 0.4 <= cos f * cos g_b) by (assert (0.54 * 0.745 <= cos f * cos g_b) by (apply Rmult_le_compat; lra); lra).
  assert (S : (f + l) ^ 2 < 2) by (pose proof (Rle_0_sqr (f - l)); unfold Rsqr in *; cbn [pow] in *; lra).
  assert (S2 : f + l < 1.41422) by (apply Rnot_le_lt; intros N; assert (1.41422 * 1.41422 <= (f + l) * (f + l)) by (apply Rmult_le_compat; lra); cbn [pow] in S; lra).
  set (a := f - g_b) in *. set (b := l - g_b) in *. assert (AB : a + b < - 0.04178) by (unfold a, b, g_b; lra).
  assert (Q : 0.00174556 <= (a + b) * (a + b)) by (assert (0.04178 * 0.04178 <= (- (a + b)) * (- (a + b))) by (apply Rmult_le_compat; lra); lra).
  assert (Q2 : (a + b) * (a + b) <= 2 * (a ^ 2 + b ^ 2)) by (pose proof (Rle_0_sqr (a - b)); unfold Rsqr in *; cbn [pow]; lra).
  assert (B0 : 0 <= b ^ 2) by (cbn [pow]; pose proof (Rle_0_sqr b); unfold Rsqr in *; lra). assert (A0 : 0 <= a ^ 2) by (cbn [pow]; pose proof (Rle_0_sqr a); unfold Rsqr in *; lra).
  assert (T : 0.4 * (25 / 72 * b ^ 2) <= cos f * cos g_b * (1 - cos b)) by (apply Rmult_le_compat; lra). lra.
Qed.
Lemma g_ring t n q : 1.001 <= t <= PI -> In q (ring_points (t, n)) -> 0.015 < angle g_P q.
Proof.
  intros T I. destruct (ring_unit _ _ I) as [U _]. pose proof PI_gt_3. unfold angle. apply acos_gt; [lra|]. split; [apply dot_range; [apply interior_unit|exact U]|].
  apply in_map_iff in I as (j & <- & _). set (f := 2 * PI * INR j / IZR n). pose proof g_inside as G. unfold angle in G. set (a := acos (vdot pole g_P)) in *.
  assert (VB : -1 <= vdot pole g_P <= 1) by (apply dot_range; [unfold pole, vdot; ring|apply interior_unit]).
  assert (CA : cos a = vdot pole g_P) by (apply cos_acos, VB). assert (AB : 0 <= a <= PI) by apply acos_bound. pose proof (interior_unit (g_b, g_b)) as PU. fold g_P in PU.
  destruct g_P as [[x y] z]. unfold vdot, pole in *. assert (Z : cos a = z) by lra. assert (XY : x * x + y * y = sin a * sin a) by (pose proof (cs2 a); rewrite Z in *; lra).
  assert (SA : 0 <= sin a) by (apply sin_ge_0; lra). assert (ST : 0 <= sin t) by (apply sin_ge_0; lra).
  assert (H1 : x * cos f + y * sin f <= sin a).
  { apply Rsqr_incr_0_var; [|exact SA]. pose proof (cs2 f) as CF. unfold Rsqr. rewrite <- XY. pose proof (Rle_0_sqr (x * sin f - y * cos f)). unfold Rsqr in *.
    replace (x * x + y * y) with ((x * x + y * y) * (cos f * cos f + sin f * sin f)) by (rewrite CF; ring). lra. }
  apply Rle_lt_trans with (cos (t - a)).
  - rewrite cos_minus, Z. assert (sin t * (x * cos f + y * sin f) <= sin t * sin a) by (apply Rmult_le_compat_l; assumption). lra.
  - apply cos_decreasing_1; lra.
Qed.
Lemma gap : vdot g_P g_P = 1 /\ 1 * angle pole g_P <= 1 - 15 * 0.001 /\
  forall fuel pts rings, generate fuel g_h = Some (Ok (pts, rings)) -> forall q, In q (all_points (pts, rings)) -> 15 * 0.001 < 1 * angle g_P q.
Proof.
  pose proof PI_gt_3. pose proof g_inside. split; [apply interior_unit|]. split; [lra|]. intros fuel pts rings G q I.
  assert (K : faces_across 0.001 1 1000) by (unfold faces_across; rewrite INR_IZR_INZ; cbn [Z.of_nat Pos.of_succ_nat Pos.succ]; lra).
  destruct (generate_all' 1 0.001 1 1 g_h 1000 (fun r => lin 1 0.001 1 1 r) fuel pts rings ltac:(lra) g_make ltac:(lra) K) as (_ & L & _ & RG & _).
  { intros r. apply sizes_fresh; [lra|reflexivity]. }
  { exact G. }
  rewrite Rmult_1_l. replace (15 * 0.001) with 0.015 by lra. apply in_app_or in I as [I|I].
  - apply in_map_iff in I as (p & <- & I). apply L in I as (i & j & E1 & E2 & Q). apply g_interior. rewrite E1, E2. apply IZR_lt in Q. rewrite plus_IZR, !mult_IZR in Q. 
    replace (IZR (Z.of_nat 1000)) with 1000 in Q by (rewrite <- INR_IZR_INZ; rewrite INR_IZR_INZ; reflexivity). unfold Rdiv. rewrite Rinv_1. cbn [pow fst snd]. lra.
  - apply in_concat in I as (l & I & J). apply in_map_iff in I as ([t n] & <- & I). destruct (RG t n I) as (T1 & T2 & _). apply (g_ring t n); [|exact J].
    rewrite S_INR in T1. replace (INR 1000) with 1000 in T1 by (rewrite INR_IZR_INZ; reflexivity). pose proof (lin_ge 1 0.001 1 1 (1 * t) ltac:(lra) ltac:(lra) ltac:(lra)). lra.
Qed.
(* a region that covers most of the body *)
Lemma wide_case : make (/ PI) 0.1 0.75 4 = Ok (mk_h (/ PI) 0.1 0.75 (Some 4) None None) /\ 0.75 + 0.1 <= PI * / PI /\ (4 - 1) * 0.1 < 2 * 0.75 - PI * / PI < (4 - 1) * (PI * / PI - 0.75).
Proof. pose proof PI_gt_3. assert (PI * / PI = 1) by (apply Rinv_r; lra). split; [apply make_intro|]; lra. Qed.
(* ------------------------------ as stated ------------------------------ *)
Lemma automatic rmax radius : 0.05 <= radius ->
  (exists n l, auto_sizes rmax n radius 1 0.1 = Some l) /\
  forall n l, auto_sizes rmax n radius 1 0.1 = Some l -> forall l1 d s l2, l = (l1 ++ (d, s) :: l2)%list -> let p := last (map snd l1) 0.1 in
  d < PI * radius /\ p <= s <= radius * 2 /\
  ((exists c1 c2, candidates p radius = (c1 ++ s :: c2)%list /\ d <= rmax s /\ forall c, In c c1 -> rmax c < d) \/ (s = p /\ forall c, In c (candidates p radius) -> rmax c < d)).
Proof.
  intros H. split.
  - destruct (archimed_nat ((PI * radius - 1) / 0.1)) as [n N]. exists n. apply auto_ends; [lra|lra|]. unfold Rdiv in N. apply Rlt_le. apply (Rmult_lt_compat_r 0.1) in N; [|lra]. rewrite Rmult_assoc, Rinv_l in N by lra. lra.
  - intros n l A. apply (auto_spec rmax radius n 1 0.1 l); [lra|lra|exact A].
Qed.
Lemma size_exists radius pix loc f h : make radius pix loc f = Ok h -> 2 * loc < PI * radius -> forall r, has_size h r (lin radius pix loc f r).
Proof. intros M D r. apply make_ok in M as (-> & _). apply sizes_fresh; [lra|reflexivity]. Qed.
Lemma local_points radius pix loc f h k fuel pts rings : 0 < radius -> make radius pix loc f = Ok h -> 2 * loc < PI * radius -> faces_across pix loc k ->
  generate fuel h = Some (Ok (pts, rings)) ->
  NoDup pts /\ (forall p, In p pts <-> lattice (pix / radius) k p) /\
  forall p, In p pts -> vdot (interior_point p) (interior_point p) = 1 /\ radius * angle pole (interior_point p) < loc.
Proof.
  intros P M D K G. destruct (generate_all' radius pix loc f h k _ fuel pts rings P M D K (size_exists radius pix loc f h M D) G) as (A & B & _). split; [exact A|]. split; [exact B|].
  intros p I. split; [apply interior_unit|]. apply make_ok in M as (_ & X & _). apply (lattice_inside radius pix loc k); try assumption. apply B, I.
Qed.
Lemma rings_spec radius pix loc f h k size fuel pts rings : 0 < radius -> make radius pix loc f = Ok h -> 2 * loc < PI * radius -> faces_across pix loc k ->
  (forall r, has_size h r (size r)) -> generate fuel h = Some (Ok (pts, rings)) ->
  successive radius size ((INR k + 1) * (pix / radius)) rings /\
  (forall t n, In (t, n) rings -> loc < radius * t /\ radius * t + size (radius * t) <= PI * radius /\ (1 <= n)%Z /\
    (n = 1%Z -> 2 * PI * radius * sin t <= 3 / 2 * size (radius * t)) /\
    ((2 <= n)%Z -> 3 / 4 * size (radius * t) <= 2 * PI * radius * sin t / IZR n <= 5 / 4 * size (radius * t))) /\
  (rings <> [] -> forall r, (INR k + 1) * pix <= r <= PI * radius -> exists t n, In (t, n) rings /\
    radius * t <= r < radius * t + size (radius * t) + size (radius * t + size (radius * t))).
Proof.
  intros P M D K Z G. destruct (generate_all' radius pix loc f h k _ fuel pts rings P M D K Z G) as (_ & _ & A & B & C). rewrite S_INR in *. split; [exact A|]. split; [|exact C].
  intros t n I. destruct (B t n I) as (B1 & B2). split; [|exact B2]. destruct K as [_ K]. apply (Rmult_le_compat_l radius) in B1; [|apply Rlt_le, P].
  replace (radius * ((INR k + 1) * (pix / radius))) with ((INR k + 1) * pix) in B1 by (field; lra). lra.
Qed.
Lemma generate_ends radius pix loc f h : 0 < radius -> make radius pix loc f = Ok h -> 2 * loc < PI * radius ->
  exists enough, forall fuel, (enough <= fuel)%nat -> exists pts rings, generate fuel h = Some (Ok (pts, rings)).
Proof.
  intros P M D. pose proof (make_ok _ _ _ _ _ M) as (_ & A & B & _). destruct (faces_exist pix loc A ltac:(lra)) as [k K].
  destruct (generate_all radius pix loc f h k _ P M D K (size_exists radius pix loc f h M D)) as [N H]. exists N. intros fuel F. destruct (H fuel F) as (p & r & E & _). exists p, r. exact E.
Qed.
