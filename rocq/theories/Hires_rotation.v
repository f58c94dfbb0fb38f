(** The rotation of the points to the local region. *)
From Coq Require Import Reals Lra Lia.
From Verif Require Import Common Hires_model Hires_spec.
Open Scope R_scope.

Lemma cs2 x : cos x * cos x + sin x * sin x = 1.
Proof. pose proof (sin2_cos2 x). unfold Rsqr in *. lra. Qed.
Lemma rodrigues_isometry k t u v : vdot k k = 1 -> vdot (rodrigues k t u) (rodrigues k t v) = vdot u v.
Proof.
  destruct k as [[k1 k2] k3], u as [[u1 u2] u3], v as [[v1 v2] v3]. unfold rodrigues, vadd, scale, cross, vdot. intros K. pose proof (cs2 t) as C.
  set (c := cos t) in *. set (s := sin t) in *. assert (S2 : s * s = 1 - c * c) by lra. assert (K3 : k3 * k3 = 1 - k1 * k1 - k2 * k2) by lra.
  match goal with |- ?a = ?b => assert (E : a - b = 0); [|lra] end.
  transitivity ((k1 * k1 + k2 * k2 + k3 * k3 - 1) * ((1 - c) * (1 - c) * (k1 * u1 + k2 * u2 + k3 * u3) * (k1 * v1 + k2 * v2 + k3 * v3) + s * s * (u1 * v1 + u2 * v2 + u3 * v3))
    + (s * s + c * c - 1) * (u1 * v1 + u2 * v2 + u3 * v3) - (s * s + c * c - 1) * (k1 * u1 + k2 * u2 + k3 * u3) * (k1 * v1 + k2 * v2 + k3 * v3)).
  - ring.
  - replace (k1 * k1 + k2 * k2 + k3 * k3 - 1) with 0 by lra. replace (s * s + c * c - 1) with 0 by lra. ring.
Qed.
Lemma axis_norm location : let lat := snd location * (PI / 180) in let a := cross (0, 0, 1) (position (fst location) (snd location)) in sqrt (vdot a a) = Rabs (cos lat) /\ vdot a a = cos lat * cos lat.
Proof.
  cbn zeta. unfold position, cross, vdot. set (lon := fst location * _). set (lat := snd location * _).
  match goal with |- sqrt ?e = _ /\ _ => assert (E : e = cos lat * cos lat) end.
  { pose proof (cs2 lon). transitivity (cos lat * cos lat * (cos lon * cos lon + sin lon * sin lon)); [ring|]. rewrite H. ring. }
  rewrite E. split; [|reflexivity]. change (cos lat * cos lat) with (Rsqr (cos lat)). apply sqrt_Rsqr_abs.
Qed.
Lemma rotate_eq location p : rotate location p = if Rlt_dec (Rabs (cos (snd location * (PI / 180)))) 1e-10 then p else
  rodrigues (scale (/ Rabs (cos (snd location * (PI / 180)))) (cross (0, 0, 1) (position (fst location) (snd location)))) (acos (sin (snd location * (PI / 180)))) p.
Proof.
  unfold rotate. fold (position (fst location) (snd location)). destruct (axis_norm location) as [-> _]. destruct (Rlt_dec _ _); [reflexivity|]. f_equal. f_equal.
  unfold position, vdot. replace (_ + _ + 1 * _) with (sin (snd location * (PI / 180))) by ring. pose proof (SIN_bound (snd location * (PI / 180))). rewrite Rmax_left by lra. apply Rmin_left. lra.
Qed.
Lemma unit_axis location : ~ Rabs (cos (snd location * (PI / 180))) < 1e-10 -> let k := scale (/ Rabs (cos (snd location * (PI / 180)))) (cross (0, 0, 1) (position (fst location) (snd location))) in vdot k k = 1.
Proof.
  intros N. cbn zeta. destruct (axis_norm location) as [_ E]. set (a := cross _ _) in *. set (c := cos _) in *.
  assert (P : 0 < Rabs c). { destruct (Rabs_pos c); [assumption|]. exfalso. apply N. rewrite <- H. lra. }
  assert (G : forall m, vdot (scale m a) (scale m a) = m * m * vdot a a) by (intros m; destruct a as [[x y] z]; unfold vdot, scale; ring). rewrite G, E.
  assert (Q : c * c = Rabs c * Rabs c) by (rewrite <- Rabs_mult, Rabs_right; [reflexivity|apply Rle_ge, Rle_0_sqr]). rewrite Q. field. lra.
Qed.
Lemma rotate_isometry location u v : vdot (rotate location u) (rotate location v) = vdot u v.
Proof. rewrite !rotate_eq. destruct (Rlt_dec _ _) as [L|L]; [reflexivity|]. apply rodrigues_isometry, unit_axis, L. Qed.
Lemma rotate_pole location : -90 <= snd location <= 90 -> 1e-10 <= cos (snd location * (PI / 180)) -> rotate location pole = position (fst location) (snd location).
Proof.
  intros B C. rewrite rotate_eq. set (lat := snd location * (PI / 180)) in *. rewrite Rabs_right by lra. destruct (Rlt_dec _ _); [lra|].
  assert (S : sin (acos (sin lat)) = cos lat).
  { rewrite sin_acos by apply SIN_bound. assert (Q : 1 - (sin lat)² = (cos lat)²) by (rewrite cos2; reflexivity). rewrite Q. apply sqrt_Rsqr. lra. }
  assert (D : cos (acos (sin lat)) = sin lat) by (apply cos_acos, SIN_bound).
  unfold rodrigues, pole. rewrite S, D. unfold position, cross, scale, vadd, vdot. fold lat. set (lon := fst location * _). f_equal; [f_equal|]; field; lra.
Qed.
Lemma rotate_near_north location : Rabs (cos (snd location * (PI / 180))) < 1e-10 -> 0 < sin (snd location * (PI / 180)) -> forall p, rotate location p = p /\ 1 - 1e-20 <= vdot pole (position (fst location) (snd location)).
Proof.
  intros C P p. rewrite rotate_eq. destruct (Rlt_dec _ _); [|lra]. split; [reflexivity|]. set (lat := snd location * _) in *. unfold pole, position, vdot. fold lat.
  replace (_ + _ + 1 * sin lat) with (sin lat) by ring. pose proof (cs2 lat) as E.
  assert (cos lat * cos lat < 1e-20). { assert (- 1e-10 < cos lat < 1e-10) by (unfold Rabs in C; destruct (Rcase_abs _); lra). assert (0 <= (1e-10 - cos lat) * (1e-10 + cos lat)) by (apply Rmult_le_pos; lra).
    assert (cos lat * cos lat <> 1e-20); [|lra]. intros X. assert (Z : (1e-10 - cos lat) * (1e-10 + cos lat) = 0) by lra. apply Rmult_integral in Z. lra. }
  assert (sin lat * sin lat <= 1 * sin lat) by (apply Rmult_le_compat_r; [lra|apply SIN_bound]). lra.
Qed.
Lemma south lon p : rotate (lon, -90) p = p.
Proof.
  rewrite rotate_eq. cbn [fst snd]. replace (-90 * (PI / 180)) with (- (PI / 2)) by field. rewrite cos_neg, cos_PI2, Rabs_R0. destruct (Rlt_dec _ _); [reflexivity|lra].
Qed.
Lemma south_away lon : position lon (-90) = (0, 0, -1).
Proof. unfold position. replace (-90 * (PI / 180)) with (- (PI / 2)) by field. rewrite cos_neg, cos_PI2, sin_neg, sin_PI2. apply f_equal2; [apply f_equal2|]; ring. Qed.
