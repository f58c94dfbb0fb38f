From Coq Require Import Reals List Lra Lia.
From Verif Require Import Common Trig_model RSum Geo_proofs Fit_model Fit_spec Fit_proofs.
Import ListNotations.
Open Scope R_scope.

Lemma inv3_ok m i : inv3 m = Ok i -> det3 m <> 0 /\ (forall v, mv m (mv i v) = v) /\ (forall v, mv i (mv m v) = v).
Proof.
  destruct m as [[[[a b] c] [[d e] f]] [[g h] k]]. unfold inv3. set (D := det3 _). destruct (Req_EM_T D 0) as [Z | Z]; [discriminate |].
  intros E. split; [exact Z |]. assert (E' : i = (((e * k - f * h) / D, (c * h - b * k) / D, (b * f - c * e) / D),
           ((f * g - d * k) / D, (a * k - c * g) / D, (c * d - a * f) / D), ((d * h - e * g) / D, (b * g - a * h) / D, (a * e - b * d) / D))) by congruence.
  subst i. clear E. unfold D, det3 in *. split; intros [[x y] z]; unfold mv, dot3; f_equal; [f_equal | | f_equal |]; field; exact Z.
Qed.
Lemma inv3_total m : det3 m <> 0 -> exists i, inv3 m = Ok i.
Proof.
  destruct m as [[[[a b] c] [[d e] f]] [[g h] k]]. unfold inv3. intros H. set (D := det3 _) in *. destruct (Req_EM_T D 0) as [Z | Z]; [congruence |]. eexists. reflexivity.
Qed.
Lemma inv3_singular m : det3 m = 0 -> inv3 m = Err RustErr.
Proof. destruct m as [[[[a b] c] [[d e] f]] [[g h] k]]. unfold inv3. intros H. set (D := det3 _) in *. destruct (Req_EM_T D 0); [reflexivity | congruence]. Qed.

Lemma total_lin a b c f g h k pts :
  total (fun p => f p + (a * g p + b * h p + c * k p)) pts = total f pts + (a * total g pts + b * total h pts + c * total k pts).
Proof.
  rewrite (total_plus f (fun p => a * g p + b * h p + c * k p)), (total_plus (fun p => a * g p + b * h p) (fun p => c * k p)),
    (total_plus (fun p => a * g p) (fun p => b * h p)), !total_scal. ring.
Qed.
Lemma total_mul_lin q a b c g h k pts :
  total (fun p => q p * (a * g p + b * h p + c * k p)) pts = a * total (fun p => q p * g p) pts + b * total (fun p => q p * h p) pts + c * total (fun p => q p * k p) pts.
Proof.
  rewrite (total_ext _ (fun p => 0 + (a * (q p * g p) + b * (q p * h p) + c * (q p * k p)))) by (intros; ring).
  rewrite (total_lin a b c (fun _ => 0) (fun p => q p * g p) (fun p => q p * h p) (fun p => q p * k p)), (total_const 0). ring.
Qed.

(** The residual of the circle with parameters (x0, y0, c). *)
Definition rho (x0 y0 c : R) (p : wpoint) : R := bvec p + (- x0 * (2 * px p) + - y0 * (2 * py p) + - c * 1).
Definition A3 (pts : list wpoint) : mat3 := gram3 circle_rows circle_rows pts.
Definition b3 (pts : list wpoint) : vec3 :=
  (gram (fun p => 2 * px p) bvec pts, gram (fun p => 2 * py p) bvec pts, gram (fun _ => 1) bvec pts).

Lemma normal_residual pts x0 y0 c q :
  total (fun p => q p * rho x0 y0 c p) pts =
  total (fun p => q p * bvec p) pts - (x0 * total (fun p => q p * (2 * px p)) pts + y0 * total (fun p => q p * (2 * py p)) pts + c * total (fun p => q p * 1) pts).
Proof.
  rewrite (total_ext _ (fun p => q p * bvec p + (- x0 * (q p * (2 * px p)) + - y0 * (q p * (2 * py p)) + - c * (q p * 1)))) by (intros; unfold rho; ring).
  rewrite (total_lin (- x0) (- y0) (- c) (fun p => q p * bvec p) (fun p => q p * (2 * px p)) (fun p => q p * (2 * py p)) (fun p => q p * 1)). ring.
Qed.
Lemma normal_equations pts x0 y0 c : mv (A3 pts) (x0, y0, c) = b3 pts <->
  total (fun p => (2 * px p) * rho x0 y0 c p) pts = 0 /\ total (fun p => (2 * py p) * rho x0 y0 c p) pts = 0 /\ total (fun p => 1 * rho x0 y0 c p) pts = 0.
Proof.
  rewrite (normal_residual pts x0 y0 c (fun p => 2 * px p)), (normal_residual pts x0 y0 c (fun p => 2 * py p)), (normal_residual pts x0 y0 c (fun _ => 1)).
  unfold A3, b3, gram3, circle_rows, mv, dot3. rewrite !gram_total. split.
  - intros E. injection E as E1 E2 E3. repeat split; lra.
  - intros (E1 & E2 & E3). f_equal; [f_equal |]; lra.
Qed.

Lemma misfit_min pts x0 y0 c : mv (A3 pts) (x0, y0, c) = b3 pts -> forall x1 y1 c1,
  total (fun p => rho x0 y0 c p ^ 2) pts <= total (fun p => rho x1 y1 c1 p ^ 2) pts.
Proof.
  intros N x1 y1 c1. apply normal_equations in N. destruct N as (N1 & N2 & N3).
  set (e := fun p => (x0 - x1) * (2 * px p) + (y0 - y1) * (2 * py p) + (c - c1) * 1).
  assert (E : total (fun p => rho x1 y1 c1 p ^ 2) pts = total (fun p => rho x0 y0 c p ^ 2) pts + total (fun p => e p ^ 2) pts).
  { rewrite (total_ext _ (fun p => rho x0 y0 c p ^ 2 + (2 * (rho x0 y0 c p * e p) + e p ^ 2))) by (intros; unfold e, rho; ring).
    rewrite (total_plus (fun p => rho x0 y0 c p ^ 2) (fun p => 2 * (rho x0 y0 c p * e p) + e p ^ 2)),
      (total_plus (fun p => 2 * (rho x0 y0 c p * e p)) (fun p => e p ^ 2)), (total_scal 2 (fun p => rho x0 y0 c p * e p)).
    unfold e at 2. rewrite (total_mul_lin (rho x0 y0 c) (x0 - x1) (y0 - y1) (c - c1) (fun p => 2 * px p) (fun p => 2 * py p) (fun _ => 1)).
    rewrite (total_ext (fun p => rho x0 y0 c p * (2 * px p)) (fun p => 2 * px p * rho x0 y0 c p)) by (intros; ring).
    rewrite (total_ext (fun p => rho x0 y0 c p * (2 * py p)) (fun p => 2 * py p * rho x0 y0 c p)) by (intros; ring).
    rewrite (total_ext (fun p => rho x0 y0 c p * 1) (fun p => 1 * rho x0 y0 c p)) by (intros; ring).
    rewrite N1, N2, N3. unfold e. ring. }
  rewrite E. assert (0 <= total (fun p => e p ^ 2) pts) by (apply total_nonneg; intros; apply pow2_ge_0). lra.
Qed.

(* ---------------------- when the equations are solvable ---------------------- *)
Lemma det_formula pts : let W := total (fun _ => 1) pts in let X := total px pts in let Y := total py pts in
  let XX := total (fun p => px p * px p) pts in let YY := total (fun p => py p * py p) pts in let XY := total (fun p => px p * py p) pts in
  det3 (A3 pts) = 16 * (XX * (YY * W - Y * Y) - XY * (XY * W - Y * X) + X * (XY * Y - YY * X)).
Proof.
  intros W X Y XX YY XY. unfold A3, gram3, circle_rows, det3. rewrite !gram_total.
  rewrite (total_ext (fun p => 2 * px p * (2 * px p)) (fun p => 4 * (px p * px p))), (total_ext (fun p => 2 * px p * (2 * py p)) (fun p => 4 * (px p * py p))),
    (total_ext (fun p => 2 * px p * 1) (fun p => 2 * px p)), (total_ext (fun p => 2 * py p * (2 * px p)) (fun p => 4 * (px p * py p))),
    (total_ext (fun p => 2 * py p * (2 * py p)) (fun p => 4 * (py p * py p))), (total_ext (fun p => 2 * py p * 1) (fun p => 2 * py p)),
    (total_ext (fun p => 1 * (2 * px p)) (fun p => 2 * px p)), (total_ext (fun p => 1 * (2 * py p)) (fun p => 2 * py p)),
    (total_ext (fun p => 1 * 1) (fun _ => 1)) by (intros; ring).
  rewrite (total_scal 4 (fun p => px p * px p)), (total_scal 4 (fun p => px p * py p)), (total_scal 4 (fun p => py p * py p)), (total_scal 2 px), (total_scal 2 py).
  fold W X Y XX YY XY. ring.
Qed.
Lemma total_quad u v k pts : total (fun p => (u * px p + v * py p + k) ^ 2) pts =
  u ^ 2 * total (fun p => px p * px p) pts + v ^ 2 * total (fun p => py p * py p) pts + k ^ 2 * total (fun _ => 1) pts
  + 2 * u * v * total (fun p => px p * py p) pts + 2 * u * k * total px pts + 2 * v * k * total py pts.
Proof.
  rewrite (total_ext _ (fun p => (u ^ 2 * (px p * px p) + (v ^ 2 * (py p * py p) + 2 * u * v * (px p * py p) + k ^ 2 * 1)) + (2 * u * k * px p + 2 * v * k * py p + 0 * 1))) by (intros; ring).
  rewrite (total_lin (2 * u * k) (2 * v * k) 0 (fun p => u ^ 2 * (px p * px p) + (v ^ 2 * (py p * py p) + 2 * u * v * (px p * py p) + k ^ 2 * 1)) px py (fun _ => 1)).
  rewrite (total_lin (v ^ 2) (2 * u * v) (k ^ 2) (fun p => u ^ 2 * (px p * px p)) (fun p => py p * py p) (fun p => px p * py p) (fun _ => 1)), (total_scal (u ^ 2)). ring.
Qed.
Lemma quad_zero u v k pts : total (fun p => (u * px p + v * py p + k) ^ 2) pts = 0 -> forall p, In p pts -> counts p -> u * px p + v * py p = - k.
Proof.
  intros E p Hp C. pose proof (total_zero (fun p => (u * px p + v * py p + k) ^ 2) pts ltac:(intros; apply pow2_ge_0) E p Hp C) as X. cbn beta in X.
  assert ((u * px p + v * py p + k) = 0) by nra. lra.
Qed.
Lemma det_collinear pts : det3 (A3 pts) = 0 <-> collinear pts.
Proof.
  pose proof (det_formula pts) as F. cbn zeta in F. pose proof (fun u v k => total_quad u v k pts) as Q.
  set (W := total (fun _ => 1) pts) in *. set (X := total px pts) in *. set (Y := total py pts) in *.
  set (XX := total (fun p => px p * px p) pts) in *. set (YY := total (fun p => py p * py p) pts) in *. set (XY := total (fun p => px p * py p) pts) in *.
  assert (NW : 0 <= W) by (apply total_nonneg; intros; lra). split.
  - intros Z. destruct NW as [PW | ZW].
    + set (cxx := W * XX - X * X). set (cxy := W * XY - X * Y). set (cyy := W * YY - Y * Y).
      assert (D : W * det3 (A3 pts) = 16 * (cxx * cyy - cxy * cxy)) by (rewrite F; unfold cxx, cyy, cxy; ring).
      rewrite Z, Rmult_0_r in D.
      assert (Cx : total (fun p => (W * px p + 0 * py p + - X) ^ 2) pts = W * cxx) by (rewrite Q; unfold cxx; ring).
      destruct (Req_EM_T cxx 0) as [E | E].
      * exists W, 0, X. split; [left; lra |]. rewrite E, Rmult_0_r in Cx. intros p Hp C. pose proof (quad_zero _ _ _ _ Cx p Hp C). lra.
      * assert (Cy : total (fun p => (- cxy * px p + cxx * py p + (cxy * X - cxx * Y) / W) ^ 2) pts = cxx * (cxx * cyy - cxy * cxy) / W).
        { rewrite Q. unfold cxx, cyy, cxy. field. lra. }
        assert (cxx * cyy - cxy * cxy = 0) as Z0 by lra. rewrite Z0 in Cy. unfold Rdiv in Cy at 2. rewrite !Rmult_0_r, Rmult_0_l in Cy.
        exists (- cxy), cxx, (- ((cxy * X - cxx * Y) / W)). split; [right; exact E |]. intros p Hp C. apply (quad_zero _ _ _ _ Cy p Hp C).
    + exists 1, 0, 0. split; [left; lra |]. intros p Hp C. exfalso.
      pose proof (total_zero (fun _ => 1) pts ltac:(intros; lra) (eq_sym ZW) p Hp C) as X0. cbn in X0. lra.
  - intros (u & v & k & NZ & L).
    assert (T : forall q, total (fun p => q p * (u * px p + v * py p + - k * 1)) pts = 0).
    { intros q. rewrite (total_ext _ (fun _ => 0)); [rewrite (total_const 0); ring |]. intros p Hp C. rewrite Rmult_1_r, (L p Hp C). ring. }
    pose proof (T px) as Tx. pose proof (T py) as Ty. pose proof (T (fun _ => 1)) as T1.
    rewrite (total_mul_lin px u v (- k) px py (fun _ => 1)) in Tx. rewrite (total_mul_lin py u v (- k) px py (fun _ => 1)) in Ty.
    rewrite (total_mul_lin (fun _ => 1) u v (- k) px py (fun _ => 1)) in T1.
    rewrite (total_ext (fun p => px p * 1) px), (total_ext (fun p => py p * px p) (fun p => px p * py p)), (total_ext (fun p => py p * 1) py),
      (total_ext (fun p => 1 * px p) px), (total_ext (fun p => 1 * py p) py), (total_ext (fun _ => 1 * 1) (fun _ => 1)) in * by (intros; ring).
    fold W X Y XX YY XY in Tx, Ty, T1. rewrite F.
    set (D := XX * (YY * W - Y * Y) - XY * (XY * W - Y * X) + X * (XY * Y - YY * X)).
    assert (Du : u * D = 0).
    { replace (u * D) with ((u * XX + v * XY + - k * X) * (YY * W - Y * Y) - (u * XY + v * YY + - k * Y) * (XY * W - Y * X) + (u * X + v * Y + - k * W) * (XY * Y - YY * X)) by (unfold D; ring).
      rewrite Tx, Ty, T1. ring. }
    assert (Dv : v * D = 0).
    { replace (v * D) with (- ((u * XX + v * XY + - k * X) * (XY * W - X * Y)) + (u * XY + v * YY + - k * Y) * (XX * W - X * X) - (u * X + v * Y + - k * W) * (XX * Y - XY * X)) by (unfold D; ring).
      rewrite Tx, Ty, T1. ring. }
    assert (D = 0) as ->; [| ring]. apply Rmult_integral in Du, Dv. destruct NZ; destruct Du, Dv; lra.
Qed.

Lemma solve_cases pts : (collinear pts /\ circle_solve pts = Err RustErr) \/
  (~ collinear pts /\ exists x0 y0 c, circle_solve pts = Ok (x0, y0, sqrt (c + x0 * x0 + y0 * y0), wrms_of (fun p => dist x0 y0 p - sqrt (c + x0 * x0 + y0 * y0)) pts)
     /\ mv (A3 pts) (x0, y0, c) = b3 pts /\ 0 < c + x0 * x0 + y0 * y0 /\ (forall v, mv (A3 pts) v = b3 pts -> v = (x0, y0, c))).
Proof.
  unfold circle_solve. fold (A3 pts). destruct (Req_EM_T (det3 (A3 pts)) 0) as [Z | Z].
  - left. split; [apply det_collinear; exact Z |]. rewrite inv3_singular by exact Z. reflexivity.
  - right. assert (NC : ~ collinear pts) by (intros X; apply det_collinear in X; contradiction). split; [exact NC |].
    destruct (inv3_total _ Z) as [i Ei]. destruct (inv3_ok _ _ Ei) as (_ & I1 & I2). rewrite Ei. cbn [rbind]. unfold circle_rows. fold (b3 pts).
    destruct (mv i (b3 pts)) as [[x0 y0] c] eqn:E.
    assert (N : mv (A3 pts) (x0, y0, c) = b3 pts) by (rewrite <- E; apply I1).
    exists x0, y0, c.
    assert (P : 0 < c + x0 * x0 + y0 * y0).
    { pose proof N as N'. apply normal_equations in N'. destruct N' as (_ & _ & N3).
      assert (W0 : 0 < total (fun _ => 1) pts).
      { pose proof (total_nonneg (fun _ => 1) pts ltac:(intros; lra)) as [W | W]; [exact W |]. exfalso. apply NC. exists 1, 0, 0. split; [left; lra |].
        intros p Hp C. exfalso. pose proof (total_zero (fun _ => 1) pts ltac:(intros; lra) (eq_sym W) p Hp C) as X0. cbn in X0. lra. }
      assert (E2 : total (fun p => sqd x0 y0 p) pts = (c + x0 * x0 + y0 * y0) * total (fun _ => 1) pts).
      { rewrite (total_ext _ (fun p => 1 * rho x0 y0 c p + (c + x0 * x0 + y0 * y0) * 1)) by (intros; unfold rho, bvec, sqd; ring).
        rewrite (total_plus (fun p => 1 * rho x0 y0 c p) (fun _ => (c + x0 * x0 + y0 * y0) * 1)), N3, (total_scal (c + x0 * x0 + y0 * y0) (fun _ => 1)). ring. }
      assert (NN : 0 <= total (fun p => sqd x0 y0 p) pts) by (apply total_nonneg; intros p _; unfold sqd; pose proof (pow2_ge_0 (px p - x0)); pose proof (pow2_ge_0 (py p - y0)); lra).
      destruct NN as [NN | NN]; [nra |]. exfalso. apply NC. exists 1, 0, x0. split; [left; lra |]. intros p Hp C.
      pose proof (total_zero (sqd x0 y0) pts ltac:(intros q _; unfold sqd; pose proof (pow2_ge_0 (px q - x0)); pose proof (pow2_ge_0 (py q - y0)); lra) (eq_sym NN) p Hp C) as X0.
      unfold sqd in X0. pose proof (pow2_ge_0 (py p - y0)). assert (px p - x0 = 0) by nra. lra. }
    split; [destruct (Rlt_dec 0 (c + x0 * x0 + y0 * y0)); [reflexivity | lra] |]. split; [exact N |]. split; [exact P |].
    intros v Hv. rewrite <- (I2 v), Hv. exact E.
Qed.

Lemma rho_area x0 y0 c p : 0 <= c + x0 * x0 + y0 * y0 -> rho x0 y0 c p = sqd x0 y0 p - sqrt (c + x0 * x0 + y0 * y0) ^ 2.
Proof. intros H. cbn [pow]. rewrite Rmult_1_r, sqrt_sqrt by exact H. unfold rho, bvec, sqd. ring. Qed.
Lemma rho_area' x0 y0 r p : rho x0 y0 (r ^ 2 - x0 * x0 - y0 * y0) p = sqd x0 y0 p - r ^ 2.
Proof. unfold rho, bvec, sqd. ring. Qed.

Lemma circle_best pts x0 y0 r w : fit_circle pts = Ok (x0, y0, r, w) ->
  0 < r /\ forall x1 y1 r1, area_misfit pts x0 y0 r <= area_misfit pts x1 y1 r1.
Proof.
  intros E. assert (E' : circle_solve pts = Ok (x0, y0, r, w)).
  { unfold fit_circle in E. destruct (osum (map snd pts)) as [s |]; [destruct (Req_EM_T s 0); [discriminate E |] |]; exact E. }
  clear E. destruct (solve_cases pts) as [[_ X] | (_ & a & b & c & X & N & P & _)]; [congruence |].
  rewrite X in E'. assert (a = x0 /\ b = y0 /\ sqrt (c + a * a + b * b) = r) as (-> & -> & <-) by (split; [congruence | split; congruence]).
  split; [apply sqrt_lt_R0; exact P |]. intros x1 y1 r1. unfold area_misfit.
  rewrite (total_ext _ (fun p => rho x0 y0 c p ^ 2)) by (intros; rewrite <- rho_area by lra; reflexivity).
  rewrite (total_ext (fun p => (sqd x1 y1 p - r1 ^ 2) ^ 2) (fun p => rho x1 y1 (r1 ^ 2 - x1 * x1 - y1 * y1) p ^ 2)) by (intros; rewrite rho_area'; reflexivity).
  apply misfit_min. exact N.
Qed.
Lemma circle_exact pts X Y r x0 y0 r0 w : 0 <= r -> (forall p, In p pts -> counts p -> sqd X Y p = r ^ 2) ->
  fit_circle pts = Ok (x0, y0, r0, w) -> x0 = X /\ y0 = Y /\ r0 = r.
Proof.
  intros P On E. assert (E' : circle_solve pts = Ok (x0, y0, r0, w)).
  { unfold fit_circle in E. destruct (osum (map snd pts)) as [s |]; [destruct (Req_EM_T s 0); [discriminate E |] |]; exact E. }
  clear E. destruct (solve_cases pts) as [[_ Z] | (_ & a & b & c & Z & N & _ & U)]; [congruence |].
  assert (S : mv (A3 pts) (X, Y, r ^ 2 - X * X - Y * Y) = b3 pts).
  { apply normal_equations. assert (T : forall q, total (fun p => q p * rho X Y (r ^ 2 - X * X - Y * Y) p) pts = 0).
    { intros q. rewrite (total_ext _ (fun _ => 0)); [rewrite (total_const 0); ring |]. intros p Hp C. rewrite rho_area', (On p Hp C). ring. }
    split; [exact (T (fun p => 2 * px p)) |]. split; [exact (T (fun p => 2 * py p)) | exact (T (fun _ => 1))]. }
  apply U in S. rewrite Z in E'. assert (a = X /\ b = Y /\ c = r ^ 2 - X * X - Y * Y) as (-> & -> & ->) by (split; [congruence | split; congruence]).
  split; [congruence |]. split; [congruence |]. assert (Hr : sqrt (r ^ 2 - X * X - Y * Y + X * X + Y * Y) = r0) by congruence.
  rewrite <- Hr. replace (r ^ 2 - X * X - Y * Y + X * X + Y * Y) with (r * r) by ring. apply sqrt_square. exact P.
Qed.
Lemma circle_total pts : (exists x0 y0 r w, fit_circle pts = Ok (x0, y0, r, w)) <-> osum (map snd pts) <> Some 0 /\ ~ collinear pts.
Proof.
  unfold fit_circle. destruct (solve_cases pts) as [[C Z] | (C & a & b & c & Z & _)].
  - split; [| tauto]. intros (x0 & y0 & r & w & E). destruct (osum (map snd pts)) as [s |]; [destruct (Req_EM_T s 0) |]; congruence.
  - destruct (osum (map snd pts)) as [s |].
    + destruct (Req_EM_T s 0) as [-> | NZ]; split.
      * intros (x0 & y0 & r & w & E). discriminate E.
      * intros [X _]. congruence.
      * intros _. split; [congruence | exact C].
      * intros _. do 4 eexists. exact Z.
    + split; intros; [split; [discriminate | exact C] | do 4 eexists; exact Z].
Qed.
(** With weights that are numbers and none negative, the reported misfit is the root of the
    weighted mean squared distance to the circle. *)
Lemma osum_weights (f : wpoint -> R) pts : Forall (fun p => exists v, snd p = Some v /\ 0 <= v) pts ->
  osum (map (fun p => match snd p with Some w => Some (f p * f p * w) | None => None end) pts) = Some (total (fun p => f p ^ 2) pts) /\
  osum (map snd pts) = Some (total (fun _ => 1) pts).
Proof.
  unfold total. induction 1 as [| p l (v & Ev & Pv) F [IH1 IH2]]; [split; reflexivity |]. cbn [map osum]. rewrite IH1, IH2, Ev, !lsum_cons.
  assert (weight p = v) as -> by (unfold weight; rewrite Ev; unfold Rmax; destruct (Rle_dec v 0); lra). split; f_equal; ring.
Qed.
Lemma circle_wrms pts x0 y0 r w : Forall (fun p => exists v, snd p = Some v /\ 0 <= v) pts -> fit_circle pts = Ok (x0, y0, r, w) ->
  exists m, w = Some m /\ 0 <= m /\ m ^ 2 * total (fun _ => 1) pts = radial_misfit pts x0 y0 r.
Proof.
  intros F E. destruct (osum_weights (fun p => dist x0 y0 p - r) pts F) as [O1 O2].
  assert (NZ : total (fun _ => 1) pts <> 0) by (unfold fit_circle in E; rewrite O2 in E; destruct (Req_EM_T (total (fun _ => 1) pts) 0); [discriminate E | assumption]).
  assert (E' : circle_solve pts = Ok (x0, y0, r, w)) by (unfold fit_circle in E; rewrite O2 in E; destruct (Req_EM_T (total (fun _ => 1) pts) 0); [discriminate E | exact E]).
  destruct (solve_cases pts) as [[_ X] | (_ & a & b & c & X & N & P & _)]; [congruence |].
  rewrite X in E'. assert (a = x0 /\ b = y0 /\ sqrt (c + a * a + b * b) = r /\ wrms_of (fun p => dist a b p - sqrt (c + a * a + b * b)) pts = w) as (-> & -> & Er & Ew) by (split; [congruence | split; [congruence | split; congruence]]).
  rewrite Er in Ew. unfold wrms_of in Ew. rewrite O1, O2 in Ew.
  assert (PW : 0 < total (fun _ => 1) pts) by (pose proof (total_nonneg (fun _ => 1) pts ltac:(intros; lra)); lra).
  assert (NN : 0 <= total (fun p => (dist x0 y0 p - r) ^ 2) pts) by (apply total_nonneg; intros; apply pow2_ge_0).
  assert (Q : 0 <= total (fun p => (dist x0 y0 p - r) ^ 2) pts / total (fun _ => 1) pts) by (apply Rmult_le_pos; [exact NN | left; apply Rinv_0_lt_compat; exact PW]).
  destruct (Rle_dec 0 _) as [_ | NQ] in Ew; [| contradiction]. exists (sqrt (total (fun p => (dist x0 y0 p - r) ^ 2) pts / total (fun _ => 1) pts)).
  split; [congruence |]. split; [apply sqrt_pos |]. cbn [pow]. rewrite Rmult_1_r, sqrt_sqrt by exact Q.
  unfold radial_misfit. rewrite (total_ext (fun p => (sqrt (sqd x0 y0 p) - r) ^ 2) (fun p => (dist x0 y0 p - r) * ((dist x0 y0 p - r) * 1))) by (intros; rewrite dist_sqd; ring).
  field. exact NZ.
Qed.
