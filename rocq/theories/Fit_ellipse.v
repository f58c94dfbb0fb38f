From Coq Require Import Reals List Lra Lia.
From Verif Require Import Common Trig_model RSum Geo_proofs Fit_model Fit_spec Fit_proofs Fit_circle Fit_conic.
Import ListNotations.
Open Scope R_scope.

Lemma sq_pos x : x <> 0 -> 0 < x ^ 2.
Proof. intros H. replace (x ^ 2) with (Rsqr x) by (unfold Rsqr; ring). apply Rsqr_pos_lt. exact H. Qed.
Definition con (q : vec3) : R := let '(a, b, c) := q in 4 * a * c - b * b.
Definition conb (q r : vec3) : R := let '(a, b, c) := q in let '(a', b', c') := r in 2 * a * c' + 2 * c * a' - b * b'.
Definition vadd3 (u v : vec3) : vec3 := let '(a, b, c) := u in let '(d, e, f) := v in (a + d, b + e, c + f).
Definition vscal3 (k : R) (u : vec3) : vec3 := let '(a, b, c) := u in (k * a, k * b, k * c).

Lemma con_conb q : con q = conb q q.
Proof. destruct q as [[a b] c]. cbn. ring. Qed.
Lemma con_lin k v w : con (vadd3 (vscal3 k v) w) = k ^ 2 * con v + 2 * k * conb w v + con w.
Proof. destruct v as [[a b] c], w as [[d e] f]. cbn. ring. Qed.
(** The constraint is indefinite: at most one positive direction. *)
Lemma con_neg v w : 0 < con v -> conb w v = 0 -> con w <= 0.
Proof.
  destruct v as [[a b] c], w as [[d e] f]. cbn. intros P O. destruct (Rle_dec (4 * d * f - e * e) 0) as [L | L]; [exact L |]. exfalso.
  assert (Q : 0 < 4 * d * f - e * e) by lra.
  (* s = a + c, t = a - c: s^2 - t^2 - b^2 > 0 *)
  set (s := a + c) in *. set (t := a - c). set (s' := d + f). set (t' := d - f).
  assert (P' : t * t + b * b < s * s) by (unfold s, t; lra). assert (Q' : t' * t' + e * e < s' * s') by (unfold s', t'; lra).
  assert (O' : s * s' = t * t' + b * e) by (unfold s, s', t, t'; lra).
  assert (CS : (t * t' + b * e) * (t * t' + b * e) <= (t * t + b * b) * (t' * t' + e * e)).
  { assert (0 <= (t * e - b * t') * (t * e - b * t')) by apply Rle_0_sqr. lra. }
  rewrite <- O' in CS. assert (0 <= t * t + b * b) by (pose proof (Rle_0_sqr t); pose proof (Rle_0_sqr b); unfold Rsqr in *; lra).
  assert (0 <= t' * t' + e * e) by (pose proof (Rle_0_sqr t'); pose proof (Rle_0_sqr e); unfold Rsqr in *; lra).
  assert (X : (t * t + b * b) * (t' * t' + e * e) < (s * s) * (s' * s')) by (apply Rmult_le_0_lt_compat; assumption).
  replace (s * s' * (s * s')) with (s * s * (s' * s')) in CS by ring. lra.
Qed.

Section Best.
(** [res q] is the residual of the conic with quadratic part q after elimination of the other
    coefficients; [A] the reduced matrix. *)
Variable pts : list wpoint.
Variable res : vec3 -> wpoint -> R.
Variable A : mat3.
Hypothesis res_lin : forall k v w p, res (vadd3 (vscal3 k v) w) p = k * res v p + res w p.
Hypothesis form : forall q r, dot3 q (mv A r) = total (fun p => res q p * res r p) pts.
Variable v : vec3.
Variable lam : R.
Hypothesis eigen : mv (mmul c_inv A) v = vscal3 lam v.
Hypothesis pos : 0 < con v.

Lemma eigen_form q : dot3 q (mv A v) = lam * conb q v.
Proof.
  destruct v as [[a b] c], q as [[d e] f], A as [[[[a1 a2] a3] [[b1 b2] b3]] [[c1 c2] c3]].
  unfold mmul, c_inv, transpose, mv, dot3, vscal3 in eigen. unfold mv, dot3, conb. injection eigen as E1 E2 E3. 
  assert (F1 : c1 * a + c2 * b + c3 * c = 2 * (lam * a)) by lra.
  assert (F2 : b1 * a + b2 * b + b3 * c = - (lam * b)) by lra.
  assert (F3 : a1 * a + a2 * b + a3 * c = 2 * (lam * c)) by lra.
  rewrite F1, F2, F3. ring.
Qed.
Lemma misfit_value : total (fun p => res v p ^ 2) pts = lam * con v.
Proof. rewrite con_conb, <- eigen_form, form. apply total_ext. intros; ring. Qed.
Lemma lam_nonneg : 0 <= lam.
Proof.
  assert (0 <= total (fun p => res v p ^ 2) pts) as N by (apply total_nonneg; intros; apply pow2_ge_0). rewrite misfit_value in N.
  destruct (Rle_dec 0 lam); [assumption |]. exfalso. assert (lam * con v < 0) by nra. lra.
Qed.
Lemma reduced_best q : lam * con q <= total (fun p => res q p ^ 2) pts.
Proof.
  set (k := conb q v / con v). set (w := vadd3 (vscal3 (- k) v) q).
  assert (Hq : q = vadd3 (vscal3 k v) w).
  { unfold w. destruct v as [[a b] c], q as [[d e] f]. cbn. f_equal; [f_equal |]; ring. }
  assert (O : conb w v = 0).
  { unfold w, k. clear Hq. destruct v as [[a b] c], q as [[d e] f]. cbn in *. field. lra. }
  clearbody w k. subst q.
  assert (Cw : con w <= 0) by (apply (con_neg v w pos O)). rewrite con_lin, O.
  rewrite (total_ext _ (fun p => k ^ 2 * res v p ^ 2 + (2 * k * (res w p * res v p) + res w p ^ 2))) by (intros; rewrite res_lin; ring).
  rewrite (total_plus (fun p => k ^ 2 * res v p ^ 2) (fun p => 2 * k * (res w p * res v p) + res w p ^ 2)),
    (total_plus (fun p => 2 * k * (res w p * res v p)) (fun p => res w p ^ 2)), (total_scal (k ^ 2) (fun p => res v p ^ 2)), (total_scal (2 * k) (fun p => res w p * res v p)).
  rewrite <- form, eigen_form, O, misfit_value. pose proof lam_nonneg.
  assert (0 <= total (fun p => res w p ^ 2) pts) by (apply total_nonneg; intros; apply pow2_ge_0). nra.
Qed.
End Best.

(* ----------------------------- free centre ----------------------------- *)
Definition row1 (q : vec3) (p : wpoint) : R := let '(a, b, c) := q in a * (px p * px p) + b * (px p * py p) + c * (py p * py p).
Definition row2 (t : vec3) (p : wpoint) : R := let '(d, f, g) := t in d * px p + f * py p + g * 1.
Lemma conic_rows a b c d f g p : conic a b c d f g (px p) (py p) = row1 (a, b, c) p + row2 (d, f, g) p.
Proof. unfold conic, row1, row2. ring. Qed.
Lemma total_row1 q h pts : total (fun p => h p * row1 q p) pts = let '(a, b, c) := q in
  a * total (fun p => h p * (px p * px p)) pts + b * total (fun p => h p * (px p * py p)) pts + c * total (fun p => h p * (py p * py p)) pts.
Proof. destruct q as [[a b] c]. apply (total_mul_lin h a b c (fun p => px p * px p) (fun p => px p * py p) (fun p => py p * py p)). Qed.
Lemma total_row2 t h pts : total (fun p => h p * row2 t p) pts = let '(d, f, g) := t in
  d * total (fun p => h p * px p) pts + f * total (fun p => h p * py p) pts + g * total (fun p => h p * 1) pts.
Proof. destruct t as [[d f] g]. apply (total_mul_lin h d f g px py (fun _ => 1)). Qed.
Lemma S3_form pts u t : dot3 u (mv (gram3 d2_rows d2_rows pts) t) = total (fun p => row2 u p * row2 t p) pts.
Proof.
  rewrite total_row2. destruct u as [[u1 u2] u3], t as [[d f] g].
  rewrite !(total_ext (fun p => row2 (u1, u2, u3) p * _) (fun p => _ * row2 (u1, u2, u3) p)) by (intros; apply Rmult_comm).
  rewrite !total_row2. unfold gram3, d2_rows, mv, dot3. rewrite !gram_total.
  rewrite !(total_ext (fun p => py p * px p) (fun p => px p * py p)), !(total_ext (fun p => 1 * px p) (fun p => px p * 1)), !(total_ext (fun p => 1 * py p) (fun p => py p * 1)) by (intros; ring).
  ring.
Qed.
Lemma S2_form pts q t : dot3 q (mv (gram3 d1_rows d2_rows pts) t) = total (fun p => row1 q p * row2 t p) pts.
Proof.
  rewrite total_row2. destruct q as [[a b] c], t as [[d f] g].
  rewrite !(total_ext (fun p => row1 (a, b, c) p * _) (fun p => _ * row1 (a, b, c) p)) by (intros; apply Rmult_comm).
  rewrite !total_row1. unfold gram3, d1_rows, d2_rows, mv, dot3. rewrite !gram_total.
  rewrite !(total_ext (fun p => px p * px p * px p) (fun p => px p * (px p * px p))), !(total_ext (fun p => px p * px p * py p) (fun p => py p * (px p * px p))), !(total_ext (fun p => px p * px p * 1) (fun p => 1 * (px p * px p))),
    !(total_ext (fun p => px p * py p * px p) (fun p => px p * (px p * py p))), !(total_ext (fun p => px p * py p * py p) (fun p => py p * (px p * py p))), !(total_ext (fun p => px p * py p * 1) (fun p => 1 * (px p * py p))),
    !(total_ext (fun p => py p * py p * px p) (fun p => px p * (py p * py p))), !(total_ext (fun p => py p * py p * py p) (fun p => py p * (py p * py p))), !(total_ext (fun p => py p * py p * 1) (fun p => 1 * (py p * py p))) by (intros; ring).
  ring.
Qed.
Lemma S1_form pts q r : dot3 q (mv (gram3 d1_rows d1_rows pts) r) = total (fun p => row1 q p * row1 r p) pts.
Proof.
  rewrite total_row1. destruct q as [[a b] c], r as [[a' b'] c'].
  rewrite !(total_ext (fun p => row1 (a, b, c) p * _) (fun p => _ * row1 (a, b, c) p)) by (intros; apply Rmult_comm).
  rewrite !total_row1. unfold gram3, d1_rows, mv, dot3. rewrite !gram_total.
  rewrite !(total_ext (fun p => px p * py p * (px p * px p)) (fun p => px p * px p * (px p * py p))), !(total_ext (fun p => py p * py p * (px p * px p)) (fun p => px p * px p * (py p * py p))),
    !(total_ext (fun p => py p * py p * (px p * py p)) (fun p => px p * py p * (py p * py p))) by (intros; ring).
  ring.
Qed.
Lemma mv_mmul m n v : mv (mmul m n) v = mv m (mv n v).
Proof.
  destruct m as [[[[? ?] ?] [[? ?] ?]] [[? ?] ?]], n as [[[[? ?] ?] [[? ?] ?]] [[? ?] ?]], v as [[? ?] ?]. unfold mmul, transpose, mv, dot3. f_equal; [f_equal |]; ring.
Qed.
Lemma mv_madd m n v : mv (madd m n) v = vadd3 (mv m v) (mv n v).
Proof.
  destruct m as [[[[? ?] ?] [[? ?] ?]] [[? ?] ?]], n as [[[[? ?] ?] [[? ?] ?]] [[? ?] ?]], v as [[? ?] ?]. unfold madd, mv, dot3, vadd3. f_equal; [f_equal |]; ring.
Qed.
Lemma mv_mscale k m v : mv (mscale k m) v = vscal3 k (mv m v).
Proof. destruct m as [[[[? ?] ?] [[? ?] ?]] [[? ?] ?]], v as [[? ?] ?]. unfold mscale, mv, dot3, vscal3. f_equal; [f_equal |]; ring. Qed.
Lemma mv_scal m k v : mv m (vscal3 k v) = vscal3 k (mv m v).
Proof. destruct m as [[[[? ?] ?] [[? ?] ?]] [[? ?] ?]], v as [[? ?] ?]. unfold mv, dot3, vscal3. f_equal; [f_equal |]; ring. Qed.
Lemma mv_add m v w : mv m (vadd3 v w) = vadd3 (mv m v) (mv m w).
Proof. destruct m as [[[[? ?] ?] [[? ?] ?]] [[? ?] ?]], v as [[? ?] ?], w as [[? ?] ?]. unfold mv, dot3, vadd3. f_equal; [f_equal |]; ring. Qed.
Lemma dot_transpose m u v : dot3 u (mv (transpose m) v) = dot3 v (mv m u).
Proof. destruct m as [[[[? ?] ?] [[? ?] ?]] [[? ?] ?]], u as [[? ?] ?], v as [[? ?] ?]. unfold transpose, mv, dot3. ring. Qed.
Lemma dot_add u v w : dot3 u (vadd3 v w) = dot3 u v + dot3 u w.
Proof. destruct u as [[? ?] ?], v as [[? ?] ?], w as [[? ?] ?]. cbn. ring. Qed.
Lemma dot_scal u k v : dot3 u (vscal3 k v) = k * dot3 u v.
Proof. destruct u as [[? ?] ?], v as [[? ?] ?]. cbn. ring. Qed.
Lemma row1_lin k v w p : row1 (vadd3 (vscal3 k v) w) p = k * row1 v p + row1 w p.
Proof. destruct v as [[? ?] ?], w as [[? ?] ?]. cbn. ring. Qed.
Lemma row2_lin k v w p : row2 (vadd3 (vscal3 k v) w) p = k * row2 v p + row2 w p.
Proof. destruct v as [[? ?] ?], w as [[? ?] ?]. cbn. ring. Qed.

Section Free.
Variable pts : list wpoint.
Variable t : mat3.
Hypothesis Ht : ellipse_t pts = Ok t.
Definition fres (q : vec3) (p : wpoint) : R := row1 q p + row2 (mv t q) p.
Lemma t_normal u q : total (fun p => row2 u p * fres q p) pts = 0.
Proof.
  unfold ellipse_t in Ht. destruct (inv3 (gram3 d2_rows d2_rows pts)) as [i | e] eqn:E; [| discriminate Ht]. cbn [rbind] in Ht.
  assert (Et : t = mscale (-1) (mmul i (transpose (gram3 d1_rows d2_rows pts)))) by congruence. destruct (inv3_ok _ _ E) as (_ & I1 & _).
  rewrite (total_ext _ (fun p => row2 u p * row1 q p + row2 u p * row2 (mv t q) p)) by (intros; unfold fres; ring).
  rewrite (total_plus (fun p => row2 u p * row1 q p) (fun p => row2 u p * row2 (mv t q) p)), <- S3_form.
  rewrite (total_ext (fun p => row2 u p * row1 q p) (fun p => row1 q p * row2 u p)) by (intros; ring). rewrite <- S2_form.
  rewrite Et, mv_mscale, mv_mmul, mv_scal, I1, dot_scal, dot_transpose. ring.
Qed.
Lemma free_form q r : dot3 q (mv (m_tmp pts t) r) = total (fun p => fres q p * fres r p) pts.
Proof.
  unfold m_tmp. rewrite mv_madd, mv_mmul, dot_add, S1_form, S2_form.
  rewrite (total_ext (fun p => fres q p * fres r p) (fun p => row1 q p * row1 r p + (row1 q p * row2 (mv t r) p + row2 (mv t q) p * fres r p))) by (intros; unfold fres; ring).
  rewrite (total_plus (fun p => row1 q p * row1 r p) (fun p => row1 q p * row2 (mv t r) p + row2 (mv t q) p * fres r p)),
    (total_plus (fun p => row1 q p * row2 (mv t r) p) (fun p => row2 (mv t q) p * fres r p)), t_normal. ring.
Qed.
Lemma fres_lin k v w p : fres (vadd3 (vscal3 k v) w) p = k * fres v p + fres w p.
Proof. unfold fres. rewrite mv_add, mv_scal, row1_lin, row2_lin. ring. Qed.
(** For a given quadratic part the other coefficients are the best ones. *)
Lemma completion_best q u : total (fun p => fres q p ^ 2) pts <= total (fun p => (row1 q p + row2 u p) ^ 2) pts.
Proof.
  set (e := vadd3 (vscal3 (-1) (mv t q)) u).
  assert (He : forall p, row1 q p + row2 u p = fres q p + row2 e p).
  { intros p. unfold e, fres. rewrite row2_lin. ring. }
  rewrite (total_ext (fun p => (row1 q p + row2 u p) ^ 2) (fun p => fres q p ^ 2 + (2 * (row2 e p * fres q p) + row2 e p ^ 2))) by (intros; rewrite He; ring).
  rewrite (total_plus (fun p => fres q p ^ 2) (fun p => 2 * (row2 e p * fres q p) + row2 e p ^ 2)),
    (total_plus (fun p => 2 * (row2 e p * fres q p)) (fun p => row2 e p ^ 2)), (total_scal 2 (fun p => row2 e p * fres q p)), t_normal.
  assert (0 <= total (fun p => row2 e p ^ 2) pts) by (apply total_nonneg; intros; apply pow2_ge_0). lra.
Qed.
End Free.

Lemma choose_ok cols v : choose_column cols = Ok v -> In v cols /\ 0 < con v.
Proof.
  induction cols as [| [[a b] c] r IH]; cbn [choose_column]; [discriminate |]. destruct (Rlt_dec 0 (4 * a * c - b * b)) as [P | P]; intros E.
  - assert (v = (a, b, c)) by congruence. subst. split; [left; reflexivity | exact P].
  - destruct (IH E) as [I C]. split; [right; exact I | exact C].
Qed.

(** The reduced matrix whose eigenvectors are used. *)
Definition reduced (pts : list wpoint) : result mat3 := rbind (ellipse_t pts) (fun t => Ok (mmul c_inv (m_tmp pts t))).

Lemma ellipse_best eig pts m a b c d f g lam : reduced pts = Ok m ->
  ellipse_coefficients eig pts = Ok ((a, b, c), (d, f, g)) -> mv m (a, b, c) = (lam * a, lam * b, lam * c) ->
  b ^ 2 < 4 * a * c /\
  forall a' b' c' d' f' g', (4 * a' * c' - b' ^ 2) * conic_misfit pts a b c d f g <= (4 * a * c - b ^ 2) * conic_misfit pts a' b' c' d' f' g'.
Proof.
  unfold reduced, ellipse_coefficients. destruct (ellipse_t pts) as [t | e] eqn:Ht; [| discriminate]. cbn [rbind]. intros Em E Eig.
  assert (m = mmul c_inv (m_tmp pts t)) by congruence. subst m. clear Em.
  destruct (choose_column _) as [v | e] eqn:Ec; [| discriminate E]. cbn [rbind] in E. apply choose_ok in Ec. destruct Ec as [_ Cv].
  assert (v = (a, b, c) /\ mv t (a, b, c) = (d, f, g)) as [-> Tv] by (split; congruence). clear E.
  assert (EV : mv (mmul c_inv (m_tmp pts t)) (a, b, c) = vscal3 lam (a, b, c)) by exact Eig.
  pose proof (misfit_value pts (fres t) (m_tmp pts t) (free_form pts t Ht) (a, b, c) lam EV Cv) as MV.
  assert (M0 : conic_misfit pts a b c d f g = total (fun p => fres t (a, b, c) p ^ 2) pts).
  { unfold conic_misfit. apply total_ext. intros p _ _. rewrite conic_rows. unfold fres. rewrite Tv. reflexivity. }
  pose proof (lam_nonneg pts (fres t) (m_tmp pts t) (free_form pts t Ht) (a, b, c) lam EV Cv) as LN.
  split; [unfold con in Cv; lra |]. intros a' b' c' d' f' g'.
  pose proof (reduced_best pts (fres t) (m_tmp pts t) (fres_lin t) (free_form pts t Ht) (a, b, c) lam EV Cv (a', b', c')) as RB.
  pose proof (completion_best pts t Ht (a', b', c') (d', f', g')) as CB.
  assert (M1 : conic_misfit pts a' b' c' d' f' g' = total (fun p => (row1 (a', b', c') p + row2 (d', f', g') p) ^ 2) pts).
  { unfold conic_misfit. apply total_ext. intros p _ _. rewrite conic_rows. reflexivity. }
  rewrite M0, M1, MV. unfold con in *. replace (4 * a * c - b ^ 2) with (4 * a * c - b * b) by ring. replace (4 * a' * c' - b' ^ 2) with (4 * a' * c' - b' * b') by ring.
  set (k := 4 * a * c - b * b) in *. set (k' := 4 * a' * c' - b' * b') in *.
  replace (k' * (lam * k)) with (k * (lam * k')) by ring. apply Rmult_le_compat_l; lra.
Qed.
Lemma ellipse_exact eig pts m a b c d f g lam a' b' c' d' f' g' : reduced pts = Ok m ->
  ellipse_coefficients eig pts = Ok ((a, b, c), (d, f, g)) -> mv m (a, b, c) = (lam * a, lam * b, lam * c) ->
  b' ^ 2 < 4 * a' * c' -> (forall p, In p pts -> counts p -> conic a' b' c' d' f' g' (px p) (py p) = 0) ->
  forall p, In p pts -> counts p -> conic a b c d f g (px p) (py p) = 0.
Proof.
  intros Em E Eig El On. destruct (ellipse_best eig pts m a b c d f g lam Em E Eig) as [_ B]. specialize (B a' b' c' d' f' g').
  assert (M1 : conic_misfit pts a' b' c' d' f' g' = 0).
  { unfold conic_misfit. rewrite (total_ext _ (fun _ => 0)); [rewrite (total_const 0); ring |]. intros p Hp C. rewrite (On p Hp C). ring. }
  assert (M0 : 0 <= conic_misfit pts a b c d f g) by (apply total_nonneg; intros; apply pow2_ge_0).
  assert (Z : conic_misfit pts a b c d f g = 0) by (rewrite M1 in B; nra).
  intros p Hp C. pose proof (total_zero _ pts ltac:(intros; apply pow2_ge_0) Z p Hp C) as X. cbn beta in X. nra.
Qed.

(* ----------------------------- non-empty ellipses ----------------------------- *)
Lemma definite_pos a b c x y : b ^ 2 < 4 * a * c -> 0 <= (a + c) * (a * x ^ 2 + b * x * y + c * y ^ 2) /\
  ((a + c) * (a * x ^ 2 + b * x * y + c * y ^ 2) = 0 -> x = 0 /\ y = 0).
Proof.
  intros H. assert (A : a <> 0) by (intros ->; pose proof (pow2_ge_0 b); lra).
  assert (AC : 0 < a * c) by (pose proof (pow2_ge_0 b); lra).
  assert (E : (a + c) * (a * x ^ 2 + b * x * y + c * y ^ 2) * (4 * a ^ 2) = (a ^ 2 + a * c) * ((2 * a * x + b * y) ^ 2 + (4 * a * c - b ^ 2) * y ^ 2)) by ring.
  assert (P : 0 < a ^ 2 + a * c) by (pose proof (pow2_ge_0 a); lra). assert (P4 : 0 < 4 * a ^ 2) by (assert (0 < a ^ 2) by (apply sq_pos; exact A); lra).
  assert (N1 : 0 <= (2 * a * x + b * y) ^ 2) by apply pow2_ge_0. assert (N2 : 0 <= (4 * a * c - b ^ 2) * y ^ 2) by (apply Rmult_le_pos; [lra | apply pow2_ge_0]).
  set (Q := (a + c) * (a * x ^ 2 + b * x * y + c * y ^ 2)) in *. split.
  - destruct (Rle_dec 0 Q) as [L | L]; [exact L | exfalso]. assert (Q * (4 * a ^ 2) < 0) by nra. assert (0 <= (a ^ 2 + a * c) * ((2 * a * x + b * y) ^ 2 + (4 * a * c - b ^ 2) * y ^ 2)) by (apply Rmult_le_pos; lra). lra.
  - intros Z. rewrite Z, Rmult_0_l in E. symmetry in E. apply Rmult_integral in E. destruct E as [E | E]; [lra |].
    assert (Y : y ^ 2 = 0) by (assert ((4 * a * c - b ^ 2) * y ^ 2 = 0) as M by lra; apply Rmult_integral in M; destruct M; lra).
    assert (y = 0) as -> by (destruct (Req_dec y 0) as [W | W]; [exact W | apply sq_pos in W; lra]).
    assert (X : (2 * a * x) ^ 2 = 0) by (replace (2 * a * x) with (2 * a * x + b * 0) by ring; lra).
    assert (2 * a * x = 0) as X2 by (destruct (Req_dec (2 * a * x) 0) as [W | W]; [exact W | apply sq_pos in W; lra]).
    apply Rmult_integral in X2. destruct X2; [lra | split; [assumption | reflexivity]].
Qed.
Definition centre_x a b c d f : R := (b * f - 2 * c * d) / (4 * a * c - b ^ 2).
Definition centre_y a b c d f : R := (b * d - 2 * a * f) / (4 * a * c - b ^ 2).
Lemma not_real a b c d f g x y : b ^ 2 < 4 * a * c -> ~ real_ellipse a b c d f g ->
  0 <= (a + c) * conic a b c d f g x y /\ (conic a b c d f g x y = 0 -> x = centre_x a b c d f /\ y = centre_y a b c d f).
Proof.
  intros H N. set (D := 4 * a * c - b ^ 2). assert (PD : 0 < D) by (unfold D; lra).
  set (X := x - centre_x a b c d f). set (Y := y - centre_y a b c d f).
  set (K := a * f ^ 2 + c * d ^ 2 + g * b ^ 2 - b * d * f - 4 * a * c * g).
  assert (NK : (a + c) * K <= 0).
  { destruct (Rle_dec ((a + c) * K) 0) as [L | L]; [exact L | exfalso]. apply N. split; [exact H |]. apply Rnot_le_gt in L. exact L. }
  assert (E : conic a b c d f g x y = (a * X ^ 2 + b * X * Y + c * Y ^ 2) - K / D).
  { unfold X, Y, centre_x, centre_y, K, conic. fold D. unfold D. field. unfold D in PD. lra. }
  destruct (definite_pos a b c X Y H) as [P Z]. set (Q := a * X ^ 2 + b * X * Y + c * Y ^ 2) in *.
  assert (KD : (a + c) * (K / D) <= 0). { replace ((a + c) * (K / D)) with ((a + c) * K * / D) by (unfold Rdiv; ring). assert (0 < / D) by (apply Rinv_0_lt_compat; exact PD). nra. }
  assert (ED : (a + c) * conic a b c d f g x y = (a + c) * Q - (a + c) * (K / D)) by (rewrite E; ring).
  split; [rewrite ED; lra |]. intros C. rewrite C, Rmult_0_r in ED. destruct Z as [ZX ZY]; [lra |]. unfold X, Y in *. split; lra.
Qed.
(** Residuals that cancel belong to an ellipse with points, unless all points are one. *)
Lemma balanced_real pts a b c d f g : b ^ 2 < 4 * a * c -> total (fun p => conic a b c d f g (px p) (py p)) pts = 0 ->
  (exists p, In p pts /\ counts p /\ (px p <> centre_x a b c d f \/ py p <> centre_y a b c d f)) -> real_ellipse a b c d f g.
Proof.
  intros H T (p & Hp & C & O). 
  destruct (Rlt_dec 0 ((a + c) * (a * f ^ 2 + c * d ^ 2 + g * b ^ 2 - b * d * f - 4 * a * c * g))) as [G | G]; [split; [exact H | apply Rlt_gt; exact G] | exfalso].
  assert (N : ~ real_ellipse a b c d f g) by (intros [_ X]; apply G; exact X).
  assert (Z : total (fun p => (a + c) * conic a b c d f g (px p) (py p)) pts = 0) by (rewrite (total_scal (a + c) (fun p => conic a b c d f g (px p) (py p))), T; ring).
  pose proof (total_zero _ pts (fun q _ => proj1 (not_real a b c d f g (px q) (py q) H N)) Z p Hp C) as X. cbn beta in X.
  assert (AC : a + c <> 0). { intros E. assert (c = - a) by lra. subst c. pose proof (pow2_ge_0 a). pose proof (pow2_ge_0 b). assert (4 * a * - a = - 4 * a ^ 2) by ring. lra. }
  apply Rmult_integral in X. destruct X as [X | X]; [contradiction |].
  destruct (not_real a b c d f g (px p) (py p) H N) as [_ Y]. specialize (Y X). tauto.
Qed.

Lemma det_scaled pts : det3 (A3 pts) = 16 * det3 (gram3 d2_rows d2_rows pts).
Proof.
  unfold A3, circle_rows, gram3, d2_rows, det3. rewrite !gram_total.
  rewrite (total_ext (fun p => 2 * px p * (2 * px p)) (fun p => 4 * (px p * px p))), (total_ext (fun p => 2 * px p * (2 * py p)) (fun p => 4 * (px p * py p))), (total_ext (fun p => 2 * py p * (2 * px p)) (fun p => 4 * (py p * px p))), (total_ext (fun p => 2 * py p * (2 * py p)) (fun p => 4 * (py p * py p))),
   (total_ext (fun p => 2 * px p * 1) (fun p => 2 * (px p * 1))), (total_ext (fun p => 2 * py p * 1) (fun p => 2 * (py p * 1))), (total_ext (fun p => 1 * (2 * px p)) (fun p => 2 * (1 * px p))), (total_ext (fun p => 1 * (2 * py p)) (fun p => 2 * (1 * py p))) by (intros; ring).
  rewrite (total_scal 4 (fun p => px p * px p)), (total_scal 4 (fun p => px p * py p)), (total_scal 4 (fun p => py p * px p)), (total_scal 4 (fun p => py p * py p)), (total_scal 2 (fun p => px p * 1)), (total_scal 2 (fun p => py p * 1)), (total_scal 2 (fun p => 1 * px p)), (total_scal 2 (fun p => 1 * py p)). ring.
Qed.
Lemma t_total pts : (exists t, ellipse_t pts = Ok t) <-> ~ collinear pts.
Proof.
  rewrite <- det_collinear, det_scaled. unfold ellipse_t. split.
  - intros [t E] D. rewrite inv3_singular in E by lra. discriminate E.
  - intros D. destruct (inv3_total (gram3 d2_rows d2_rows pts)) as [i E]; [lra |]. rewrite E. eexists. reflexivity.
Qed.
Lemma not_collinear_off pts x y : ~ collinear pts -> exists p, In p pts /\ counts p /\ (px p <> x \/ py p <> y).
Proof.
  intros N. induction pts as [| p r IH].
  - exfalso. apply N. exists 1, 0, 0. split; [left; lra | intros p []].
  - destruct (Rlt_dec 0 (weight p)) as [C | C].
    + destruct (Req_dec (px p) x) as [X | X]; [destruct (Req_dec (py p) y) as [Y | Y] |].
      * assert (M : ~ (forall q, In q r -> counts q -> px q = x)).
        { intros A. apply N. exists 1, 0, x. split; [left; lra |]. intros q [<- | Hq] Cq; [lra | rewrite (A q Hq Cq); lra]. }
        clear IH. assert (Z : forall l, ~ (forall q, In q l -> counts q -> px q = x) -> exists q, In q l /\ counts q /\ px q <> x).
        { induction l as [| q l IH]; intros A; [exfalso; apply A; intros q [] |]. destruct (Rlt_dec 0 (weight q)) as [Cq | Cq].
          - destruct (Req_dec (px q) x) as [E | E]; [| exists q; repeat split; [left; reflexivity | exact Cq | exact E]].
            destruct IH as (q' & I & Cq' & E'); [| exists q'; repeat split; [right; exact I | exact Cq' | exact E']]. intros B. apply A. intros q' [<- | H]; [intros _; exact E | apply B; exact H].
          - destruct IH as (q' & I & Cq' & E'); [| exists q'; repeat split; [right; exact I | exact Cq' | exact E']]. intros B. apply A. intros q' [<- | H]; [intros C'; contradiction | apply B; exact H]. }
        destruct (Z r M) as (q & I & Cq & E). exists q. split; [right; exact I | split; [exact Cq | left; exact E]].
      * exists p. split; [left; reflexivity | split; [exact C | right; exact Y]].
      * exists p. split; [left; reflexivity | split; [exact C | left; exact X]].
    + destruct IH as (q & I & Cq & E); [| exists q; split; [right; exact I | split; [exact Cq | exact E]]].
      intros (u & v & k & U & A). apply N. exists u, v, k. split; [exact U |]. intros q [<- | Hq] Cq; [contradiction | apply A; assumption].
Qed.

(** Every conic the free fit returns is an ellipse with points. *)
Lemma ellipse_real eig pts a b c d f g : ellipse_coefficients eig pts = Ok ((a, b, c), (d, f, g)) -> real_ellipse a b c d f g.
Proof.
  unfold ellipse_coefficients. destruct (ellipse_t pts) as [t | e] eqn:Ht; [| discriminate]. cbn [rbind]. intros E.
  destruct (choose_column _) as [v | e] eqn:Ec; [| discriminate E]. cbn [rbind] in E. apply choose_ok in Ec. destruct Ec as [_ Cv].
  assert (v = (a, b, c) /\ mv t (a, b, c) = (d, f, g)) as [-> Tv] by (split; congruence). clear E. unfold con in Cv.
  apply (balanced_real pts); [lra | |].
  - rewrite (total_ext _ (fun p => row2 (0, 0, 1) p * fres t (a, b, c) p)); [apply (t_normal pts t Ht (0, 0, 1)) |].
    intros p _ _. rewrite conic_rows. unfold fres. rewrite Tv. unfold row2 at 2. ring.
  - apply not_collinear_off. apply t_total. exists t. exact Ht.
Qed.

(* ----------------------------- fixed centre ----------------------------- *)
Definition row_c (x0 y0 : R) (q : vec3) (p : wpoint) : R := let '(a, b, c) := q in
  a * (px p * px p - 2 * x0 * px p) + b * (px p * py p - y0 * px p - x0 * py p) + c * (py p * py p - 2 * y0 * py p).
Lemma conic_row_c x0 y0 a b c g p : conic a b c (-2 * a * x0 - b * y0) (- b * x0 - 2 * c * y0) g (px p) (py p) = row_c x0 y0 (a, b, c) p + g.
Proof. unfold conic, row_c. ring. Qed.
Section Fixed.
Variable pts : list wpoint.
Variables x0 y0 : R.
Let W := total (fun _ => 1) pts.
Hypothesis HW : W <> 0.
Definition gof (q : vec3) : R := - (total (row_c x0 y0 q) pts / total (fun _ => 1) pts).
Definition cres (q : vec3) (p : wpoint) : R := row_c x0 y0 q p + gof q.
Lemma row_c_lin k v w p : row_c x0 y0 (vadd3 (vscal3 k v) w) p = k * row_c x0 y0 v p + row_c x0 y0 w p.
Proof. destruct v as [[? ?] ?], w as [[? ?] ?]. cbn. ring. Qed.
Lemma gof_lin k v w : gof (vadd3 (vscal3 k v) w) = k * gof v + gof w.
Proof.
  unfold gof. rewrite (total_ext _ (fun p => k * row_c x0 y0 v p + row_c x0 y0 w p)) by (intros; apply row_c_lin).
  rewrite (total_plus (fun p => k * row_c x0 y0 v p) (row_c x0 y0 w)), (total_scal k (row_c x0 y0 v)). field. exact HW.
Qed.
Lemma cres_lin k v w p : cres (vadd3 (vscal3 k v) w) p = k * cres v p + cres w p.
Proof. unfold cres. rewrite gof_lin, row_c_lin. ring. Qed.
Lemma c_normal q : total (cres q) pts = 0.
Proof.
  unfold cres. rewrite (total_plus (row_c x0 y0 q) (fun _ => gof q)), total_const. unfold gof. field. exact HW.
Qed.
Lemma c_completion q g : total (fun p => cres q p ^ 2) pts <= total (fun p => (row_c x0 y0 q p + g) ^ 2) pts.
Proof.
  rewrite (total_ext (fun p => (row_c x0 y0 q p + g) ^ 2) (fun p => cres q p ^ 2 + (2 * (g - gof q) * cres q p + (g - gof q) ^ 2))) by (intros; unfold cres; ring).
  rewrite (total_plus (fun p => cres q p ^ 2) (fun p => 2 * (g - gof q) * cres q p + (g - gof q) ^ 2)), (total_plus (fun p => 2 * (g - gof q) * cres q p) (fun _ => (g - gof q) ^ 2)),
    (total_scal (2 * (g - gof q)) (cres q)), c_normal.
  assert (0 <= total (fun _ => (g - gof q) ^ 2) pts) by (apply total_nonneg; intros; apply pow2_ge_0). lra.
Qed.
Definition mtmp_c : mat3 :=
  let '(f1, f2, f3) := fixed_rows x0 y0 in
  let '(s21, s22, s23) := (gram f1 ones pts, gram f2 ones pts, gram f3 ones pts) in
  let s3_inv := 1 / gram ones ones pts in
  let '(t1, t2, t3) := (- s3_inv * s21, - s3_inv * s22, - s3_inv * s23) in
  madd (gram3 (fixed_rows x0 y0) (fixed_rows x0 y0) pts) ((s21 * t1, s21 * t2, s21 * t3), (s22 * t1, s22 * t2, s22 * t3), (s23 * t1, s23 * t2, s23 * t3)).
Lemma ones_W : gram ones ones pts = W.
Proof. rewrite gram_total. apply total_ext. intros; unfold ones; ring. Qed.
Lemma total_row_c q h : total (fun p => h p * row_c x0 y0 q p) pts = let '(f1, f2, f3) := fixed_rows x0 y0 in let '(a, b, c) := q in
  a * total (fun p => h p * f1 p) pts + b * total (fun p => h p * f2 p) pts + c * total (fun p => h p * f3 p) pts.
Proof. destruct q as [[a b] c]. unfold fixed_rows. apply (total_mul_lin h a b c). Qed.
Lemma total_row_c1 q : total (row_c x0 y0 q) pts = let '(f1, f2, f3) := fixed_rows x0 y0 in let '(a, b, c) := q in
  a * gram f1 ones pts + b * gram f2 ones pts + c * gram f3 ones pts.
Proof.
  rewrite (total_ext _ (fun p => 1 * row_c x0 y0 q p)) by (intros; ring). rewrite (total_row_c q (fun _ => 1)). destruct q as [[a b] c]. unfold fixed_rows.
  rewrite !gram_total. unfold ones. f_equal; [f_equal |]; f_equal; apply total_ext; intros; ring.
Qed.
Lemma c_form q r : dot3 q (mv mtmp_c r) = total (fun p => cres q p * cres r p) pts.
Proof.
  assert (E : total (fun p => cres q p * cres r p) pts = total (fun p => row_c x0 y0 q p * row_c x0 y0 r p) pts - total (row_c x0 y0 q) pts * total (row_c x0 y0 r) pts / W).
  { rewrite (total_ext _ (fun p => row_c x0 y0 q p * row_c x0 y0 r p + (gof r * row_c x0 y0 q p + gof q * cres r p))) by (intros; unfold cres; ring).
    rewrite (total_plus (fun p => row_c x0 y0 q p * row_c x0 y0 r p) (fun p => gof r * row_c x0 y0 q p + gof q * cres r p)), (total_plus (fun p => gof r * row_c x0 y0 q p) (fun p => gof q * cres r p)),
      (total_scal (gof r) (row_c x0 y0 q)), (total_scal (gof q) (cres r)), c_normal. unfold gof. fold W. field. exact HW. }
  rewrite E, total_row_c, !total_row_c1. destruct q as [[a b] c], r as [[a' b'] c'].
  unfold mtmp_c. rewrite ones_W. unfold fixed_rows. set (f1 := fun p : wpoint => px p * px p - 2 * x0 * px p). set (f2 := fun p : wpoint => px p * py p - y0 * px p - x0 * py p). set (f3 := fun p : wpoint => py p * py p - 2 * y0 * py p).
  assert (F : forall h, total (fun p => row_c x0 y0 (a, b, c) p * h p) pts = a * total (fun p => h p * f1 p) pts + b * total (fun p => h p * f2 p) pts + c * total (fun p => h p * f3 p) pts).
  { intros h. rewrite (total_ext _ (fun p => h p * row_c x0 y0 (a, b, c) p)) by (intros; ring). apply (total_row_c (a, b, c) h). }
  rewrite !F. change (fun p : wpoint => (px p * px p - 2 * x0 * px p) * f1 p) with (fun p : wpoint => f1 p * f1 p). change (fun p : wpoint => (px p * px p - 2 * x0 * px p) * f2 p) with (fun p : wpoint => f1 p * f2 p). change (fun p : wpoint => (px p * px p - 2 * x0 * px p) * f3 p) with (fun p : wpoint => f1 p * f3 p). change (fun p : wpoint => (px p * py p - y0 * px p - x0 * py p) * f1 p) with (fun p : wpoint => f2 p * f1 p). change (fun p : wpoint => (px p * py p - y0 * px p - x0 * py p) * f2 p) with (fun p : wpoint => f2 p * f2 p). change (fun p : wpoint => (px p * py p - y0 * px p - x0 * py p) * f3 p) with (fun p : wpoint => f2 p * f3 p). change (fun p : wpoint => (py p * py p - 2 * y0 * py p) * f1 p) with (fun p : wpoint => f3 p * f1 p). change (fun p : wpoint => (py p * py p - 2 * y0 * py p) * f2 p) with (fun p : wpoint => f3 p * f2 p). change (fun p : wpoint => (py p * py p - 2 * y0 * py p) * f3 p) with (fun p : wpoint => f3 p * f3 p).
  unfold gram3, madd, mv, dot3. rewrite !(gram_total f1 f1), !(gram_total f1 f2), !(gram_total f1 f3), !(gram_total f2 f1), !(gram_total f2 f2), !(gram_total f2 f3), !(gram_total f3 f1), !(gram_total f3 f2), !(gram_total f3 f3).
  rewrite (total_ext (fun p => f2 p * f1 p) (fun p => f1 p * f2 p)), (total_ext (fun p => f3 p * f1 p) (fun p => f1 p * f3 p)), (total_ext (fun p => f3 p * f2 p) (fun p => f2 p * f3 p)) by (intros; ring).
  clearbody f1 f2 f3. field. exact HW.
Qed.
End Fixed.

Definition reduced_fixed (pts : list wpoint) (x0 y0 : R) : mat3 := mmul c_inv (mtmp_c pts x0 y0).
Lemma fixed_unfold eig pts x0 y0 : fixed_coefficients eig pts x0 y0 =
  if Req_EM_T (total (fun _ => 1) pts) 0 then Err RustErr else
  rbind (choose_column (eig (reduced_fixed pts x0 y0))) (fun q => let '(a, b, c) := q in Ok ((a, b, c), (-2 * a * x0 - b * y0, - b * x0 - 2 * c * y0, gof pts x0 y0 (a, b, c)))).
Proof.
  unfold fixed_coefficients, reduced_fixed, mtmp_c, fixed_rows. rewrite ones_W.
  destruct (Req_EM_T (total (fun _ => 1) pts) 0) as [Z | Z]; [reflexivity |]. destruct (choose_column _) as [[[a b] c] | e]; [| reflexivity]. cbn [rbind].
  f_equal. f_equal. f_equal. unfold gof. rewrite total_row_c1. unfold fixed_rows. field. exact Z.
Qed.
Lemma ellipse_fixed_best eig pts x0 y0 a b c d f g lam :
  fixed_coefficients eig pts x0 y0 = Ok ((a, b, c), (d, f, g)) -> mv (reduced_fixed pts x0 y0) (a, b, c) = (lam * a, lam * b, lam * c) ->
  b ^ 2 < 4 * a * c /\ d = -2 * a * x0 - b * y0 /\ f = - b * x0 - 2 * c * y0 /\
  forall a' b' c' g', (4 * a' * c' - b' ^ 2) * conic_misfit pts a b c d f g <= (4 * a * c - b ^ 2) * conic_misfit pts a' b' c' (-2 * a' * x0 - b' * y0) (- b' * x0 - 2 * c' * y0) g'.
Proof.
  rewrite fixed_unfold. destruct (Req_EM_T (total (fun _ => 1) pts) 0) as [Z | Z]; [discriminate |]. intros E Eig.
  destruct (choose_column _) as [[[a1 b1] c1] | e] eqn:Ec; [| discriminate E]. cbn [rbind] in E. apply choose_ok in Ec. destruct Ec as [_ Cv].
  assert (a1 = a /\ b1 = b /\ c1 = c /\ -2 * a1 * x0 - b1 * y0 = d /\ - b1 * x0 - 2 * c1 * y0 = f /\ gof pts x0 y0 (a1, b1, c1) = g) as (-> & -> & -> & D & F & G) by (repeat split; congruence). clear E.
  assert (EV : mv (mmul c_inv (mtmp_c pts x0 y0)) (a, b, c) = vscal3 lam (a, b, c)) by exact Eig.
  pose proof (misfit_value pts (cres pts x0 y0) (mtmp_c pts x0 y0) (c_form pts x0 y0 Z) (a, b, c) lam EV Cv) as MV.
  pose proof (lam_nonneg pts (cres pts x0 y0) (mtmp_c pts x0 y0) (c_form pts x0 y0 Z) (a, b, c) lam EV Cv) as LN.
  assert (M0 : conic_misfit pts a b c d f g = total (fun p => cres pts x0 y0 (a, b, c) p ^ 2) pts).
  { unfold conic_misfit. apply total_ext. intros p _ _. rewrite <- D, <- F, conic_row_c. unfold cres. rewrite G. reflexivity. }
  split; [unfold con in Cv; lra |]. split; [symmetry; exact D |]. split; [symmetry; exact F |]. intros a' b' c' g'.
  pose proof (reduced_best pts (cres pts x0 y0) (mtmp_c pts x0 y0) (cres_lin pts x0 y0 Z) (c_form pts x0 y0 Z) (a, b, c) lam EV Cv (a', b', c')) as RB.
  pose proof (c_completion pts x0 y0 Z (a', b', c') g') as CB.
  assert (M1 : conic_misfit pts a' b' c' (-2 * a' * x0 - b' * y0) (- b' * x0 - 2 * c' * y0) g' = total (fun p => (row_c x0 y0 (a', b', c') p + g') ^ 2) pts).
  { unfold conic_misfit. apply total_ext. intros p _ _. rewrite conic_row_c. reflexivity. }
  rewrite M0, M1, MV. unfold con in *. replace (4 * a * c - b ^ 2) with (4 * a * c - b * b) by ring. replace (4 * a' * c' - b' ^ 2) with (4 * a' * c' - b' * b') by ring.
  set (k := 4 * a * c - b * b) in *. set (k' := 4 * a' * c' - b' * b') in *.
  replace (k' * (lam * k)) with (k * (lam * k')) by ring. apply Rmult_le_compat_l; lra.
Qed.
Lemma fixed_real eig pts x0 y0 a b c d f g : fixed_coefficients eig pts x0 y0 = Ok ((a, b, c), (d, f, g)) ->
  (exists p, In p pts /\ counts p /\ (px p <> x0 \/ py p <> y0)) -> real_ellipse a b c d f g.
Proof.
  rewrite fixed_unfold. destruct (Req_EM_T (total (fun _ => 1) pts) 0) as [Z | Z]; [discriminate |]. intros E O.
  destruct (choose_column _) as [[[a1 b1] c1] | e] eqn:Ec; [| discriminate E]. cbn [rbind] in E. apply choose_ok in Ec. destruct Ec as [_ Cv].
  assert (a1 = a /\ b1 = b /\ c1 = c /\ -2 * a1 * x0 - b1 * y0 = d /\ - b1 * x0 - 2 * c1 * y0 = f /\ gof pts x0 y0 (a1, b1, c1) = g) as (-> & -> & -> & D & F & G) by (repeat split; congruence). clear E.
  unfold con in Cv. assert (CX : centre_x a b c d f = x0) by (unfold centre_x; rewrite <- D, <- F; field; lra).
  assert (CY : centre_y a b c d f = y0) by (unfold centre_y; rewrite <- D, <- F; field; lra).
  apply (balanced_real pts); [lra | | rewrite CX, CY; exact O].
  rewrite (total_ext _ (cres pts x0 y0 (a, b, c))); [apply c_normal; exact Z |]. intros p _ _. rewrite <- D, <- F, conic_row_c. unfold cres. rewrite G. reflexivity.
Qed.
