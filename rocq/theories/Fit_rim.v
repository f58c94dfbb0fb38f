From Coq Require Import Reals List Lra Lia.
From Verif Require Import Common Trig_model RSum Geo_proofs Fit_model Fit_spec Fit_proofs Fit_circle Fit_conic Fit_ellipse.
Import ListNotations.
Open Scope R_scope.

(* --------------------------- distance to a rim --------------------------- *)
Section Rim.
Variables x y a b o x0 y0 : R.
Hypothesis Ha : 0 < a.
Hypothesis Hb : 0 < b.
Let phi := TAU - PI / 2 - o * PI / 180.
Let dx := x - x0.
Let dy := y - y0.
Let r := sqrt (dx * dx + dy * dy).
Let al := atan2 dy dx - phi.
Let s := sqrt ((b * cos al) ^ 2 + (a * sin al) ^ 2).
Let U := dx * cos phi + dy * sin phi.
Let V := dy * cos phi - dx * sin phi.
Lemma rim_UV : r * cos al = U /\ r * sin al = V.
Proof.
  destruct (atan2_polar dy dx) as [P1 P2]. replace (dx ^ 2 + dy ^ 2) with (dx * dx + dy * dy) in P1, P2 by ring. fold r in P1, P2.
  unfold al, U, V. rewrite cos_minus, sin_minus. split.
  - transitivity ((r * cos (atan2 dy dx)) * cos phi + (r * sin (atan2 dy dx)) * sin phi); [ring | rewrite P1, P2; reflexivity].
  - transitivity ((r * sin (atan2 dy dx)) * cos phi - (r * cos (atan2 dy dx)) * sin phi); [ring | rewrite P1, P2; reflexivity].
Qed.
Lemma s_pos : 0 < s.
Proof.
  apply sqrt_lt_R0. pose proof (cs al) as One. assert (C : 0 <= (b * cos al) ^ 2) by apply pow2_ge_0. assert (S : 0 <= (a * sin al) ^ 2) by apply pow2_ge_0.
  destruct (Req_dec (cos al) 0) as [Z | Z].
  - assert (0 < (a * sin al) ^ 2); [| lra]. apply sq_pos. apply Rmult_integral_contrapositive_currified; [lra |]. intros Q. rewrite Z, Q in One. lra.
  - assert (0 < (b * cos al) ^ 2); [| lra]. apply sq_pos. apply Rmult_integral_contrapositive_currified; [lra | exact Z].
Qed.
Lemma r_nonneg : 0 <= r. Proof. apply sqrt_pos. Qed.
Lemma rs_sq : (r * s) ^ 2 = (b * U) ^ 2 + (a * V) ^ 2.
Proof.
  destruct rim_UV as [<- <-]. replace ((r * s) ^ 2) with (r ^ 2 * (s * s)) by ring. unfold s. rewrite sqrt_sqrt; [ring |].
  pose proof (pow2_ge_0 (b * cos al)). pose proof (pow2_ge_0 (a * sin al)). lra.
Qed.
Lemma quotient : (U / a) ^ 2 + (V / b) ^ 2 = (r * s) ^ 2 / (a * b) ^ 2.
Proof. rewrite rs_sq. field. lra. Qed.
Lemma rim_value : rim_distance x y a b o x0 y0 * s = r * s - a * b.
Proof. unfold rim_distance. fold phi dx dy. fold r al. fold s. field. pose proof s_pos. lra. Qed.
Lemma rim_raw : (rim_distance x y a b o x0 y0 < 0 <-> (U / a) ^ 2 + (V / b) ^ 2 < 1) /\ (rim_distance x y a b o x0 y0 = 0 <-> (U / a) ^ 2 + (V / b) ^ 2 = 1).
Proof.
  rewrite quotient. pose proof rim_value as E. pose proof s_pos as Hs. pose proof r_nonneg as Hr.
  set (d := rim_distance _ _ _ _ _ _ _) in *. clearbody d. assert (AB : 0 < a * b) by (apply Rmult_lt_0_compat; assumption).
  assert (RS : 0 <= r * s) by (apply Rmult_le_pos; lra). set (t := r * s) in *. set (k := a * b) in *. clearbody t k.
  assert (K2 : 0 < k ^ 2) by (apply sq_pos; lra).
  assert (Q1 : t ^ 2 / k ^ 2 < 1 <-> t < k).
  { split; intros H.
    - apply (Rmult_lt_compat_r (k ^ 2)) in H; [| exact K2]. unfold Rdiv in H. rewrite Rmult_assoc, Rinv_l, Rmult_1_r, Rmult_1_l in H by lra. nra.
    - apply (Rmult_lt_reg_r (k ^ 2)); [exact K2 |]. unfold Rdiv. rewrite Rmult_assoc, Rinv_l by lra. nra. }
  assert (Q2 : t ^ 2 / k ^ 2 = 1 <-> t = k).
  { split; intros H.
    - apply (f_equal (fun z => z * k ^ 2)) in H. unfold Rdiv in H. rewrite Rmult_assoc, Rinv_l, Rmult_1_r, Rmult_1_l in H by lra. nra.
    - subst t. field. lra. }
  rewrite Q1, Q2. split; split; intros H.
  - nra.
  - destruct (Rlt_dec d 0); [assumption |]. exfalso. assert (0 <= d * s) by (apply Rmult_le_pos; lra). lra.
  - rewrite H in E. lra.
  - subst t. assert (Z : d * s = 0) by lra. apply Rmult_integral in Z. destruct Z; [assumption | lra].
Qed.
End Rim.
Lemma rim_phi o : TAU - PI / 2 - o * PI / 180 = direction_of_bearing o + IZR 1 * PI.
Proof. unfold TAU, direction_of_bearing. lra. Qed.
Lemma inside_ellipse_Z k x0 y0 ap bp psi x y : inside_ellipse x0 y0 ap bp (psi + IZR k * PI) x y <-> inside_ellipse x0 y0 ap bp psi x y.
Proof.
  unfold inside_ellipse. destruct (cos_sin_Z k psi) as (s & Hs & -> & ->).
  assert (E : forall u v w z, ((u * (s * w) + v * (s * z)) / ap) ^ 2 = ((u * w + v * z) / ap) ^ 2) by (intros; destruct Hs; subst; unfold Rdiv; ring).
  assert (E' : forall u v w z, ((v * (s * w) - u * (s * z)) / bp) ^ 2 = ((v * w - u * z) / bp) ^ 2) by (intros; destruct Hs; subst; unfold Rdiv; ring).
  rewrite E, E'. reflexivity.
Qed.
Lemma rim_sign x y a b o x0 y0 : 0 < a -> 0 < b ->
  (rim_distance x y a b o x0 y0 < 0 <-> inside_ellipse x0 y0 a b (direction_of_bearing o) x y) /\
  (rim_distance x y a b o x0 y0 = 0 <-> on_ellipse x0 y0 a b (direction_of_bearing o) x y).
Proof.
  intros Ha Hb. destruct (rim_raw x y a b o x0 y0 Ha Hb) as [A B]. rewrite <- (inside_ellipse_Z 1), <- (on_ellipse_Z 1), <- rim_phi. split; [exact A | exact B].
Qed.
(** The point of the ray from the centre at that distance closer is on the rim. *)
Lemma rim_along x y a b o x0 y0 : 0 < a -> 0 < b -> (x <> x0 \/ y <> y0) ->
  let r := sqrt ((x - x0) ^ 2 + (y - y0) ^ 2) in let k := 1 - rim_distance x y a b o x0 y0 / r in
  0 < k /\ on_ellipse x0 y0 a b (direction_of_bearing o) (x0 + k * (x - x0)) (y0 + k * (y - y0)).
Proof.
  intros Ha Hb Off. cbv zeta.
  replace ((x - x0) ^ 2 + (y - y0) ^ 2) with ((x - x0) * (x - x0) + (y - y0) * (y - y0)) by ring.
  pose proof (rim_value x y a b o x0 y0 Ha Hb) as E. pose proof (s_pos x y a b o x0 y0 Ha Hb) as Hs. pose proof (rs_sq x y a b o x0 y0) as Q. cbv zeta in E, Hs, Q.
  set (r := sqrt ((x - x0) * (x - x0) + (y - y0) * (y - y0))) in *.
  assert (Hr : 0 < r). { apply sqrt_lt_R0. pose proof (Rle_0_sqr (x - x0)). pose proof (Rle_0_sqr (y - y0)). unfold Rsqr in *. destruct Off as [W | W].
    - assert (0 < (x - x0) ^ 2) by (apply sq_pos; lra). lra. - assert (0 < (y - y0) ^ 2) by (apply sq_pos; lra). lra. }
  set (s := sqrt ((b * cos (atan2 (y - y0) (x - x0) - (TAU - PI / 2 - o * PI / 180))) ^ 2 + (a * sin (atan2 (y - y0) (x - x0) - (TAU - PI / 2 - o * PI / 180))) ^ 2)) in *. set (d := rim_distance x y a b o x0 y0) in *. clearbody d s.
  assert (K : 1 - d / r = a * b / (r * s)). { assert (Ed : d = r - a * b / s) by (apply Rmult_eq_reg_r with s; [| lra]; rewrite E; field; lra). rewrite Ed. field. lra. }
  rewrite K. assert (RS : 0 < r * s) by (apply Rmult_lt_0_compat; assumption). assert (AB : 0 < a * b) by (apply Rmult_lt_0_compat; assumption). split; [apply Rdiv_lt_0_compat; assumption |].
  rewrite <- (on_ellipse_Z 1), <- rim_phi. unfold on_ellipse. set (phi := TAU - PI / 2 - o * PI / 180) in *. set (C := cos phi) in *. set (S := sin phi) in *.
  set (k := a * b / (r * s)).
  replace ((x0 + k * (x - x0) - x0) * C + (y0 + k * (y - y0) - y0) * S) with (k * ((x - x0) * C + (y - y0) * S)) by ring.
  replace ((y0 + k * (y - y0) - y0) * C - (x0 + k * (x - x0) - x0) * S) with (k * ((y - y0) * C - (x - x0) * S)) by ring.
  set (U := (x - x0) * C + (y - y0) * S) in *. set (V := (y - y0) * C - (x - x0) * S) in *. clearbody U V.
  assert (Ek : k ^ 2 * (r * s) ^ 2 = (a * b) ^ 2) by (unfold k; field; lra). rewrite Q in Ek.
  apply Rmult_eq_reg_r with ((a * b) ^ 2); [| assert (0 < (a * b) ^ 2) by (apply sq_pos; lra); lra]. rewrite Rmult_1_l. transitivity (k ^ 2 * ((b * U) ^ 2 + (a * V) ^ 2)); [clearbody k; field; lra | exact Ek].
Qed.

(* ------------------------ fit and rim distance together ------------------------ *)
Lemma rem_TAU x : exists k, rust_rem x TAU = x + IZR (2 * k) * PI.
Proof. exists (- trunc (x / TAU))%Z. unfold rust_rem, TAU. rewrite mult_IZR, opp_IZR. ring. Qed.
Lemma bearing_of_fit phi : exists k, direction_of_bearing (degrees (rust_rem (TAU - phi) TAU)) = phi + PI / 2 + IZR k * PI.
Proof.
  destruct (rem_TAU (TAU - phi)) as [k E]. exists (- 2 * k - 2)%Z. unfold direction_of_bearing, degrees. rewrite E. pose proof PI_RGT_0.
  replace ((TAU - phi + IZR (2 * k) * PI) * 180 / PI * PI / 180) with (TAU - phi + IZR (2 * k) * PI) by (field; lra).
  unfold TAU. rewrite minus_IZR, !mult_IZR. lra.
Qed.
Lemma quarter_on x0 y0 ap bp psi x y : on_ellipse x0 y0 ap bp (psi + PI / 2) x y <-> on_ellipse x0 y0 ap bp psi (x0 + (y - y0)) (y0 - (x - x0)).
Proof.
  unfold on_ellipse. rewrite cos_plus, sin_plus, cos_PI2, sin_PI2.
  replace ((x - x0) * (cos psi * 0 - sin psi * 1) + (y - y0) * (sin psi * 0 + cos psi * 1)) with ((x0 + (y - y0) - x0) * cos psi + (y0 - (x - x0) - y0) * sin psi) by ring.
  replace ((y - y0) * (cos psi * 0 - sin psi * 1) - (x - x0) * (sin psi * 0 + cos psi * 1)) with ((y0 - (x - x0) - y0) * cos psi - (x0 + (y - y0) - x0) * sin psi) by ring. reflexivity.
Qed.
Lemma fit_rim eig pts a b c d f g x0 y0 ap bp o : ellipse_coefficients eig pts = Ok ((a, b, c), (d, f, g)) -> fit_ellipse eig pts = Ok (x0, y0, ap, bp, o) ->
  0 < bp <= ap /\
  ((1e-12 <= Rabs (b / 2) /\ Rabs c < Rabs a) \/ (b = 0 /\ Rabs a < Rabs c) -> forall x y, rim_distance x y ap bp (degrees o) x0 y0 = 0 <-> conic a b c d f g x y = 0) /\
  ((1e-12 <= Rabs (b / 2) /\ Rabs a <= Rabs c) \/ (b = 0 /\ Rabs c <= Rabs a) -> forall x y, rim_distance x y ap bp (degrees o) x0 y0 = 0 <-> conic a b c d f g (x0 + (y - y0)) (y0 - (x - x0)) = 0).
Proof.
  intros Ec Ef. destruct (conic_common a b c d f g (ellipse_real eig pts a b c d f g Ec)) as (x1 & y1 & ap1 & bp1 & phi & Ep & P & _ & G & B).
  unfold fit_ellipse in Ef. rewrite Ec in Ef. cbn [rbind] in Ef. rewrite Ep in Ef. cbn [rbind] in Ef.
  assert (x1 = x0 /\ y1 = y0 /\ ap1 = ap /\ bp1 = bp /\ rust_rem (TAU - phi) TAU = o) as (-> & -> & -> & -> & <-) by (repeat split; congruence).
  split; [exact P |]. destruct (bearing_of_fit phi) as [k Ek]. 
  assert (R1 : forall x y, rim_distance x y ap bp (degrees (rust_rem (TAU - phi) TAU)) x0 y0 = 0 <-> on_ellipse x0 y0 ap bp (phi + PI / 2) x y).
  { intros x y. destruct (rim_sign x y ap bp (degrees (rust_rem (TAU - phi) TAU)) x0 y0 ltac:(lra) ltac:(lra)) as [_ ->]. rewrite Ek. apply on_ellipse_Z. }
  split; intros H x y; rewrite R1.
  - symmetry. apply B. exact H.
  - rewrite quarter_on. symmetry. apply G. exact H.
Qed.
Lemma fit_ok eig pts q : ellipse_coefficients eig pts = Ok q -> exists x0 y0 ap bp o, fit_ellipse eig pts = Ok (x0, y0, ap, bp, o) /\ 0 < bp <= ap.
Proof.
  destruct q as [[[a b] c] [[d f] g]]. intros Ec. destruct (conic_common a b c d f g (ellipse_real eig pts a b c d f g Ec)) as (x1 & y1 & ap1 & bp1 & phi & Ep & P & _).
  unfold fit_ellipse. rewrite Ec. cbn [rbind]. rewrite Ep. cbn [rbind]. do 5 eexists. split; [reflexivity | exact P].
Qed.

(* ------------------------------ samples ------------------------------ *)
Lemma total4 h : total h tall = h (1, 0, Some 1) + h (-1, 0, Some 1) + h (0, 2, Some 1) + h (0, -2, Some 1).
Proof. unfold total, tall. rewrite !lsum_cons. unfold weight. cbn [snd lsum]. rewrite Rmax_left by lra. cbn. ring. Qed.
Lemma eig_tall_ok : lists_eigenvectors eig_tall.
Proof.
  intros m a b c. unfold eig_tall. destruct (mv m (4, 0, 1)) as [[x y] z] eqn:E. destruct (Req_EM_T x (4 * z)) as [X |]; [| intros []]. destruct (Req_EM_T y 0) as [Y |]; [| intros []].
  intros [Q | []]. assert (4 = a /\ 0 = b /\ 1 = c) as (<- & <- & <-) by (repeat split; congruence). exists z. rewrite E, X, Y. f_equal; [f_equal |]; ring.
Qed.
Lemma tall_t : ellipse_t tall = Ok ((0, 0, 0), (0, 0, 0), (-1/2, 0, -2)).
Proof.
  unfold ellipse_t, gram3, d2_rows, d1_rows. rewrite !gram_total, !total4. unfold px, py. cbn [fst snd]. unfold inv3.
  match goal with |- rbind (if Req_EM_T ?t 0 then _ else _) _ = _ => assert (D : t = 64) by (unfold det3; lra); rewrite D; destruct (Req_EM_T 64 0); [lra |] end.
  cbn [rbind]. unfold mmul, transpose, mscale, dot3. f_equal. f_equal; [f_equal |]; (f_equal; [f_equal |]); lra.
Qed.
Lemma tall_fit : ellipse_coefficients eig_tall tall = Ok ((4, 0, 1), (0, 0, -4)).
Proof.
  unfold ellipse_coefficients. rewrite tall_t. cbn [rbind].
  assert (M : m_tmp tall ((0, 0, 0), (0, 0, 0), (-1/2, 0, -2)) = ((1, 0, -4), (0, 0, 0), (-4, 0, 16))).
  { unfold m_tmp, gram3, d2_rows, d1_rows. rewrite !gram_total, !total4. unfold px, py. cbn [fst snd]. unfold mmul, transpose, madd, dot3. f_equal; [f_equal |]; (f_equal; [f_equal |]); lra. }
  rewrite M. unfold mmul, c_inv, transpose, eig_tall, mv, dot3.
  destruct (Req_EM_T _ _) as [_ | X]; [| exfalso; apply X; lra]. destruct (Req_EM_T _ _) as [_ | X]; [| exfalso; apply X; lra].
  cbn [choose_column rbind]. destruct (Rlt_dec _ _) as [_ | X]; [| exfalso; apply X; lra]. cbn [rbind]. f_equal. f_equal. f_equal; [f_equal |]; lra.
Qed.
(** The four points are on the fitted ellipse, yet at a distance from the fitted rim. *)
Lemma tall_rim x0 y0 ap bp o : fit_ellipse eig_tall tall = Ok (x0, y0, ap, bp, o) -> rim_distance 1 0 ap bp (degrees o) x0 y0 <> 0.
Proof.
  intros Ef. destruct (fit_rim eig_tall tall 4 0 1 0 0 (-4) x0 y0 ap bp o tall_fit Ef) as (_ & _ & G).
  assert (H : x0 = 0 /\ y0 = 0).
  { unfold fit_ellipse in Ef. rewrite tall_fit in Ef. cbn [rbind] in Ef. unfold conic_parameters in Ef. cbn zeta in Ef. destruct (Rlt_dec 0 _) as [X | _] in Ef; [lra |]. destruct (Req_EM_T _ 0) as [X | _] in Ef; [lra |].
    destruct (Rle_dec _ _) as [_ | _] in Ef; cbn [rbind] in Ef; inversion Ef; split; field. }
  destruct H as [-> ->]. intros Z. apply G in Z; [unfold conic in Z; lra |]. right. rewrite !Rabs_right by lra. split; lra.
Qed.
Lemma tall_fits : exists x0 y0 ap bp o, fit_ellipse eig_tall tall = Ok (x0, y0, ap, bp, o) /\ rim_distance 1 0 ap bp (degrees o) x0 y0 <> 0.
Proof. destruct (fit_ok _ _ _ tall_fit) as (x0 & y0 & ap & bp & o & E & _). do 5 eexists. split; [exact E |]. exact (tall_rim _ _ _ _ _ E). Qed.

(* ------------------------- geometric distances ------------------------- *)
Lemma geometric_circle : exists v, geometric_distance 1 0 1 0 0 (-1) (1, 0, Some 1) = Ok v /\ v <> 0.
Proof.
  assert (Rl : real_ellipse 1 0 1 0 0 (-1)) by (unfold real_ellipse; split; lra).
  destruct (conic_common _ _ _ _ _ _ Rl) as (x0 & y0 & ap & bp & o & E & P & _). unfold geometric_distance. rewrite E. cbn [rbind]. eexists. split; [reflexivity |].
  set (al := _ - o). assert (N : 0 < sqrt ((bp * cos al) ^ 2 + (ap * sin al) ^ 2)).
  { apply sqrt_lt_R0. pose proof (cs al) as One. assert (C : 0 <= (bp * cos al) ^ 2) by apply pow2_ge_0. assert (S : 0 <= (ap * sin al) ^ 2) by apply pow2_ge_0.
    destruct (Req_dec (cos al) 0) as [Z | Z].
    - assert (0 < (ap * sin al) ^ 2); [| lra]. apply sq_pos. apply Rmult_integral_contrapositive_currified; [lra |]. intros Q. rewrite Z, Q in One. lra.
    - assert (0 < (bp * cos al) ^ 2); [| lra]. apply sq_pos. apply Rmult_integral_contrapositive_currified; [lra | exact Z]. }
  unfold px, py. cbn [fst snd]. set (gn := sqrt (_ * _ + _ * _)). assert (G : 0 < gn).
  { apply sqrt_lt_R0. assert (0 < (2 * ap * 1 + bp * 0 + 0)) by lra. pose proof (Rle_0_sqr (bp * 1 + 2 * 1 * 0 + 0)). unfold Rsqr in *. nra. }
  assert (0 < ap * bp / sqrt ((bp * cos al) ^ 2 + (ap * sin al) ^ 2) / gn); [| lra]. apply Rdiv_lt_0_compat; [| exact G]. apply Rdiv_lt_0_compat; [| exact N]. apply Rmult_lt_0_compat; lra.
Qed.

(* ------------------------- cancelling weights ------------------------- *)
Lemma cancelling_err : fit_circle cancelling = Err RustErr.
Proof. unfold fit_circle, cancelling. cbn [map snd osum]. destruct (Req_EM_T _ 0) as [_ | X]; [reflexivity | exfalso; apply X; lra]. Qed.
Lemma cancelling_unit : forall p, In p cancelling -> counts p -> sqd 0 0 p = 1 ^ 2.
Proof.
  intros p H C. cbn [cancelling In] in H. destruct H as [<- | [<- | [<- | [<- | []]]]]; unfold sqd, px, py; cbn [fst snd]; try lra.
  exfalso. unfold counts, weight in C. cbn [snd] in C. unfold Rmax in C. destruct (Rle_dec (-3) 0); lra.
Qed.
Lemma cancelling_not_collinear : ~ collinear cancelling.
Proof.
  intros (u & v & k & U & A). assert (C : forall x y, counts (x, y, Some 1)) by (intros; unfold counts, weight; cbn [snd]; rewrite Rmax_left; lra).
  pose proof (A _ ltac:(left; reflexivity) (C 1 0)) as A1. pose proof (A _ ltac:(right; left; reflexivity) (C (-1) 0)) as A2. pose proof (A _ ltac:(right; right; left; reflexivity) (C 0 1)) as A3.
  unfold px, py in *. cbn [fst snd] in *. lra.
Qed.

(* ------------------------- in the vocabulary of the specification ------------------------- *)
Lemma coefficients_in eig pts a b c q : ellipse_coefficients eig pts = Ok ((a, b, c), q) -> exists m, reduced pts = Ok m /\ In (a, b, c) (eig m).
Proof.
  unfold ellipse_coefficients, reduced. destruct (ellipse_t pts) as [t | e]; [| discriminate]. cbn [rbind]. intros E. eexists. split; [reflexivity |].
  destruct (choose_column _) as [v | e] eqn:Ec; [| discriminate E]. cbn [rbind] in E. apply choose_ok in Ec. destruct Ec as [I _]. assert (v = (a, b, c)) as -> by congruence. exact I.
Qed.
Lemma free_best eig pts a b c d f g : lists_eigenvectors eig -> ellipse_coefficients eig pts = Ok ((a, b, c), (d, f, g)) ->
  forall a' b' c' d' f' g', (4 * a' * c' - b' ^ 2) * conic_misfit pts a b c d f g <= (4 * a * c - b ^ 2) * conic_misfit pts a' b' c' d' f' g'.
Proof. intros L E. destruct (coefficients_in _ _ _ _ _ _ E) as (m & M & I). destruct (L _ _ _ _ I) as [lam X]. exact (proj2 (ellipse_best eig pts m a b c d f g lam M E X)). Qed.
Lemma free_exact eig pts a b c d f g a' b' c' d' f' g' : lists_eigenvectors eig ->
  ellipse_coefficients eig pts = Ok ((a, b, c), (d, f, g)) -> b' ^ 2 < 4 * a' * c' ->
  (forall p, In p pts -> counts p -> conic a' b' c' d' f' g' (px p) (py p) = 0) ->
  forall p, In p pts -> counts p -> conic a b c d f g (px p) (py p) = 0.
Proof. intros L E. destruct (coefficients_in _ _ _ _ _ _ E) as (m & M & I). destruct (L _ _ _ _ I) as [lam X]. exact (ellipse_exact eig pts m a b c d f g lam a' b' c' d' f' g' M E X). Qed.
Lemma fixed_best_all eig pts x0 y0 a b c d f g : lists_eigenvectors eig ->
  fixed_coefficients eig pts x0 y0 = Ok ((a, b, c), (d, f, g)) ->
  2 * a * x0 + b * y0 + d = 0 /\ b * x0 + 2 * c * y0 + f = 0 /\
  (forall a' b' c' d' f' g', 2 * a' * x0 + b' * y0 + d' = 0 -> b' * x0 + 2 * c' * y0 + f' = 0 ->
     (4 * a' * c' - b' ^ 2) * conic_misfit pts a b c d f g <= (4 * a * c - b ^ 2) * conic_misfit pts a' b' c' d' f' g') /\
  ((exists p, In p pts /\ counts p /\ (px p <> x0 \/ py p <> y0)) -> real_ellipse a b c d f g).
Proof.
  intros L E. assert (I : In (a, b, c) (eig (reduced_fixed pts x0 y0))).
  { rewrite fixed_unfold in E. destruct (Req_EM_T _ 0); [discriminate E |]. destruct (choose_column _) as [[[a1 b1] c1] | e] eqn:Ec; [| discriminate E]. cbn [rbind] in E.
    apply choose_ok in Ec. destruct Ec as [I _]. assert (a1 = a /\ b1 = b /\ c1 = c) as (-> & -> & ->) by (repeat split; congruence). exact I. }
  destruct (L _ _ _ _ I) as [lam X]. destruct (ellipse_fixed_best eig pts x0 y0 a b c d f g lam E X) as (_ & D & F & B).
  split; [lra |]. split; [lra |]. split; [| exact (fixed_real eig pts x0 y0 a b c d f g E)].
  intros a' b' c' d' f' g' D' F'. replace d' with (-2 * a' * x0 - b' * y0) by lra. replace f' with (- b' * x0 - 2 * c' * y0) by lra. apply B.
Qed.
Lemma line_rejected eig pts : collinear pts -> forall r, fit_ellipse eig pts <> Ok r.
Proof.
  intros C r E. unfold fit_ellipse, ellipse_coefficients in E. destruct (ellipse_t pts) as [t | e] eqn:Et; [| discriminate E]. apply (proj1 (t_total pts)) in C; [exact C | exists t; exact Et].
Qed.
Lemma tall_not_collinear : ~ collinear tall.
Proof. apply t_total. eexists. exact tall_t. Qed.
Lemma case_circle : exists x0 y0 r w, fit_circle tall = Ok (x0, y0, r, w).
Proof. apply circle_total. split; [| exact tall_not_collinear]. unfold tall. cbn [map snd osum]. intros E. assert (1 + (1 + (1 + (1 + 0))) = 0) by congruence. lra. Qed.
Lemma case_fixed : exists r w, fit_circle_fixed [(3, 4, Some 1); (0, 7, None); (1, 0, Some 2)] 0 0 = Ok (r, w).
Proof. apply fixed_total. exists (3, 4, Some 1). split; [left; reflexivity |]. unfold counts, weight. cbn [snd]. rewrite Rmax_left; lra. Qed.
Lemma reject_case : 4 * 1 * (-1) <= 0 ^ 2. Proof. lra. Qed.
Lemma line_case : collinear [(0, 0, Some 1); (1, 1, Some 1); (2, 2, Some 1)].
Proof. exists 1, (-1), 0. split; [left; lra |]. intros p H _. cbn [In] in H. destruct H as [<- | [<- | [<- | []]]]; unfold px, py; cbn [fst snd]; lra. Qed.
Lemma tall_fixed : fixed_coefficients eig_tall tall 0 0 = Ok ((4, 0, 1), (0, 0, -4)).
Proof.
  rewrite fixed_unfold. rewrite total4. destruct (Req_EM_T _ 0) as [X | _]; [lra |].
  assert (M : mtmp_c tall 0 0 = ((1, 0, -4), (0, 0, 0), (-4, 0, 16))).
  { unfold mtmp_c, fixed_rows, gram3, ones. rewrite !gram_total, !total4. unfold px, py. cbn [fst snd]. unfold madd. f_equal; [f_equal |]; (f_equal; [f_equal |]); field. }
  unfold reduced_fixed. rewrite M. unfold mmul, c_inv, transpose, eig_tall, mv, dot3.
  destruct (Req_EM_T _ _) as [_ | X]; [| exfalso; apply X; lra]. destruct (Req_EM_T _ _) as [_ | X]; [| exfalso; apply X; lra].
  cbn [choose_column rbind]. destruct (Rlt_dec _ _) as [_ | X]; [| exfalso; apply X; lra]. cbn [rbind]. f_equal. f_equal. f_equal; [f_equal; ring |].
  unfold gof, row_c. rewrite !total4. unfold px, py. cbn [fst snd]. field.
Qed.
Lemma tall_refuted : exists x0 y0 ap bp o,
  lists_eigenvectors eig_tall /\ ellipse_coefficients eig_tall tall = Ok ((4, 0, 1), (0, 0, -4)) /\ conic 4 0 1 0 0 (-4) 1 0 = 0 /\
  fit_ellipse eig_tall tall = Ok (x0, y0, ap, bp, o) /\ rim_distance 1 0 ap bp (degrees o) x0 y0 <> 0.
Proof.
  destruct tall_fits as (x0 & y0 & ap & bp & o & E & D). exists x0, y0, ap, bp, o. split; [exact eig_tall_ok |]. split; [exact tall_fit |]. split; [unfold conic; lra |]. split; assumption.
Qed.
Lemma geometric_refuted : conic 1 0 1 0 0 (-1) 1 0 = 0 /\ exists v, geometric_distance 1 0 1 0 0 (-1) (1, 0, Some 1) = Ok v /\ v <> 0.
Proof. split; [unfold conic; lra | exact geometric_circle]. Qed.
