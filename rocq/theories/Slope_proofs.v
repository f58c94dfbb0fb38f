(** Proofs about slopes and radial gradients. *)
From Coq Require Import Reals List ZArith Arith String Lra Lia Psatz.
From Verif Require Import Common RSum Trig_model Mesh_model Mesh_spec Mesh_proofs Slope_model Slope_spec.
Import ListNotations.
Open Scope R_scope.

Lemma extract_complete e n a b : e_f1 e = Z.of_nat a -> e_f2 e = Z.of_nat b -> (a < n)%nat -> (b < n)%nat ->
  extract_edge_faces e n = Some (a, b).
Proof.
  intros A B L1 L2. unfold extract_edge_faces. rewrite A, B.
  destruct (Z.leb_spec 0 (Z.of_nat a)); [|lia]. destruct (Z.ltb_spec (Z.of_nat a) (Z.of_nat n)); [|lia].
  destruct (Z.leb_spec 0 (Z.of_nat b)); [|lia]. destruct (Z.ltb_spec (Z.of_nat b) (Z.of_nat n)); [|lia].
  cbn. now rewrite !Nat2Z.id.
Qed.

Lemma leads_iff rg f z p : leads rg f z p <-> neighbour rg f z = Some p.
Proof.
  destruct p as [[o d] l]. unfold leads, neighbour, face_of, dist_of, len_of. cbn [fst snd]. split.
  - intros (e & Z0 & N & J & -> & -> & D & L).
    destruct (Z.ltb_spec z 0); [lia|]. rewrite N.
    destruct J as [(A & B & L1 & L2)|(A & B & L1 & L2)]; rewrite (extract_complete e _ _ _ A B L1 L2).
    + rewrite Nat.eqb_refl. destruct (Rle_dec (e_dist e) 0); [lra|]. destruct (Rle_dec (e_len e) 0); [lra|reflexivity].
    + destruct (Nat.eqb_spec f o) as [->|NE].
      * destruct (Rle_dec (e_dist e) 0); [lra|]. destruct (Rle_dec (e_len e) 0); [lra|reflexivity].
      * rewrite Nat.eqb_refl. destruct (Rle_dec (e_dist e) 0); [lra|]. destruct (Rle_dec (e_len e) 0); [lra|reflexivity].
  - destruct (Z.ltb_spec z 0); [discriminate|].
    destruct (nth_error (edges rg) (Z.to_nat z)) as [e|] eqn:N; [|discriminate].
    destruct (extract_edge_faces e (n_face rg)) as [[a b]|] eqn:X; [|discriminate].
    apply extract_Some in X. destruct X as (A & B & L1 & L2).
    destruct (Nat.eqb_spec f a) as [->|NE].
    + destruct (Rle_dec (e_dist e) 0); [discriminate|]. destruct (Rle_dec (e_len e) 0); [discriminate|].
      intros [= <- <- <-]. exists e. repeat split; auto; try lra. left. repeat split; auto.
    + destruct (Nat.eqb_spec f b) as [->|]; [|discriminate].
      destruct (Rle_dec (e_dist e) 0); [discriminate|]. destruct (Rle_dec (e_len e) 0); [discriminate|].
      intros [= <- <- <-]. exists e. repeat split; auto; try lra. right. repeat split; auto.
Qed.

Lemma around_is rg f row l : around rg f row l -> filter_map (neighbour rg f) row = l.
Proof.
  induction 1; cbn; [reflexivity| |].
  - apply leads_iff in H. now rewrite H, IHaround.
  - destruct (neighbour rg f z) as [p|] eqn:N; [|exact IHaround].
    apply leads_iff in N. now apply H in N.
Qed.

Lemma around_exists rg f row : around rg f row (filter_map (neighbour rg f) row).
Proof.
  induction row as [|z row IH]; cbn; [constructor|].
  destruct (neighbour rg f z) as [p|] eqn:N.
  - constructor; [now apply leads_iff|exact IH].
  - constructor; [|exact IH]. intros p L. apply leads_iff in L. congruence.
Qed.

Lemma around_pos rg f row l : around rg f row l -> forall p, In p l -> 0 < dist_of p /\ 0 < len_of p.
Proof.
  induction 1; intros q I; [destruct I| |now apply IHaround].
  destruct I as [<-|I]; [|now apply IHaround].
  destruct H as (e & _ & _ & _ & -> & -> & D & L). now split.
Qed.

Definition sx rg (h : nat -> R) f p := len_of p * rise h f p * sin (azimuth rg f (face_of p)).
Definition sy rg (h : nat -> R) f p := len_of p * rise h f p * cos (azimuth rg f (face_of p)).

Lemma gradient_fold rg h f l a b w :
  fold_left (fun '(dz, dm, ws) '(other, distance, len) =>
      let theta := compute_one_bearing (to_radians (face_lon rg f)) (to_radians (face_lat rg f))
                     (to_radians (face_lon rg other)) (to_radians (face_lat rg other)) in
      let flux := (h other - h f) * len / distance in
      (dz + flux * sin theta, dm + flux * cos theta, ws + len)) l (a, b, w) =
  (a + lsum (sx rg h f) l, b + lsum (sy rg h f) l, w + lsum len_of l).
Proof.
  revert a b w. induction l as [|[[o d] len] l IH]; intros a b w.
  - cbn [fold_left]. unfold lsum. cbn. f_equal; [f_equal|]; lra.
  - cbn [fold_left]. cbv zeta. rewrite IH, !lsum_cons. unfold sx, sy, rise, azimuth, face_of, dist_of, len_of.
    cbn [fst snd]. f_equal; [f_equal|]; unfold Rdiv; ring.
Qed.

Lemma weight_pos rg f row l : around rg f row l -> (2 <= List.length l)%nat -> 0 < lsum len_of l.
Proof.
  intros A L. pose proof (around_pos _ _ _ _ A) as P.
  destruct l as [|p l]; [cbn in L; lia|]. rewrite lsum_cons.
  assert (0 <= lsum len_of l) by (apply lsum_nonneg; intros q I; destruct (P q (or_intror I)); lra).
  destruct (P p (or_introl eq_refl)). lra.
Qed.

Lemma gradient_is rg h f l : around rg f (face_edges rg f) l -> (2 <= List.length l)%nat ->
  compute_one_face_gradient rg h f =
  (lsum (sx rg h f) l / lsum len_of l, lsum (sy rg h f) l / lsum len_of l).
Proof.
  intros A L. unfold compute_one_face_gradient. rewrite (around_is _ _ _ _ A).
  destruct (Nat.ltb_spec (List.length l) 2); [lia|]. rewrite gradient_fold, !Rplus_0_l.
  pose proof (weight_pos _ _ _ _ A L). destruct (Rlt_dec 0 (lsum len_of l)); [reflexivity|lra].
Qed.

Lemma gradient_few rg h f l : around rg f (face_edges rg f) l -> (List.length l < 2)%nat ->
  compute_one_face_gradient rg h f = (0, 0).
Proof.
  intros A L. unfold compute_one_face_gradient. rewrite (around_is _ _ _ _ A).
  destruct (Nat.ltb_spec (List.length l) 2); [reflexivity|lia].
Qed.

(** The weighted mean of the vectors [a p * (u p, v p)] with weights [len_of]. *)
Section Mean.
  Variable l : list next_to.
  Variables u v : next_to -> R.
  Hypothesis unit : forall p, u p * u p + v p * v p = 1.
  Hypothesis Wpos : 0 < lsum len_of l.
  Hypothesis pos : forall p, In p l -> 0 < len_of p.

  Let W := lsum len_of l.
  Let mx (a : next_to -> R) := lsum (fun p => len_of p * a p * u p) l / W.
  Let my (a : next_to -> R) := lsum (fun p => len_of p * a p * v p) l / W.

  Lemma mean_dot a x y : (mx a * x + my a * y) * W = lsum (fun p => len_of p * a p * (u p * x + v p * y)) l.
  Proof.
    unfold mx, my. replace ((_ / W * x + _ / W * y) * W) with
      (x * lsum (fun p => len_of p * a p * u p) l + y * lsum (fun p => len_of p * a p * v p) l)
      by (field; unfold W; lra).
    rewrite <- !lsum_scal, <- lsum_plus. apply lsum_ext. intros p _. ring.
  Qed.

  (** Jensen: the square of the mean is at most the mean of the squares. *)
  Lemma mean_sq a : (mx a * mx a + my a * my a) * W <= lsum (fun p => len_of p * (a p * a p)) l.
  Proof.
    set (X := mx a). set (Y := my a).
    assert (N : 0 <= lsum (fun p => len_of p * ((a p * u p - X) * (a p * u p - X) + (a p * v p - Y) * (a p * v p - Y))) l).
    { apply lsum_nonneg. intros p I. apply Rmult_le_pos; [apply Rlt_le, pos, I|].
      pose proof (Rle_0_sqr (a p * u p - X)). pose proof (Rle_0_sqr (a p * v p - Y)). unfold Rsqr in *. lra. }
    rewrite (lsum_ext _ (fun p => len_of p * (a p * a p) +
        ((-2) * (len_of p * a p * (u p * X + v p * Y)) + (X * X + Y * Y) * len_of p))) in N.
    - rewrite !lsum_plus, !lsum_scal, <- (mean_dot a X Y) in N. fold X Y W in N. nra.
    - intros p _. pose proof (unit p). 
      replace (a p * a p) with (a p * a p * (u p * u p + v p * v p)) by (rewrite H; ring). ring.
  Qed.

  Lemma mean_bound a m : 0 <= m -> (forall p, In p l -> Rabs (a p) <= m) ->
    mx a * mx a + my a * my a <= m * m.
  Proof.
    intros M B. pose proof (mean_sq a) as J.
    assert (K : lsum (fun p => len_of p * (a p * a p)) l <= m * m * W).
    { unfold W. rewrite <- lsum_scal. apply lsum_le. intros p I. rewrite (Rmult_comm (m * m)).
      apply Rmult_le_compat_l; [apply Rlt_le, pos, I|]. specialize (B p I).
      apply Rabs_le_inv in B || idtac. pose proof (Rabs_pos (a p)).
      replace (a p * a p) with (Rabs (a p) * Rabs (a p)) by (rewrite <- Rabs_mult; apply Rabs_right; pose proof (Rle_0_sqr (a p)); unfold Rsqr in *; lra).
      nra. }
    apply (Rmult_le_reg_r W); [exact Wpos|lra].
  Qed.

  (** A plane: the estimate falls short by at least the mean square of the slope across
      the directions of the neighbours. *)
  Lemma mean_plane gx gy :
    let a := fun p => gx * u p + gy * v p in
    let c := fun p => gx * v p - gy * u p in
    (mx a * mx a + my a * my a) * W + lsum (fun p => len_of p * (c p * c p)) l <= (gx * gx + gy * gy) * W.
  Proof.
    cbv zeta. pose proof (mean_sq (fun p => gx * u p + gy * v p)) as J.
    replace ((gx * gx + gy * gy) * W) with
      (lsum (fun p => len_of p * ((gx * u p + gy * v p) * (gx * u p + gy * v p))) l +
       lsum (fun p => len_of p * ((gx * v p - gy * u p) * (gx * v p - gy * u p))) l); [lra|].
    unfold W. rewrite <- lsum_plus, <- lsum_scal. apply lsum_ext. intros p _.
    replace (gx * gx + gy * gy) with ((gx * gx + gy * gy) * (u p * u p + v p * v p)) by (rewrite unit; ring). ring.
  Qed.

  Lemma mean_even gx gy :
    lsum (fun p => len_of p * (v p * v p - u p * u p)) l = 0 ->
    lsum (fun p => len_of p * (2 * u p * v p)) l = 0 ->
    mx (fun p => gx * u p + gy * v p) = gx / 2 /\ my (fun p => gx * u p + gy * v p) = gy / 2.
  Proof.
    intros C S.
    assert (U : lsum (fun p => len_of p * (u p * u p)) l = W / 2 /\ lsum (fun p => len_of p * (v p * v p)) l = W / 2).
    { assert (D : lsum (fun p => len_of p * (v p * v p)) l - lsum (fun p => len_of p * (u p * u p)) l = 0).
      { rewrite <- C. replace (_ - _) with (lsum (fun p => len_of p * (v p * v p)) l + (-1) * lsum (fun p => len_of p * (u p * u p)) l) by ring.
        rewrite <- lsum_scal, <- lsum_plus. apply lsum_ext. intros; ring. }
      assert (T : lsum (fun p => len_of p * (v p * v p)) l + lsum (fun p => len_of p * (u p * u p)) l = W).
      { unfold W. rewrite <- lsum_plus. apply lsum_ext. intros p _.
        replace (len_of p) with (len_of p * (u p * u p + v p * v p)) at 3 by (rewrite unit; ring). ring. }
      lra. }
    destruct U as [U V].
    assert (X : lsum (fun p => len_of p * (u p * v p)) l = 0).
    { apply (Rmult_eq_reg_l 2); [|lra]. rewrite Rmult_0_r, <- lsum_scal, <- S. apply lsum_ext. intros; ring. }
    assert (W0 : W <> 0) by (unfold W; lra).
    split; [unfold mx|unfold my].
    - rewrite (lsum_ext _ (fun p => gx * (len_of p * (u p * u p)) + gy * (len_of p * (u p * v p)))) by (intros; ring).
      rewrite lsum_plus, !lsum_scal, U, X. field. exact W0.
    - rewrite (lsum_ext _ (fun p => gy * (len_of p * (v p * v p)) + gx * (len_of p * (u p * v p)))) by (intros; ring).
      rewrite lsum_plus, !lsum_scal, V, X. field. exact W0.
  Qed.
End Mean.

Lemma az_unit rg f p : sin (azimuth rg f (face_of p)) * sin (azimuth rg f (face_of p)) +
  cos (azimuth rg f (face_of p)) * cos (azimuth rg f (face_of p)) = 1.
Proof. pose proof (sin2_cos2 (azimuth rg f (face_of p))). unfold Rsqr in *. lra. Qed.

Lemma slope_is rg h f l : around rg f (face_edges rg f) l -> (2 <= List.length l)%nat ->
  slope_squared rg h f =
  lsum (sx rg h f) l / lsum len_of l * (lsum (sx rg h f) l / lsum len_of l) +
  lsum (sy rg h f) l / lsum len_of l * (lsum (sy rg h f) l / lsum len_of l).
Proof. intros A L. unfold slope_squared. now rewrite (gradient_is _ _ _ _ A L). Qed.

Lemma slope_mean rg h f l : around rg f (face_edges rg f) l -> (2 <= List.length l)%nat ->
  exists X Y, slope_squared rg h f = X * X + Y * Y /\
    X * lsum len_of l = lsum (fun p => len_of p * (rise h f p * sin (azimuth rg f (face_of p)))) l /\
    Y * lsum len_of l = lsum (fun p => len_of p * (rise h f p * cos (azimuth rg f (face_of p)))) l.
Proof.
  intros A L. pose proof (weight_pos _ _ _ _ A L) as W.
  exists (lsum (sx rg h f) l / lsum len_of l), (lsum (sy rg h f) l / lsum len_of l).
  split; [now apply slope_is|]. split.
  - replace (_ / _ * _) with (lsum (sx rg h f) l) by (field; lra). apply lsum_ext. intros; unfold sx; ring.
  - replace (_ / _ * _) with (lsum (sy rg h f) l) by (field; lra). apply lsum_ext. intros; unfold sy; ring.
Qed.

Lemma slope_bound rg h f l m : around rg f (face_edges rg f) l -> 0 <= m ->
  (forall p, In p l -> Rabs (rise h f p) <= m) -> slope_squared rg h f <= m * m.
Proof.
  intros A M B. destruct (Nat.lt_ge_cases (List.length l) 2) as [L|L].
  - unfold slope_squared. rewrite (gradient_few _ _ _ _ A L). nra.
  - rewrite (slope_is _ _ _ _ A L).
    exact (mean_bound l _ _ (az_unit rg f) (weight_pos _ _ _ _ A L)
             (fun p I => proj2 (around_pos _ _ _ _ A p I)) (rise h f) m M B).
Qed.

Lemma plane_sum (g : next_to -> R) rg h f l gx gy : plane rg h f l gx gy ->
  lsum (fun p => len_of p * rise h f p * g p) l =
  lsum (fun p => len_of p * (gx * sin (azimuth rg f (face_of p)) + gy * cos (azimuth rg f (face_of p))) * g p) l.
Proof. intros P. apply lsum_ext. intros p I. now rewrite (P p I). Qed.

Lemma plane_short rg h f l gx gy : around rg f (face_edges rg f) l -> plane rg h f l gx gy ->
  (2 <= List.length l)%nat ->
  slope_squared rg h f * lsum len_of l +
  lsum (fun p => len_of p * ((gx * cos (azimuth rg f (face_of p)) - gy * sin (azimuth rg f (face_of p))) *
                             (gx * cos (azimuth rg f (face_of p)) - gy * sin (azimuth rg f (face_of p))))) l
  <= (gx * gx + gy * gy) * lsum len_of l.
Proof.
  intros A P L. rewrite (slope_is _ _ _ _ A L).
  unfold sx, sy. rewrite (plane_sum (fun p => sin (azimuth rg f (face_of p))) _ _ _ _ _ _ P),
    (plane_sum (fun p => cos (azimuth rg f (face_of p))) _ _ _ _ _ _ P).
  exact (mean_plane l _ _ (az_unit rg f) (weight_pos _ _ _ _ A L)
           (fun p I => proj2 (around_pos _ _ _ _ A p I)) gx gy).
Qed.

Lemma plane_upper rg h f l gx gy : around rg f (face_edges rg f) l -> plane rg h f l gx gy ->
  slope_squared rg h f <= gx * gx + gy * gy.
Proof.
  intros A P. destruct (Nat.lt_ge_cases (List.length l) 2) as [L|L].
  - unfold slope_squared. rewrite (gradient_few _ _ _ _ A L). nra.
  - pose proof (plane_short _ _ _ _ _ _ A P L) as S. pose proof (weight_pos _ _ _ _ A L) as W.
    apply (Rmult_le_reg_r (lsum len_of l)); [exact W|].
    match type of S with _ + ?x <= _ => assert (0 <= x) end; [|lra].
    apply lsum_nonneg. intros p I. destruct (around_pos _ _ _ _ A p I).
    apply Rmult_le_pos; [lra|apply Rle_0_sqr].
Qed.

Lemma plane_exact rg h f l gx gy : around rg f (face_edges rg f) l -> plane rg h f l gx gy ->
  (2 <= List.length l)%nat -> slope_squared rg h f = gx * gx + gy * gy ->
  forall p, In p l -> gx * cos (azimuth rg f (face_of p)) = gy * sin (azimuth rg f (face_of p)).
Proof.
  intros A P L E p I. pose proof (plane_short _ _ _ _ _ _ A P L) as S. rewrite E in S.
  set (c := fun p => gx * cos (azimuth rg f (face_of p)) - gy * sin (azimuth rg f (face_of p))) in *.
  change (lsum (fun p => len_of p * (c p * c p)) l) with (lsum (fun p => len_of p * (c p * c p)) l) in S.
  assert (S0 : lsum (fun p => len_of p * (c p * c p)) l <= 0) by (unfold c; lra).
  destruct (Req_dec (c p) 0) as [Z|Z]; [unfold c in Z; lra|].
  assert (0 < lsum (fun p => len_of p * (c p * c p)) l); [|lra].
  apply lsum_pos_elem with (a := p).
  - exact I.
  - destruct (around_pos _ _ _ _ A p I). apply Rmult_lt_0_compat; [lra|]. nra.
  - intros q J. destruct (around_pos _ _ _ _ A q J). apply Rmult_le_pos; [lra|apply Rle_0_sqr].
Qed.

Lemma plane_half rg h f l gx gy : around rg f (face_edges rg f) l -> plane rg h f l gx gy ->
  (2 <= List.length l)%nat -> even_around rg f l ->
  compute_one_face_gradient rg h f = (gx / 2, gy / 2).
Proof.
  intros A P L [C S]. rewrite (gradient_is _ _ _ _ A L).
  unfold sx, sy. rewrite (plane_sum (fun p => sin (azimuth rg f (face_of p))) _ _ _ _ _ _ P),
    (plane_sum (fun p => cos (azimuth rg f (face_of p))) _ _ _ _ _ _ P).
  destruct (mean_even l _ _ (az_unit rg f) (weight_pos _ _ _ _ A L) gx gy) as [X Y].
  - rewrite <- C. apply lsum_ext. intros p _. rewrite cos_2a. reflexivity.
  - rewrite <- S. apply lsum_ext. intros p _. rewrite sin_2a. reflexivity.
  - rewrite X, Y. reflexivity.
Qed.

Lemma half_slope rg h f l gx gy : around rg f (face_edges rg f) l -> plane rg h f l gx gy ->
  (2 <= List.length l)%nat -> even_around rg f l ->
  sqrt (slope_squared rg h f) = sqrt (gx * gx + gy * gy) / 2.
Proof.
  intros A P L E. unfold slope_squared. rewrite (plane_half _ _ _ _ _ _ A P L E).
  replace (gx / 2 * (gx / 2) + gy / 2 * (gy / 2)) with ((gx * gx + gy * gy) / (2 * 2)) by field.
  rewrite sqrt_div by nra. rewrite sqrt_square by lra. reflexivity.
Qed.

Lemma gradient_linear rg f a b (h k : nat -> R) :
  let '(x1, y1) := compute_one_face_gradient rg h f in
  let '(x2, y2) := compute_one_face_gradient rg k f in
  compute_one_face_gradient rg (fun i => a * h i + b * k i) f = (a * x1 + b * x2, a * y1 + b * y2).
Proof.
  pose proof (around_exists rg f (face_edges rg f)) as A. set (l := filter_map _ _) in A.
  destruct (Nat.lt_ge_cases (List.length l) 2) as [L|L].
  - rewrite !(gradient_few _ _ _ _ A L). f_equal; ring.
  - rewrite !(gradient_is _ _ _ _ A L). pose proof (weight_pos _ _ _ _ A L).
    assert (E : forall g : next_to -> R, lsum (fun p => len_of p * rise (fun i => a * h i + b * k i) f p * g p) l =
      a * lsum (fun p => len_of p * rise h f p * g p) l + b * lsum (fun p => len_of p * rise k f p * g p) l).
    { intros g. rewrite <- !lsum_scal, <- lsum_plus. apply lsum_ext. intros p _. unfold rise, Rdiv. ring. }
    unfold sx, sy. rewrite !E. f_equal; field; lra.
Qed.

Lemma gradient_shift rg f c (h : nat -> R) :
  compute_one_face_gradient rg (fun i => h i + c) f = compute_one_face_gradient rg h f.
Proof.
  pose proof (around_exists rg f (face_edges rg f)) as A. set (l := filter_map _ _) in A.
  destruct (Nat.lt_ge_cases (List.length l) 2) as [L|L].
  - now rewrite !(gradient_few _ _ _ _ A L).
  - rewrite !(gradient_is _ _ _ _ A L). f_equal; f_equal; apply lsum_ext; intros p _; unfold sx, sy, rise, Rdiv; ring.
Qed.

Lemma slope_shift_scale rg f a c (h : nat -> R) :
  slope_squared rg (fun i => a * h i + c) f = a * a * slope_squared rg h f.
Proof.
  unfold slope_squared. rewrite (gradient_shift rg f c (fun i => a * h i)).
  pose proof (gradient_linear rg f a 0 h h) as G. destruct (compute_one_face_gradient rg h f) as [x y].
  assert (E : compute_one_face_gradient rg (fun i => a * h i) f = (a * x + 0 * x, a * y + 0 * y)).
  { rewrite <- G. rewrite <- (gradient_shift rg f 0 (fun i => a * h i)).
    unfold compute_one_face_gradient. destruct (_ <? 2)%nat; [reflexivity|].
    assert (X : forall l s, fold_left (fun '(dz, dm, ws) '(other, distance, len) =>
      let theta := compute_one_bearing (to_radians (face_lon rg f)) (to_radians (face_lat rg f))
                     (to_radians (face_lon rg other)) (to_radians (face_lat rg other)) in
      let flux := (a * h other + 0 - (a * h f + 0)) * len / distance in
      (dz + flux * sin theta, dm + flux * cos theta, ws + len)) l s =
      fold_left (fun '(dz, dm, ws) '(other, distance, len) =>
      let theta := compute_one_bearing (to_radians (face_lon rg f)) (to_radians (face_lat rg f))
                     (to_radians (face_lon rg other)) (to_radians (face_lat rg other)) in
      let flux := (a * h other + 0 * h other - (a * h f + 0 * h f)) * len / distance in
      (dz + flux * sin theta, dm + flux * cos theta, ws + len)) l s).
    { induction l as [|[[o d] len] l IH]; intros [[p q] w]; [reflexivity|]. cbn [fold_left]. rewrite IH. cbv zeta.
      f_equal. replace (a * h o + 0 * h o - (a * h f + 0 * h f)) with (a * h o + 0 - (a * h f + 0)) by ring. reflexivity. }
    now rewrite X. }
  rewrite E. ring.
Qed.

Lemma slope_local rg f l (h k : nat -> R) : around rg f (face_edges rg f) l ->
  h f = k f -> (forall p, In p l -> h (face_of p) = k (face_of p)) ->
  slope_squared rg h f = slope_squared rg k f.
Proof.
  intros A E0 E. destruct (Nat.lt_ge_cases (List.length l) 2) as [L|L].
  - unfold slope_squared. now rewrite !(gradient_few _ _ _ _ A L).
  - rewrite !(slope_is _ _ _ _ A L).
    rewrite (lsum_ext (sx rg h f) (sx rg k f)), (lsum_ext (sy rg h f) (sy rg k f)); [reflexivity| |];
      intros p I; unfold sx, sy, rise; now rewrite E0, (E p I).
Qed.

Lemma no_slope rg h : py_compute_slope rg h = Err TypeError.
Proof. reflexivity. Qed.

Lemma collapse_stands limit rg angle h :
  sensible rg -> (0 < limit)%nat -> 0 < angle < 90 ->
  (forall f, (f < n_face rg)%nat ->
     exists l, around rg f (face_edges rg f) l /\
       ((List.length l < 2)%nat \/
        (even_around rg f l /\ exists gx gy, plane rg h f l gx gy /\
           sqrt (gx * gx + gy * gy) <= 2 * tan (to_radians angle)))) ->
  exists delta, slope_collapse_deg limit angle rg h = Ok (true, delta) /\ forall f, delta f = 0.
Proof.
  intros Sn Lm An H. set (cs := tan (to_radians angle)) in *.
  assert (Cpos : 0 < cs) by (apply tan_gt_0; apply (deg_range angle An)).
  destruct (collapse_already limit rg cs h Sn Lm) as (b & d & E & B & Z).
  - lra.
  - intros f F. destruct (H f F) as (l & A & D). destruct D as [D|(Ev & gx & gy & P & G)].
    + unfold slope_squared. rewrite (gradient_few _ _ _ _ A D). nra.
    + destruct (Nat.lt_ge_cases (List.length l) 2) as [L|L].
      { unfold slope_squared. rewrite (gradient_few _ _ _ _ A L). nra. }
      unfold slope_squared. rewrite (plane_half _ _ _ _ _ _ A P L Ev).
      assert (S2 : gx * gx + gy * gy <= 2 * cs * (2 * cs)).
      { rewrite <- (sqrt_sqrt (gx * gx + gy * gy)) by nra.
        pose proof (sqrt_pos (gx * gx + gy * gy)). nra. }
      nra.
  - exists d. subst b. split; [exact E|exact Z].
Qed.
