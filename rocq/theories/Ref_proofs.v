From Coq Require Import Reals List Bool Arith Lra Lia.
From Verif Require Import Common RSum Profile_model Ref_model Ref_spec.
Import ListNotations.
Open Scope R_scope.

Notation S3 := (R * R * R)%type.
Lemma total_lsum {A} (f : A -> R) l : total (map f l) = lsum f l.
Proof. unfold total. induction l as [|a l IH]; [reflexivity|]. cbn [map fold_right]. rewrite IH, lsum_cons. reflexivity. Qed.
Lemma misfit_lsum c pts : misfit c pts = lsum (fun p => (plane c (fst (fst p)) (snd (fst p)) - snd p) ^ 2) pts.
Proof. unfold misfit. exact (total_lsum _ pts). Qed.

(** Least squares. *)
Definition res (c p : S3) : R := plane c (fst (fst p)) (snd (fst p)) - snd p.
Definition at_ (c p : S3) : R := plane c (fst (fst p)) (snd (fst p)).
Definition add3 (c d : S3) : S3 := (fst (fst c) + fst (fst d), snd (fst c) + snd (fst d), snd c + snd d).
Definition scale3 (t : R) (c : S3) : S3 := (t * fst (fst c), t * snd (fst c), t * snd c).
Lemma plane_add c d x y : plane (add3 c d) x y = plane c x y + plane d x y.
Proof. unfold plane, add3. cbn. ring. Qed.
Lemma plane_scale t c x y : plane (scale3 t c) x y = t * plane c x y.
Proof. unfold plane, scale3. cbn. ring. Qed.
Lemma misfit_move c d t pts : misfit (add3 c (scale3 t d)) pts = misfit c pts + 2 * t * lsum (fun p => res c p * at_ d p) pts + t ^ 2 * lsum (fun p => at_ d p ^ 2) pts.
Proof.
  rewrite !misfit_lsum. rewrite <- !lsum_scal, <- !lsum_plus. apply lsum_ext. intros p _. rewrite plane_add, plane_scale. unfold res, at_. ring.
Qed.
Lemma quadratic_zero P Q : 0 <= Q -> (forall t, 0 <= 2 * t * P + t ^ 2 * Q) -> P = 0.
Proof.
  intros HQ H. destruct (Req_dec P 0) as [|N]; [assumption|exfalso]. specialize (H (- P / (Q + 1))).
  assert (E : 2 * (- P / (Q + 1)) * P + (- P / (Q + 1)) ^ 2 * Q = - (P ^ 2 * (Q + 2) / (Q + 1) ^ 2)) by (field; lra).
  rewrite E in H. assert (0 < P ^ 2) by (replace (P ^ 2) with (Rsqr P) by (unfold Rsqr; ring); apply Rsqr_pos_lt; exact N).
  assert (0 < P ^ 2 * (Q + 2) / (Q + 1) ^ 2); [|lra]. unfold Rdiv. apply Rmult_lt_0_compat; [apply Rmult_lt_0_compat; lra|]. apply Rinv_0_lt_compat, pow_lt. lra.
Qed.
Lemma normal c pts : (forall c', misfit c pts <= misfit c' pts) -> forall d, lsum (fun p => res c p * at_ d p) pts = 0.
Proof.
  intros M d. apply (quadratic_zero _ (lsum (fun p => at_ d p ^ 2) pts)).
  - apply lsum_nonneg. intros p _. apply pow2_ge_0.
  - intro t. specialize (M (add3 c (scale3 t d))). rewrite misfit_move in M. lra.
Qed.
Lemma normal_least c pts : (forall d, lsum (fun p => res c p * at_ d p) pts = 0) -> forall c', misfit c pts <= misfit c' pts.
Proof.
  intros N c'. set (d := add3 c' (scale3 (-1) c)). assert (E : misfit c' pts = misfit (add3 c (scale3 1 d)) pts).
  { rewrite !misfit_lsum. apply lsum_ext. intros p _. unfold d. rewrite plane_add, plane_scale, plane_add, plane_scale. ring. }
  rewrite E, misfit_move, N. assert (0 <= lsum (fun p => at_ d p ^ 2) pts) by (apply lsum_nonneg; intros p _; apply pow2_ge_0). lra.
Qed.
Lemma lsum_zero {A} (f : A -> R) l : (forall a, In a l -> 0 <= f a) -> lsum f l = 0 -> forall a, In a l -> f a = 0.
Proof.
  intros P Z a I. destruct (Rle_lt_or_eq_dec _ _ (P a I)) as [L|E]; [|congruence]. exfalso.
  assert (0 < lsum f l); [|lra]. revert P Z I. induction l as [|b l IH]; intros P Z I; [destruct I|]. rewrite lsum_cons. destruct I as [->|I].
  - assert (0 <= lsum f l) by (apply lsum_nonneg; intros; apply P; right; assumption). lra.
  - pose proof (P b (or_introl eq_refl)). rewrite lsum_cons in Z. assert (0 <= lsum f l) by (apply lsum_nonneg; intros; apply P; right; assumption).
    assert (0 < lsum f l); [apply IH; [intros; apply P; right; assumption|lra|exact I]|lra].
Qed.
Lemma fit_unique c d pts : (forall c', misfit c pts <= misfit c' pts) -> (forall c', misfit d pts <= misfit c' pts) ->
  forall p, In p pts -> at_ c p = at_ d p.
Proof.
  intros Mc Md p I. set (e := add3 c (scale3 (-1) d)). assert (E : forall q, at_ e q = at_ c q - at_ d q) by (intro q; unfold at_, e; rewrite plane_add, plane_scale; ring).
  assert (Z : lsum (fun q => at_ e q ^ 2) pts = 0).
  { pose proof (normal c pts Mc e) as N1. pose proof (normal d pts Md e) as N2.
    replace 0 with (lsum (fun q => res c q * at_ e q) pts + (-1) * lsum (fun q => res d q * at_ e q) pts) by lra.
    rewrite <- lsum_scal, <- lsum_plus. apply lsum_ext. intros q _. rewrite E. unfold res. fold (at_ c q) (at_ d q). ring. }
  apply lsum_zero with (a := p) in Z; [|intros; apply pow2_ge_0|exact I]. rewrite E in Z. assert (at_ c p - at_ d p = 0); [|lra].
  replace ((at_ c p - at_ d p) ^ 2) with (Rsqr (at_ c p - at_ d p)) in Z by (unfold Rsqr; ring). apply Rsqr_0_uniq. exact Z.
Qed.
(** Points on a plane, and points raised by a plane. *)
Lemma fit_planar c d pts : (forall c', misfit c pts <= misfit c' pts) -> (forall p, In p pts -> snd p = at_ d p) -> forall p, In p pts -> at_ c p = snd p.
Proof.
  intros M P p I. rewrite (P p I). apply (fit_unique c d pts M); [|exact I]. intro c'. rewrite (misfit_lsum d).
  assert (Z : lsum (fun q => (plane d (fst (fst q)) (snd (fst q)) - snd q) ^ 2) pts = 0).
  { transitivity (lsum (fun _ : S3 => 0 * 1) pts); [apply lsum_ext; intros q Iq; rewrite (P q Iq); unfold at_; ring|rewrite lsum_scal; ring]. }
  rewrite Z, misfit_lsum. apply lsum_nonneg. intros; apply pow2_ge_0.
Qed.
Definition lift (d p : S3) : S3 := (fst p, snd p + at_ d p).
Lemma lsum_map {A B} (g : A -> B) (f : B -> R) l : lsum f (map g l) = lsum (fun a => f (g a)) l.
Proof. rewrite <- !total_lsum, map_map. reflexivity. Qed.
Lemma fit_lift c d k pts : (forall c', misfit c pts <= misfit c' pts) -> (forall c', misfit k (map (lift d) pts) <= misfit c' (map (lift d) pts)) ->
  forall p, In p pts -> at_ k p = at_ c p + at_ d p.
Proof.
  intros M N p I. assert (X : at_ k (lift d p) = at_ (add3 c d) (lift d p)).
  { apply (fit_unique k (add3 c d) (map (lift d) pts) N); [|apply in_map; exact I]. apply normal_least. intro e. rewrite lsum_map, <- (normal c pts M e).
    apply lsum_ext. intros q _. unfold res, lift, at_. cbn [fst snd]. rewrite plane_add. ring. }
  unfold at_, lift in X. cbn [fst snd] in X. rewrite plane_add in X. exact X.
Qed.
Lemma fit_total c pts : (forall c', misfit c pts <= misfit c' pts) -> lsum (fun p => at_ c p) pts = lsum snd pts.
Proof.
  intro M. pose proof (normal c pts M (0, 0, 1)) as N. assert (E : lsum (fun p => res c p * at_ (0, 0, 1) p) pts = lsum (fun p => at_ c p) pts + (-1) * lsum snd pts).
  { rewrite <- lsum_scal, <- lsum_plus. apply lsum_ext. intros p _. unfold res, at_, plane at 2. cbn [fst snd]. ring. }
  lra.
Qed.
