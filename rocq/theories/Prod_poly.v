(** Certified upper bounds of rational polynomials over an interval (library). *)
From Coq Require Import Reals QArith Qreals Qabs List Lra Lia ZArith Qround.
From Verif Require Import Common Prod_model.
Import ListNotations.
Open Scope R_scope.

Fixpoint padd (p q : list Q) : list Q :=
  match p, q with
  | [], _ => q
  | _, [] => p
  | a :: p', b :: q' => Qred (a + b) :: padd p' q'
  end.
Fixpoint pderiv (p : list Q) : list Q :=
  match p with [] => [] | _ :: r => padd r (0%Q :: pderiv r) end.

Lemma Q2R_red q : Q2R (Qred q) = Q2R q.
Proof. apply Qeq_eqR, Qred_correct. Qed.
Lemma Q2R_0 : Q2R 0 = 0.
Proof. unfold Q2R. simpl. lra. Qed.

Lemma padd_eval p : forall q x, peval (padd p q) x = peval p x + peval q x.
Proof.
  induction p as [|a p IH]; intros [|b q] x; cbn [padd peval]; try lra.
  rewrite IH, Q2R_red, Q2R_plus. ring.
Qed.
Lemma pderiv_lim p : forall x, derivable_pt_lim (peval p) x (peval (pderiv p) x).
Proof.
  induction p as [|a r IH]; intros x; cbn [pderiv].
  - cbn [peval]. apply derivable_pt_lim_const.
  - rewrite padd_eval. cbn [peval]. rewrite Q2R_0.
    replace (peval r x + (0 + x * peval (pderiv r) x)) with (0 + (1 * peval r x + x * peval (pderiv r) x)) by ring.
    apply (derivable_pt_lim_plus (fun _ => Q2R a) (fun x => x * peval r x)).
    + apply derivable_pt_lim_const.
    + apply (derivable_pt_lim_mult (fun x => x) (peval r)).
      * apply derivable_pt_lim_id.
      * apply IH.
Qed.

(** Integer polynomials.  The checker only adds integers, so that it is cheap for the
    kernel: after the change of variable u = K x, the intervals [c - 1, c + 1] are
    visited by shifting the polynomial by 1. *)
Fixpoint zeval (l : list Z) (x : R) : R :=
  match l with [] => 0 | a :: r => IZR a + x * zeval r x end.
Fixpoint zadd (p q : list Z) : list Z :=
  match p, q with
  | [], _ => q
  | _, [] => p
  | a :: p', b :: q' => (a + b)%Z :: zadd p' q'
  end.
(** p(u + 1) *)
Fixpoint zshift1 (p : list Z) : list Z :=
  match p with [] => [] | a :: r => let q := zshift1 r in zadd (a :: q) q end.
(** p(u + c) *)
Fixpoint zshift (c : Z) (p : list Z) : list Z :=
  match p with [] => [] | a :: r => let q := zshift c r in zadd (a :: q) (map (Z.mul c) q) end.
Fixpoint zderiv (p : list Z) : list Z :=
  match p with [] => [] | _ :: r => zadd r (0%Z :: zderiv r) end.

Lemma zadd_eval p : forall q x, zeval (zadd p q) x = zeval p x + zeval q x.
Proof.
  induction p as [|a p IH]; intros [|b q] x; cbn [zadd zeval]; try lra.
  rewrite IH, plus_IZR. ring.
Qed.
Lemma zscal_eval c p x : zeval (map (Z.mul c) p) x = IZR c * zeval p x.
Proof. induction p as [|a p IH]; cbn [map zeval]; [ring|]. rewrite IH, mult_IZR. ring. Qed.
Lemma zshift1_eval p u : zeval (zshift1 p) u = zeval p (u + 1).
Proof.
  induction p as [|a r IH]; cbn [zshift1 zeval]; [reflexivity|].
  rewrite zadd_eval. cbn [zeval]. rewrite IH. ring.
Qed.
Lemma zshift_eval c p u : zeval (zshift c p) u = zeval p (u + IZR c).
Proof.
  induction p as [|a r IH]; cbn [zshift zeval]; [reflexivity|].
  rewrite zadd_eval, zscal_eval. cbn [zeval]. rewrite IH. ring.
Qed.
Lemma zderiv_lim p : forall x, derivable_pt_lim (zeval p) x (zeval (zderiv p) x).
Proof.
  induction p as [|a r IH]; intros x; cbn [zderiv].
  - cbn [zeval]. apply derivable_pt_lim_const.
  - rewrite zadd_eval. cbn [zeval].
    replace (zeval r x + (0 + x * zeval (zderiv r) x)) with (0 + (1 * zeval r x + x * zeval (zderiv r) x)) by ring.
    apply (derivable_pt_lim_plus (fun _ => IZR a) (fun x => x * zeval r x)).
    + apply derivable_pt_lim_const.
    + apply (derivable_pt_lim_mult (fun x => x) (zeval r)).
      * apply derivable_pt_lim_id.
      * apply IH.
Qed.

(** Sum of the absolute values of the coefficients: a bound over [-1, 1]. *)
Definition zabs (p : list Z) : Z := fold_right (fun a s => (Z.abs a + s)%Z) 0%Z p.
Definition zupper (p : list Z) : Z := match p with [] => 0%Z | a :: r => (a + zabs r)%Z end.

Lemma zabs_bound p t : Rabs t <= 1 -> Rabs (zeval p t) <= IZR (zabs p).
Proof.
  intros H. induction p as [|a r IH]; cbn [zeval zabs fold_right].
  - rewrite Rabs_R0. lra.
  - rewrite plus_IZR, abs_IZR. eapply Rle_trans; [apply Rabs_triang|]. rewrite Rabs_mult.
    apply Rplus_le_compat_l. fold (zabs r). pose proof (Rabs_pos t). pose proof (Rabs_pos (zeval r t)). nra.
Qed.
Lemma zupper_le p t : Rabs t <= 1 -> zeval p t <= IZR (zupper p).
Proof.
  intros H. destruct p as [|a r]; cbn [zeval zupper]; [lra|].
  rewrite plus_IZR. apply Rplus_le_compat_l. eapply Rle_trans; [apply Rle_abs|]. rewrite Rabs_mult.
  pose proof (zabs_bound r t H). pose proof (Rabs_pos t). pose proof (Rabs_pos (zeval r t)). nra.
Qed.

(** p < 0 over [0, 2 n] *)
Fixpoint zcheck (p : list Z) (n : nat) : bool :=
  match n with
  | O => true
  | S k => let q := zshift1 p in if (zupper q <? 0)%Z then zcheck (zshift1 q) k else false
  end.
Lemma zcheck_ok n : forall p, zcheck p n = true -> forall u, 0 <= u < 2 * INR n -> zeval p u < 0.
Proof.
  induction n as [|n IH]; intros p C u X.
  - simpl in X. lra.
  - cbn [zcheck] in C. destruct (Z.ltb_spec (zupper (zshift1 p)) 0) as [E|E]; [|discriminate].
    rewrite S_INR in X. destruct (Rlt_dec u 2) as [L|L].
    + replace u with ((u - 1) + 1) by ring. rewrite <- zshift1_eval.
      eapply Rle_lt_trans; [apply zupper_le; apply Rabs_le; lra|]. apply IZR_lt in E. exact E.
    + replace u with ((u - 2) + 1 + 1) by ring. rewrite <- !zshift1_eval.
      apply (IH _ C). lra.
Qed.

(** From a rational polynomial in x to an integer one in u = K x, scaled by
    D * K ^ (degree); D is a common denominator. *)
Fixpoint zscale (D K : Z) (p : list Q) : list Z :=
  match p with
  | [] => []
  | a :: r => (Qnum a * (D / Zpos (Qden a)) * K ^ Z.of_nat (List.length r))%Z :: zscale D K r
  end.
Definition zdenom (D : Z) (p : list Q) : bool := forallb (fun a => (D mod Zpos (Qden a) =? 0)%Z) p.

Lemma zscale_eval D K p : (0 < K)%Z -> zdenom D p = true -> forall x,
  zeval (zscale D K p) (IZR K * x) = IZR D * IZR K ^ (List.length p - 1) * peval p x.
Proof.
  intros HK. induction p as [|a r IH]; intros Z x; cbn [zscale zeval peval].
  - ring.
  - cbn [zdenom forallb] in Z. apply andb_prop in Z. destruct Z as [Z1 Z2]. apply Z.eqb_eq in Z1.
    rewrite (IH Z2). rewrite !mult_IZR, <- pow_IZR.
    replace (List.length (a :: r) - 1)%nat with (List.length r) by (simpl; lia).
    assert (E : IZR (Qnum a) * IZR (D / Z.pos (Qden a)) = IZR D * Q2R a).
    { assert (Q := Z.div_mod D (Z.pos (Qden a)) ltac:(discriminate)). rewrite Z1, Z.add_0_r in Q.
      rewrite Q at 2. rewrite mult_IZR. unfold Q2R. field. apply not_0_IZR. discriminate. }
    rewrite E. destruct r as [|b r'].
    + simpl. ring.
    + assert (P : IZR K ^ List.length (b :: r') = IZR K * IZR K ^ (List.length (b :: r') - 1)).
      { replace (List.length (b :: r')) with (S (List.length (b :: r') - 1)) at 1 by (simpl; lia). reflexivity. }
      rewrite P. ring.
Qed.

(** The checks: polynomial below [B] on [lo, lo + 2 n / K], and slope below [B] there. *)
Definition below (D K B : Z) (lo : Z) (n : nat) (p : list Q) : bool :=
  zdenom D p &&
  zcheck (zadd (zshift (K * lo) (zscale D K p)) [(- (B * D * K ^ Z.of_nat (List.length p - 1)))%Z]) n.
Definition slope_lt (D K B : Z) (lo : Z) (n : nat) (p : list Q) : bool :=
  zdenom D p &&
  zcheck (zadd (zshift (K * lo) (zderiv (zscale D K p))) [(- (B * D * K ^ Z.of_nat (List.length p - 2)))%Z]) n.

Lemma below_ok D K B lo n p : (0 < K)%Z -> (0 < D)%Z -> below D K B lo n p = true ->
  forall x, IZR lo <= x < IZR lo + 2 * INR n / IZR K -> peval p x < IZR B.
Proof.
  intros HK HD C x X. unfold below in C. apply andb_prop in C. destruct C as [C1 C2].
  assert (PK : 0 < IZR K) by (apply IZR_lt; exact HK). assert (PD : 0 < IZR D) by (apply IZR_lt; exact HD).
  assert (U : 0 <= IZR K * x - IZR (K * lo) < 2 * INR n).
  { rewrite mult_IZR. split; [nra|].
    replace (2 * INR n) with (IZR K * (2 * INR n / IZR K)) by (field; lra). nra. }
  assert (E := zcheck_ok _ _ C2 _ U). rewrite zadd_eval, zshift_eval in E. cbn [zeval] in E.
  replace (IZR K * x - IZR (K * lo) + IZR (K * lo)) with (IZR K * x) in E by ring.
  rewrite (zscale_eval D K p HK C1) in E.
  rewrite opp_IZR, !mult_IZR, <- pow_IZR in E.
  set (S := IZR K ^ (List.length p - 1)) in *. assert (PS : 0 < S) by (apply pow_lt; exact PK).
  assert (0 < IZR D * S) by nra.
  apply Rmult_lt_reg_l with (IZR D * S); [assumption|]. nra.
Qed.

Lemma zscale_deriv D K p x : (0 < K)%Z -> zdenom D p = true -> (2 <= List.length p)%nat ->
  zeval (zderiv (zscale D K p)) (IZR K * x) = IZR D * IZR K ^ (List.length p - 2) * peval (pderiv p) x.
Proof.
  intros HK C Len. assert (PK : 0 < IZR K) by (apply IZR_lt; exact HK).
  assert (A : derivable_pt_lim (fun x => zeval (zscale D K p) (IZR K * x)) x (zeval (zderiv (zscale D K p)) (IZR K * x) * (IZR K * 1))).
  { apply (derivable_pt_lim_comp (fun x => IZR K * x) (zeval (zscale D K p))); [|apply zderiv_lim].
    apply (derivable_pt_lim_scal (fun x => x)). apply derivable_pt_lim_id. }
  assert (B : derivable_pt_lim (fun x => zeval (zscale D K p) (IZR K * x)) x
     (IZR D * IZR K ^ (List.length p - 1) * peval (pderiv p) x)).
  { apply (derivable_pt_lim_locally_ext (fun x => IZR D * IZR K ^ (List.length p - 1) * peval p x) _ x (x - 1) (x + 1)); [lra| |].
    - intros z _. symmetry. apply zscale_eval; assumption.
    - apply derivable_pt_lim_scal. apply pderiv_lim. }
  assert (E := uniqueness_limite _ _ _ _ A B).
  replace (List.length p - 1)%nat with (S (List.length p - 2)) in E by lia. simpl (IZR K ^ S _) in E.
  apply Rmult_eq_reg_r with (IZR K); [|lra]. lra.
Qed.

Lemma slope_lt_ok D K B lo n p : (0 < K)%Z -> (0 < D)%Z -> (2 <= List.length p)%nat -> slope_lt D K B lo n p = true ->
  forall x, IZR lo <= x < IZR lo + 2 * INR n / IZR K -> peval (pderiv p) x < IZR B.
Proof.
  intros HK HD Len C x X. unfold slope_lt in C. apply andb_prop in C. destruct C as [C1 C2].
  assert (PK : 0 < IZR K) by (apply IZR_lt; exact HK). assert (PD : 0 < IZR D) by (apply IZR_lt; exact HD).
  assert (U : 0 <= IZR K * x - IZR (K * lo) < 2 * INR n).
  { rewrite mult_IZR. split; [nra|].
    replace (2 * INR n) with (IZR K * (2 * INR n / IZR K)) by (field; lra). nra. }
  assert (E := zcheck_ok _ _ C2 _ U). rewrite zadd_eval, zshift_eval in E. cbn [zeval] in E.
  replace (IZR K * x - IZR (K * lo) + IZR (K * lo)) with (IZR K * x) in E by ring.
  rewrite (zscale_deriv D K p x HK C1 Len) in E.
  rewrite opp_IZR, !mult_IZR, <- pow_IZR in E.
  set (S := IZR K ^ (List.length p - 2)) in *. assert (PS : 0 < S) by (apply pow_lt; exact PK).
  assert (0 < IZR D * S) by nra.
  apply Rmult_lt_reg_l with (IZR D * S); [assumption|]. nra.
Qed.

(** Decreasing by the mean value theorem. *)
Lemma pdecreasing p s a b : a < b ->
  (forall x, a < x < b -> peval (pderiv p) x < s) -> peval p b - peval p a < s * (b - a).
Proof.
  intros L H.
  destruct (MVT_cor2 (peval p) (peval (pderiv p)) a b L) as (c & E & C).
  - intros c _. apply pderiv_lim.
  - rewrite E. apply Rmult_lt_compat_r; [lra|]. apply H. exact C.
Qed.

Lemma pderiv_scal c p x : peval (pderiv (map (Qmult c) p)) x = Q2R c * peval (pderiv p) x.
Proof.
  assert (A : forall l y, peval (map (Qmult c) l) y = Q2R c * peval l y).
  { induction l as [|a l IH]; intros y; cbn [map peval]; [ring|]. rewrite IH, Q2R_mult. ring. }
  induction p as [|a r IH]; cbn [map pderiv peval]; [ring|].
  rewrite !padd_eval, A. cbn [peval]. rewrite IH, Q2R_0. ring.
Qed.
