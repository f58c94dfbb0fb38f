(** Finite sums of reals over [0..n) and over lists (library, not a model). *)
From Coq Require Import Reals Lra Lia List Arith.
Import ListNotations.
Open Scope R_scope.

Fixpoint fsum (n : nat) (f : nat -> R) : R :=
  match n with O => 0 | S k => fsum k f + f k end.

Definition lsum {A} (f : A -> R) (l : list A) : R :=
  fold_right (fun a s => f a + s) 0 l.

Lemma fsum_ext n f g : (forall i, (i < n)%nat -> f i = g i) -> fsum n f = fsum n g.
Proof.
  induction n as [|n IH]; intros H; simpl; [reflexivity|].
  rewrite IH, H by auto with arith. reflexivity.
Qed.

Lemma fsum_plus n f g : fsum n (fun i => f i + g i) = fsum n f + fsum n g.
Proof. induction n as [|n IH]; simpl; [lra|]. rewrite IH. lra. Qed.

Lemma fsum_scal n c f : fsum n (fun i => c * f i) = c * fsum n f.
Proof. induction n as [|n IH]; simpl; [lra|]. rewrite IH. lra. Qed.

Lemma fsum_0 n : fsum n (fun _ => 0) = 0.
Proof. induction n as [|n IH]; simpl; [lra|]. rewrite IH. lra. Qed.

Lemma fsum_le n f g : (forall i, (i < n)%nat -> f i <= g i) -> fsum n f <= fsum n g.
Proof.
  induction n as [|n IH]; intros H; simpl; [lra|].
  apply Rplus_le_compat; auto with arith.
Qed.

Lemma fsum_nonneg n f : (forall i, (i < n)%nat -> 0 <= f i) -> 0 <= fsum n f.
Proof. intros H. rewrite <- (fsum_0 n). apply fsum_le. exact H. Qed.

Lemma fsum_single n i v : (i < n)%nat ->
  fsum n (fun j => if Nat.eqb j i then v else 0) = v.
Proof.
  induction n as [|n IH]; intros H; [lia|]. simpl.
  destruct (Nat.eqb_spec n i) as [E|E].
  - subst. rewrite (fsum_ext i _ (fun _ => 0)).
    + rewrite fsum_0. lra.
    + intros j Hj. destruct (Nat.eqb_spec j i); [lia|reflexivity].
  - rewrite IH by lia. lra.
Qed.

Lemma lsum_app {A} (f : A -> R) l1 l2 : lsum f (l1 ++ l2) = lsum f l1 + lsum f l2.
Proof.
  induction l1 as [|a l IH]; simpl; [lra|]. fold (lsum f (l ++ l2)). fold (lsum f l).
  rewrite IH. lra.
Qed.

Lemma lsum_cons {A} (f : A -> R) a l : lsum f (a :: l) = f a + lsum f l.
Proof. reflexivity. Qed.

Lemma lsum_ext {A} (f g : A -> R) l : (forall a, In a l -> f a = g a) -> lsum f l = lsum g l.
Proof.
  induction l as [|a l IH]; intros H; [reflexivity|].
  rewrite !lsum_cons, IH, (H a) by (simpl; auto; intros; apply H; simpl; auto). reflexivity.
Qed.

Lemma lsum_plus {A} (f g : A -> R) l : lsum (fun a => f a + g a) l = lsum f l + lsum g l.
Proof. induction l as [|a l IH]; [simpl; lra|]. rewrite !lsum_cons, IH. lra. Qed.

Lemma lsum_scal {A} c (f : A -> R) l : lsum (fun a => c * f a) l = c * lsum f l.
Proof. induction l as [|a l IH]; [simpl; lra|]. rewrite !lsum_cons, IH. lra. Qed.

Lemma lsum_le {A} (f g : A -> R) l : (forall a, In a l -> f a <= g a) -> lsum f l <= lsum g l.
Proof.
  induction l as [|a l IH]; intros H; [simpl; lra|].
  rewrite !lsum_cons. apply Rplus_le_compat; [apply H; simpl; auto|].
  apply IH. intros b Hb. apply H. simpl; auto.
Qed.

Lemma lsum_nonneg {A} (f : A -> R) l : (forall a, In a l -> 0 <= f a) -> 0 <= lsum f l.
Proof.
  induction l as [|a l IH]; intros H; [simpl; lra|].
  rewrite lsum_cons. assert (0 <= f a) by (apply H; simpl; auto).
  assert (0 <= lsum f l) by (apply IH; intros; apply H; simpl; auto). lra.
Qed.

Lemma lsum_pos_elem {A} (f : A -> R) l a : In a l -> 0 < f a ->
  (forall b, In b l -> 0 <= f b) -> 0 < lsum f l.
Proof.
  induction l as [|b l IH]; intros Hin Hpos Hall; [destruct Hin|].
  rewrite lsum_cons. destruct Hin as [->|Hin].
  - assert (0 <= lsum f l) by (apply lsum_nonneg; intros; apply Hall; simpl; auto). lra.
  - assert (0 < lsum f l) by (apply IH; auto; intros; apply Hall; simpl; auto).
    assert (0 <= f b) by (apply Hall; simpl; auto). lra.
Qed.

Lemma fsum_lsum_swap {A} n (F : nat -> A -> R) l :
  fsum n (fun i => lsum (F i) l) = lsum (fun a => fsum n (fun i => F i a)) l.
Proof.
  induction l as [|a l IH].
  - simpl. apply fsum_0.
  - rewrite lsum_cons, <- IH, <- fsum_plus. apply fsum_ext. intros. apply lsum_cons.
Qed.
