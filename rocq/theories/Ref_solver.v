(** A solver of least squares exists: Gram-Schmidt on the columns 1, x, y. *)
From Coq Require Import Reals List Bool Arith Lra Lia.
From Verif Require Import Common RSum Profile_model Ref_model Ref_spec Ref_proofs.
Import ListNotations.
Open Scope R_scope.

Definition X (p : S3) := fst (fst p).
Definition Y (p : S3) := snd (fst p).
Definition quot (a b : R) : R := if Req_EM_T b 0 then 0 else a / b.
Section Solve.
Variable pts : list S3.
Definition n := INR (List.length pts).
Definition mx := quot (lsum X pts) n.
Definition my := quot (lsum Y pts) n.
Definition mz := quot (lsum snd pts) n.
Definition x1 p := X p - mx.
Definition b1 := quot (lsum (fun p => x1 p * Y p) pts) (lsum (fun p => x1 p ^ 2) pts).
Definition y1 p := Y p - my - b1 * x1 p.
Definition al := quot (lsum (fun p => x1 p * snd p) pts) (lsum (fun p => x1 p ^ 2) pts).
Definition be := quot (lsum (fun p => y1 p * snd p) pts) (lsum (fun p => y1 p ^ 2) pts).
Definition solve : S3 := (al - be * b1, be, mz - al * mx - be * (my - b1 * mx)).
Lemma fit_value p : at_ solve p = mz + al * x1 p + be * y1 p.
Proof. unfold at_, plane, solve, y1, x1, X, Y. cbn [fst snd]. ring. Qed.
Lemma n_lsum : lsum (fun _ : S3 => 1) pts = n.
Proof. unfold n. induction pts as [|a l IH]; [reflexivity|]. rewrite lsum_cons, IH. cbn [List.length]. rewrite S_INR. ring. Qed.
Lemma quot_mult a b : (b = 0 -> a = 0) -> quot a b * b = a.
Proof. intro H. unfold quot. destruct (Req_EM_T b 0) as [E|N]; [rewrite (H E), E; ring|field; exact N]. Qed.
Lemma n_zero f : n = 0 -> lsum f pts = 0.
Proof.
  intro E. unfold n in E. destruct pts as [|a l]; [reflexivity|]. exfalso. change 0 with (INR 0) in E. apply INR_eq in E. discriminate.
Qed.
Lemma mean_zero f : lsum (fun p => f p - quot (lsum f pts) n) pts = 0.
Proof.
  transitivity (lsum f pts + (- quot (lsum f pts) n) * lsum (fun _ : S3 => 1) pts).
  - rewrite <- lsum_scal, <- lsum_plus. apply lsum_ext. intros; ring.
  - rewrite n_lsum. pose proof (quot_mult (lsum f pts) n (n_zero f)) as Q. lra.
Qed.
Lemma square_zero f g : lsum (fun p => f p ^ 2) pts = 0 -> lsum (fun p => f p * g p) pts = 0.
Proof.
  intro Z. transitivity (lsum (fun _ : S3 => 0 * 1) pts); [|rewrite lsum_scal; ring]. apply lsum_ext. intros p I.
  pose proof (lsum_zero (fun p => f p ^ 2) pts (fun q _ => pow2_ge_0 (f q)) Z p I) as W. cbn beta in W.
  assert (f p = 0); [|rewrite H; ring]. replace (f p ^ 2) with (Rsqr (f p)) in W by (unfold Rsqr; ring). apply Rsqr_0_uniq. exact W.
Qed.
Lemma x1_one : lsum x1 pts = 0.
Proof. exact (mean_zero X). Qed.
Lemma y1_one : lsum y1 pts = 0.
Proof.
  transitivity (lsum (fun p => Y p - my) pts + (- b1) * lsum x1 pts).
  - rewrite <- lsum_scal, <- lsum_plus. apply lsum_ext. intros; unfold y1; ring.
  - rewrite x1_one. pose proof (mean_zero Y) as Q. fold my in Q. rewrite Q. ring.
Qed.
Lemma x1_y1 : lsum (fun p => x1 p * y1 p) pts = 0.
Proof.
  transitivity (lsum (fun p => x1 p * Y p) pts + (- my) * lsum x1 pts + (- b1) * lsum (fun p => x1 p ^ 2) pts).
  - rewrite <- !lsum_scal, <- !lsum_plus. apply lsum_ext. intros; unfold y1; ring.
  - rewrite x1_one. pose proof (quot_mult (lsum (fun p => x1 p * Y p) pts) (lsum (fun p => x1 p ^ 2) pts) (square_zero x1 Y)) as Q. fold b1 in Q. lra.
Qed.
Lemma solve_normal d : lsum (fun p => res solve p * at_ d p) pts = 0.
Proof.
  set (A := fst (fst d)). set (B := snd (fst d)).
  assert (E : forall p, at_ d p = (plane d mx my) * 1 + (A + B * b1) * x1 p + B * y1 p) by (intro p; unfold at_, plane, y1, x1, X, Y, A, B; ring).
  assert (R1 : forall p, res solve p = mz + al * x1 p + be * y1 p - snd p) by (intro p; unfold res; rewrite <- fit_value; reflexivity).
  assert (N1 : lsum (res solve) pts = 0).
  { transitivity ((-1) * lsum (fun p => snd p - mz) pts + al * lsum x1 pts + be * lsum y1 pts).
    - rewrite <- !lsum_scal, <- !lsum_plus. apply lsum_ext. intros p _. rewrite R1. ring.
    - rewrite x1_one, y1_one. pose proof (mean_zero snd) as Q. fold mz in Q. rewrite Q. ring. }
  assert (N2 : lsum (fun p => res solve p * x1 p) pts = 0).
  { transitivity (mz * lsum x1 pts + al * lsum (fun p => x1 p ^ 2) pts + be * lsum (fun p => x1 p * y1 p) pts + (-1) * lsum (fun p => x1 p * snd p) pts).
    - rewrite <- !lsum_scal, <- !lsum_plus. apply lsum_ext. intros p _. rewrite R1. ring.
    - rewrite x1_one, x1_y1. pose proof (quot_mult (lsum (fun p => x1 p * snd p) pts) (lsum (fun p => x1 p ^ 2) pts) (square_zero x1 snd)) as Q. fold al in Q. lra. }
  assert (N3 : lsum (fun p => res solve p * y1 p) pts = 0).
  { transitivity (mz * lsum y1 pts + al * lsum (fun p => x1 p * y1 p) pts + be * lsum (fun p => y1 p ^ 2) pts + (-1) * lsum (fun p => y1 p * snd p) pts).
    - rewrite <- !lsum_scal, <- !lsum_plus. apply lsum_ext. intros p _. rewrite R1. ring.
    - rewrite y1_one, x1_y1. pose proof (quot_mult (lsum (fun p => y1 p * snd p) pts) (lsum (fun p => y1 p ^ 2) pts) (square_zero y1 snd)) as Q. fold be in Q. lra. }
  transitivity (plane d mx my * lsum (res solve) pts + (A + B * b1) * lsum (fun p => res solve p * x1 p) pts + B * lsum (fun p => res solve p * y1 p) pts).
  - rewrite <- !lsum_scal, <- !lsum_plus. apply lsum_ext. intros p _. rewrite E. ring.
  - rewrite N1, N2, N3. ring.
Qed.
End Solve.
Lemma solve_least : least_squares solve.
Proof. intro pts. apply normal_least. apply solve_normal. Qed.
