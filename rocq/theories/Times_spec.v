(** Specification vocabulary for C12, C13 and C54. *)
From Coq Require Import Reals List Arith Permutation.
From Verif Require Import Times_model.
Import ListNotations.
Open Scope R_scope.

Definition within (ts te t : R) : Prop := te <= t <= ts.
(** uniform draws on [0, 1) *)
Definition unit_draws (draws : nat -> R * R) : Prop :=
  forall i, 0 <= fst (draws i) < 1 /\ 0 <= snd (draws i) < 1.
Inductive decreasing : list R -> Prop :=
| dec_nil : decreasing []
| dec_one x : decreasing [x]
| dec_cons x y l : y <= x -> decreasing (y :: l) -> decreasing (x :: y :: l).

(** The share of the unit interval of draws for which [pick] returns [i], when those
    draws form an interval. *)
Definition share (pick : R -> nat) (i : nat) (p : R) : Prop :=
  exists a b, 0 <= a <= b /\ b <= 1 /\ p = b - a /\
    forall u, 0 <= u < 1 -> (pick u = i <-> a <= u < b).

(** [f] increases on [te, ts]. *)
Definition increasing_on (te ts : R) (f : R -> R) : Prop :=
  forall a b, te <= a -> a < b -> b <= ts -> f a < f b.

(** The window (te, ts] of a merge; [inside] are exactly the craters of [users] (each as
    often as it occurs) in the window. *)
Definition in_window_prop (ts te : R) (c : crater) : Prop := te < ctime c <= ts.
Definition window_of (ts te : R) (users inside : list crater) : Prop :=
  exists outside, Permutation users (inside ++ outside) /\
    Forall (in_window_prop ts te) inside /\ Forall (fun c => ~ in_window_prop ts te c) outside.

(** The craters merged over the consecutive periods of a run. *)
Definition merges F num (l : list (R * R)) (gens : nat -> list gen) (draws : nat -> nat -> R * R)
  (users : list crater) : list crater :=
  flat_map (fun p => quasimc_merge F num (fst (snd p)) (snd (snd p)) (gens (fst p)) (draws (fst p)) users)
    (combine (seq 0 (List.length l)) l).

(** Is it one of the user craters (by identity)? *)
Definition is_user (users : list crater) (c : crater) : bool :=
  existsb (fun u => Nat.eqb (cid u) (cid c)) users.

