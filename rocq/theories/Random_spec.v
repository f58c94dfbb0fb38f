(** Vocabulary for the theorems about Random_model. *)
From Coq Require Import Reals List Permutation Sorted.
From Verif Require Import Common Random_model.
Import ListNotations.
Open Scope R_scope.

(** A draw of rng.uniform() or rng.random(). *)
Definition draw01 (u : R) : Prop := 0 <= u < 1.
Definition deg2rad (x : R) : R := x * PI / 180.

(** A weighted sum of points. *)
Fixpoint wsum (w : list R) (l : list vec) : vec :=
  match w, l with
  | a :: w, v :: l => vadd (vscale a v) (wsum w l)
  | _, _ => {| vx := 0; vy := 0; vz := 0 |}
  end.
(** A convex combination of the given points. *)
Definition convex_combination (l : list vec) (p : vec) : Prop :=
  exists w, List.length w = List.length l /\ Forall (fun a => 0 <= a) w /\ rsum w = 1 /\ p = wsum w l.

(** The corners of a face from its row of node numbers, in which negative numbers are fill. *)
Inductive corners_of (node : nat -> vec) : list Z -> list vec -> Prop :=
| corners_nil : corners_of node [] []
| corners_fill i r l : (i < 0)%Z -> corners_of node r l -> corners_of node (i :: r) l
| corners_node n r l : corners_of node r l -> corners_of node (Z.of_nat n :: r) (node n :: l).

(** A valid table of a cumulative distribution, listed by decreasing diameter: at least two
    rows, positive, and the number does not decrease. *)
Definition decreasing_table (t : list (R * R)) : Prop :=
  (2 <= List.length t)%nat /\ Forall (fun r => 0 < fst r /\ 0 < snd r) t /\
  StronglySorted (fun a b => fst b <= fst a /\ snd a <= snd b) t.
(** First and last row. *)
Definition first_row (t : list (R * R)) : R * R := hd (0, 0) t.
Definition last_row (t : list (R * R)) : R * R := List.last t (0, 0).
(** The fraction of the distribution that is at least as large as row [r]. *)
Definition fraction (t : list (R * R)) (r : R * R) : R := snd r / snd (last_row t).
