(** Vocabulary of C114. *)
From Coq Require Import List Arith Permutation.
From Verif Require Import Batch_model.
Import ListNotations.

(** The file of interval [i] contains the list [l]. *)
Definition file (fs : files) (i : nat) (l : list crater) : Prop := In (i, l) fs.

(** There is a single file for interval [i], and it lists the craters [cs]. *)
Definition holds (fs : files) (i : nat) (cs : list crater) : Prop :=
  (exists l, file fs i l /\ Permutation l cs) /\ (forall l, file fs i l -> Permutation l cs).

(** Interval [i] has the same file, or none, before and after. *)
Definition same_file (fs fs' : files) (i : nat) : Prop := forall l, file fs' i l <-> file fs i l.

(** No file is numbered after interval [i]. *)
Definition no_later (fs : files) (i : nat) : Prop := forall j l, file fs j l -> j <= i.

(** The number of the interval at which a run begins. *)
Definition first_interval (s : sim) : nat := if started s then interval s else 0.

(** The craters the simulation has put on the surface since it was last reset. *)
Fixpoint put_since (acc : list crater) (ops : list op) : list crater :=
  match ops with
  | [] => acc
  | OEmplace cs _ :: r => put_since (acc ++ cs) r
  | ORun ts :: r => put_since (acc ++ List.concat (map fst ts)) r
  | OReset :: r => put_since [] r
  | _ :: r => put_since acc r
  end.
