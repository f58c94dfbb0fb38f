(** Vocabulary for the theorems about Near_model. *)
From Coq Require Import Reals List.
From Verif Require Import Common Geo_spec Outline_spec Place_model Place_spec Where_model Where_spec Near_model.
Import ListNotations.
Open Scope R_scope.

(** i is a place of l, and none is nearer to p. *)
Definition nearest_to (l : list (R * R)) (p : R * R) (i : nat) : Prop :=
  exists x, nth_error l i = Some x /\ forall j y, nth_error l j = Some y -> apart p x <= apart p y.
(** A tree that finds such a place whenever there are places. *)
Definition sound_tree (query : list (R * R) -> R * R -> nat) : Prop :=
  forall l p, l <> [] -> nearest_to l p (query l p).
(** One location, in a form that is not structured data. *)
Definition one_place (a : arg) (p : R * R) : Prop := means a [p] /\ ~ structured a.
(** The points of a mesh that are looked at. *)
Definition of_mesh (node : bool) (f n : list (R * R)) : list (R * R) := if node then n else f.
(** Whether something done before needed the tree of faces or of nodes. *)
Definition needed (node : bool) (a : act) : bool :=
  match a with
  | Find m l => Bool.eqb m node && match validate l with Ok _ => true | Err _ => false end
  | Extract everything => negb node && negb everything
  end.

(** Example: the nearest place by trying all of them. *)
Fixpoint best (p : R * R) (l : list (R * R)) : nat * option R :=
  match l with
  | [] => (0%nat, None)
  | x :: more => let (i, d) := best p more in
      match d with
      | Some e => if Rle_dec (apart p x) e then (0%nat, Some (apart p x)) else (S i, d)
      | None => (0%nat, Some (apart p x))
      end
  end.
Definition search (l : list (R * R)) (p : R * R) : nat := fst (best p l).
Definition ex_faces : list (R * R) := [(0, 0); (90, 0)].
Definition ex_faces2 : list (R * R) := [(10, 20)].
