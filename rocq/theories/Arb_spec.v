(** Specification vocabulary for the points of a mesh on the unit sphere. *)
From Coq Require Import Reals List.
From Verif Require Import Common Hires_model.
Open Scope R_scope.

(** The distance of two points in space. *)
Definition dist (u v : vec) : R :=
  let '(a, b, c) := u in let '(x, y, z) := v in sqrt ((a - x) ^ 2 + (b - y) ^ 2 + (c - z) ^ 2).
Definition on_sphere (u : vec) : Prop := let '(x, y, z) := u in x ^ 2 + y ^ 2 + z ^ 2 = 1.
(** Every point of the sphere is within [r] of a point of the list. *)
Definition covers (r : R) (l : list vec) : Prop := forall u, on_sphere u -> exists p, In p l /\ dist u p <= r.
(** Any two points of the list are at least [r] apart. *)
Definition apart (r : R) (l : list vec) : Prop :=
  forall i j, (i < j)%nat -> (j < List.length l)%nat -> r <= dist (nth i l (0, 0, 0)) (nth j l (0, 0, 0)).

(** A pixel size that asks for at least eight faces on a body: [8 pix^2 <= 4 PI radius^2]. *)
Definition fine (pix radius : R) : Prop := 0 < pix /\ 0 < radius /\ 2 * pix ^ 2 <= PI * radius ^ 2.
