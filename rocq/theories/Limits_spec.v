(** Vocabulary for the theorems about Limits_model. *)
From Coq Require Import Reals.
From Verif Require Import Common Limits_model.
Open Scope R_scope.

(** Scaling: larger projectiles make larger craters; the two directions undo each other; the
    fast vertical impact needs the smaller projectile. *)
Record scaling_like (crater_of projectile_of : limit -> R -> R) : Prop := {
  sl_pos : forall l d, 0 < d -> 0 < projectile_of l d;
  sl_mono : forall l d e, 0 < d -> d <= e -> projectile_of l d <= projectile_of l e;
  sl_up : forall l p q, 0 < p -> p <= q -> crater_of l p <= crater_of l q;
  sl_inv : forall l d, 0 < d -> crater_of l (projectile_of l d) = d;
  sl_fast : forall d, 0 < d -> projectile_of Largest d <= projectile_of Smallest d }.

(** Assignments of a user. *)
Inductive assignment := SmallestCrater (v : R) | LargestCrater (v : option R).
(** What they ask for: the smallest crater, never below the face size [lo]; the largest, never
    above the size of the target [hi]. *)
Definition asked (lo hi : R) (s : R * R) (a : assignment) : R * R :=
  match a with
  | SmallestCrater v => (Rmax v lo, snd s)
  | LargestCrater (Some v) => (fst s, Rmin v hi)
  | LargestCrater None => (fst s, hi)
  end.
Definition positive (a : assignment) : Prop := match a with LargestCrater (Some v) => 0 < v | _ => True end.
Definition assign (projectile_of : limit -> R -> R) (rmin rmax : R) (g : generator) (r : range) (a : assignment) : range :=
  match a with
  | SmallestCrater v => set_smallest_crater projectile_of rmin rmax g v r
  | LargestCrater v => set_largest_crater projectile_of rmin rmax g v r
  end.
