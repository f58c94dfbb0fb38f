(** What the documentation of the projectiles promises, without the code. *)
From Coq Require Import Reals List String.
From Verif Require Import Common Proj_model.
Import ListNotations.
Open Scope R_scope.

Definition given {A} (o : option A) : Prop := exists x, o = Some x.
Definition not_given {A} (o : option A) : Prop := o = None.
(** A value, when given, is not negative. *)
Definition allowed (o : option R) : Prop := forall x, o = Some x -> 0 <= x.
Definition succeeds {A} (r : result A) : Prop := exists x, r = Ok x.

(** The arguments with which a projectile of a population can be made. *)
Definition acceptable (normalize : R * R -> result (R * R)) (pop : population) (a : args) : Prop :=
  match pop, a_sample a with
  | Generic, true => given (a_mean a)
  | Generic, false => given (a_velocity a)
  | _, true => True
  | _, false => given (a_angle a) /\ given (a_direction a) /\ given (a_location a)
  end /\
  allowed (a_velocity a) /\ allowed (a_angle a) /\ allowed (a_direction a) /\ allowed (a_density a) /\
  (forall l, a_location a = Some l -> succeeds (normalize l)).

(** No attribute is missing and none is negative. *)
Definition complete (p : projectile) : Prop :=
  (exists v, p_velocity p = Some v /\ 0 <= v) /\ (exists v, p_angle p = Some v /\ 0 <= v) /\
  (exists v, p_direction p = Some v /\ 0 <= v) /\ (exists v, p_density p = Some v /\ 0 <= v) /\
  given (p_location p).

(** Draws that the random functions can return. *)
Definition possible (d : draws) : Prop :=
  (forall m e, 0 <= d_velocity d m e) /\ 0 <= d_angle d /\ 0 <= d_direction d.

(** Every projectile that a program can hold: made by name or by default, renewed, or changed by
    a setter. *)
Inductive reachable (normalize : R * R -> result (R * R)) : projectile -> Prop :=
  | R_made : forall w a t d p, (forall q, w <> ByObject q) -> possible d ->
      maker normalize w a t d = Ok p -> reachable normalize p
  | R_again : forall p a t d p', reachable normalize p -> possible d ->
      maker normalize (ByObject p) a t d = Ok p' -> reachable normalize p'
  | R_new : forall p a d p', reachable normalize p -> possible d ->
      new_projectile normalize a d p = Ok p' -> reachable normalize p'
  | R_copy : forall p p', reachable normalize p -> copy p = Ok p' -> reachable normalize p'
  | R_set : forall p s p', reachable normalize p -> set normalize s p = Ok p' -> reachable normalize p'.

Definition no_args (sample : bool) : args := mkArgs sample None None None None None None.
Definition the_moon : body := mkBody "Moon" 2375.
Definition mars : body := mkBody "Mars" 5027.
