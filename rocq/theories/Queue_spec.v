(** Specification vocabulary for the emplacement queue. *)
From Coq Require Import QArith.
From Verif Require Import Common Queue_model.
Import ListNotations.

(** Craters formed (or attempted), in order, according to a trace. *)
Definition formed (t : list event) : list crater :=
  flat_map (fun e => match e with Form c => [c] | _ => [] end) t.

(** Two craters affect a common face or node. *)
Definition overlap (g : geometry) (a b : crater) : Prop :=
  (exists x, In x (nodes g a) /\ In x (nodes g b)) \/
  (exists x, In x (faces g a) /\ In x (faces g b)).

(** Every two positions of the list hold craters that do not overlap. *)
Definition pairwise_disjoint (g : geometry) (l : list crater) : Prop :=
  forall i j a b, (i < j)%nat -> nth_error l i = Some a -> nth_error l j = Some b ->
    ~ overlap g a b.

Definition is_prefix {A} (p l : list A) : Prop := exists r, l = p ++ r.

(** Time intervals for which degradation was accumulated, in order. *)
Definition degraded (t : list event) : list (Q * Q) :=
  flat_map (fun e => match e with Degrade a b => [(a, b)] | _ => [] end) t.

(** Craters that all carry a time, oldest (largest time) first. *)
Definition time_ordered (g : geometry) (l : list crater) : Prop :=
  forall i j a b, (i < j)%nat -> nth_error l i = Some a -> nth_error l j = Some b ->
    exists ta tb, time g a = Some ta /\ time g b = Some tb /\ (tb <= ta)%Q.

Definition has_time (g : geometry) (l : list crater) (t : Q) : Prop :=
  exists c, In c l /\ time g c = Some t.

(** Intervals that run backwards in age, inside the craters' times, each ending
    before the next one starts: no instant is degraded twice. *)
Definition no_double_degradation (g : geometry) (l : list crater) (d : list (Q * Q)) : Prop :=
  (forall a b, In (a, b) d -> (b < a)%Q /\ has_time g l a /\ has_time g l b) /\
  ForallOrdPairs (fun p q => (fst q <= snd p)%Q) d.
