(** Vocabulary for C126. *)
From Coq Require Import List String.
From Verif Require Import Common Exports_model Frame_model.
Import ListNotations.
Open Scope string_scope.

Section Words.
Context {crater shape : Type} (outline : bool -> bool -> crater -> result shape).
(** The craters asked for: those given, or the observed ones in their order. *)
Definition asked (observed : list (nat * crater)) (craters : option (list crater)) (l : list crater) : Prop :=
  match craters with Some given => l = given | None => l = map snd observed end.
(** One outline for each crater, in the same order. *)
Definition outlined (measured split : bool) : list crater -> list shape -> Prop :=
  Forall2 (fun c s => outline measured split c = Ok s).
(** The first crater of the list that has no outline, and why. *)
Inductive first_failure (measured split : bool) : list crater -> exn -> Prop :=
| fails_here c r e : outline measured split c = Err e -> first_failure measured split (c :: r) e
| fails_later c r s e : outline measured split c = Ok s -> first_failure measured split r e -> first_failure measured split (c :: r) e.
End Words.
Definition known (driver : string) : Prop := In (upper driver) (map fst extensions).

(** An outline for examples: a crater numbered 0 has none. *)
Definition sketch (measured split : bool) (c : nat) : result nat :=
  match c with O => Err ValueError | S _ => Ok (if measured then c + 10 else c) end.
Definition around : region nat nat := mk_region nat nat true 7 1 3.
