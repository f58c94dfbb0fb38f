(** Shared vocabulary: results with Python exceptions as values. *)
From Coq Require Export List ZArith Lia Bool String.
Export ListNotations.

(** Python / Rust exception classes that the modelled code raises. *)
Inductive exn : Type :=
| ValueError | TypeError | KeyError | AttributeError | IndexError
| NameError | UnboundLocalError | ZeroDivisionError | FileNotFoundError | RustErr
| RuntimeError.

Inductive result (A : Type) : Type :=
| Ok (a : A)
| Err (e : exn).
Arguments Ok {A} a.
Arguments Err {A} e.

Definition rbind {A B} (r : result A) (f : A -> result B) : result B :=
  match r with Ok a => f a | Err e => Err e end.
