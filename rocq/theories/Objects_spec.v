(** Specification for craters and surfaces as Python objects (C112). *)
From Verif Require Import Common Objects_model.
Import ListNotations.

(** A nest of calls that ends with an answer, whatever the limit on its depth beyond some bound; and one that
    no limit is enough for: Python raises RecursionError. *)
Definition answers {A} (f : nat -> option A) (a : A) : Prop := exists b, forall fuel, (b <= fuel)%nat -> f fuel = Some a.
Definition never_ends {A} (f : nat -> option A) : Prop := forall fuel, f fuel = None.

(** An object whose constructor has run. *)
Definition made {val} (o : obj val) (p q : part val) : Prop := o_fixed val o = Some p /\ o_var val o = Some q.

(** What reading a name should give: the class first, then the fixed part, then the variable part, then an error. *)
Definition first_found {val} (a b c : option val) : option val :=
  match a with Some v => Some v | None => match b with Some v => Some v | None => c end end.
