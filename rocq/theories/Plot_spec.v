(** Specification for plots (C113). *)
From Coq Require Import Reals ZArith List Sorted.
From Verif Require Import Common Plot_model.
Import ListNotations.
Open Scope string_scope.

Section S.
Variables data crater : Type.
Notation op := (op data crater).

(** The state of the surface in memory after these operations. *)
Fixpoint surface_after (s0 : data) (l : list op) : data :=
  match l with
  | [] => s0
  | Change _ _ s _ _ :: r => surface_after s r
  | Save _ _ _ :: r => surface_after s0 r
  end.
Definition was_saved (l : list op) (n : nat) : Prop := In (Save _ _ n) l.
(** The number of the last interval, and the state that was in memory when a number was last saved. *)
Definition last_interval (l : list op) (n : nat) : Prop :=
  was_saved l n /\ forall m, was_saved l m -> (m <= n)%nat.
Definition state_saved (s0 : data) (l : list op) (n : nat) (d : data) : Prop :=
  exists l1 l2, l = (l1 ++ Save _ _ n :: l2)%list /\ ~ was_saved l2 n /\ d = surface_after s0 l1.

(** A simulation that has saved nothing. *)
Definition fresh (w : world data crater) (s0 : data) : Prop :=
  w_surf _ _ w = s0 /\ f_surf _ _ w = [] /\ f_obs _ _ w = [] /\ f_emp _ _ w = [].

(** The outlines that a plot should have: a list of craters, when there are any and a colour is given, measured or
    not, in that colour. *)
Definition wanted (color : option string) (c : option (list crater)) (measured : bool) : list (list crater * bool * string) :=
  match color, c with Some col, Some (c0 :: r) => [(c0 :: r, measured, col)] | _, _ => [] end.
Definition look (l : layer crater) : list crater * bool * string := (l_craters _ l, l_measured _ l, l_color _ l).
End S.

(** The lengths a scale bar can have, in metres. *)
Definition round_lengths : list Z := [1; 10; 100; 200; 500; 1000; 2000; 5000; 10000; 20000; 50000; 100000]%Z.
(** The numbers of the files, and files in the order of their numbers. *)
Definition numbers {A} (l : files A) : list nat := map fst l.
Definition ordered {A} (l : files A) : Prop := StronglySorted lt (numbers l).
