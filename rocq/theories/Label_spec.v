(** Vocabulary of the claim about labels and stepping through intervals (C108). *)
From Coq Require Import Reals List ZArith.
From Verif Require Import Common Format_model Run_model Label_model.
Import ListNotations.
Open Scope string_scope.
Open Scope R_scope.

(** In this session interval [i] was last saved when the simulation was in state [s']. *)
Definition last_saved (ops : list op) (s : state) (i : nat) (s' : state) : Prop :=
  exists before after, ops = (before ++ Save :: after)%list /\
    s' = fst (session before s) /\ s_interval s' = i /\
    forall b a, after = (b ++ Save :: a)%list -> s_interval (fst (session (before ++ Save :: b) s)) <> i.
Definition never_saved (ops : list op) (s : state) (i : nat) : Prop :=
  forall b a, ops = (b ++ Save :: a)%list -> s_interval (fst (session b s)) <> i.

(** A printed whole number of millions of years. *)
Definition nearly (shown x : R) : Prop := (exists n, shown = IZR n) /\ Rabs (shown - x) <= 1 / 2.

(** The number of craters larger than [D] metres formed per square metre in these periods:
    production.function, with its size and its time dependence. *)
Definition formed (csfd chron : R -> R) (D : R) (periods : list (R * R)) : R :=
  fold_right (fun p n => csfd D * (chron (fst p) - chron (snd p)) + n) 0 periods.

(** The area, in square metres, that the numbers of a unit refer to. *)
Definition unit_area (u : string) : option R :=
  if String.eqb u "per m²" then Some 1
  else if String.eqb u "per km²" then Some (1000 * 1000)
  else if String.eqb u "per 10$^6$ km²" then Some (1000000 * (1000 * 1000))
  else if String.eqb u "# per 10⁶ km²" then Some (1000000 * (1000 * 1000))
  else None.

(** Moving one interval forwards or backwards, stopping at the first and at the last. *)
Definition moved (last : Z) (p : Z) (forward : bool) : Z :=
  if forward then Z.min last (p + 1) else Z.max 0 (p - 1).
Definition position (last start : Z) (l : list bool) : Z := fold_left (moved last) l start.

(** The order of the parts of a label. *)
Definition rank (p : part) : nat := match p with Interval _ => 0 | Time _ => 1 | Age _ => 2 | Number _ _ _ => 3 end.
