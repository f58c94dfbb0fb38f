(** Vocabulary for C127. *)
From Coq Require Import List Reals.
From Verif Require Import Common Flag_model.
Import ListNotations.
Open Scope R_scope.

Section Words.
Context {crater : Type} (time : crater -> R) (process : list crater -> result (list crater)).
(** What can happen to a simulation. *)
Inductive event := Asked | Populated (time_start time_end : R) | Flagged (v : value) | Given (v : craters crater).
(** An assignment that fails leaves the simulation as it was. *)
Definition happens (s : sim crater) (e : event) : sim crater :=
  match e with
  | Asked => snd (do_quasimc crater s)
  | Populated a b => snd (populate crater time s a b)
  | Flagged v => match set_do_quasimc crater s v with Ok s' => s' | Err _ => s end
  | Given v => match set_craters crater process s v with Ok s' => s' | Err _ => s end
  end.
Definition history (s : sim crater) (es : list event) : sim crater := fold_left happens es s.
Definition gives (e : event) : Prop := match e with Given _ => True | _ => False end.
Definition sets_flag (e : event) : Prop := match e with Flagged (Truth _) => True | _ => False end.
(** The craters merged when the simulation is populated are those given whose times lie in the period. *)
Definition merges_given (s : sim crater) : Prop :=
  forall time_start time_end c, In c (fst (populate crater time s time_start time_end)) <->
    In c (quasi crater s) /\ time_end < time c <= time_start.
Definition merges_none (s : sim crater) : Prop :=
  forall time_start time_end, fst (populate crater time s time_start time_end) = [].
End Words.
Arguments event : clear implicits.

(** Craters that are their times; the treatment keeps all. *)
Definition own (t : R) : R := t.
Definition keep (l : list R) : result (list R) := Ok l.
