(** What a user reads of a tally: the options with which each crater is measured, and what is left.
    Independent of the loop of the model. *)
From Coq Require Import Reals List.
From Verif Require Import Common Tally_model.
Import ListNotations.
Open Scope string_scope.

Section Spec.
Variables val measured : Type.
Variable no : val.
Notation kwargs := (kwargs val).

(** The value of an option: that given, or False. *)
Definition option_of (k : string) (kw : kwargs) : val :=
  match find (fun p => String.eqb (fst p) k) kw with Some p => snd p | None => no end.
(** The arguments other than the two that say what to fit. *)
Definition others (kw : kwargs) : kwargs := without val "fit_ellipse" (without val "fit_center" kw).

(** The calls for one crater. *)
Definition calls_for (measure_rim : bool) (center ellipse : val) (kw : kwargs) (id : nat) : list (call val) :=
  let kw := if measure_rim then others kw else kw in
  ((if measure_rim then [FitRim val id center ellipse kw] else []) ++ [Degradation val id kw; Visibility val id kw])%list.

(** The ids on the surface that belong to an observed crater. *)
Definition known (s : counts measured) (ids : list nat) : list nat :=
  filter (fun i => match crater_of measured i s with Some _ => true | None => false end) ids.

(** The first crater that a tally comes to: the one with the smallest id. *)
Definition first (s : counts measured) (ids : list nat) (i : nat) : Prop := hd_error (known s ids) = Some i.
(** The calls of a tally: the first crater has the options that were given, the others have False. *)
Definition expected (measure_rim : bool) (kw : kwargs) (l : list nat) : list (call val) :=
  match l with
  | [] => []
  | i :: r => (calls_for measure_rim (option_of "fit_center" kw) (option_of "fit_ellipse" kw) kw i
               ++ flat_map (calls_for measure_rim no no kw) r)%list
  end.
(** A crater object is observed under one id: its own. *)
Definition distinct (s : counts measured) : Prop :=
  forall i j r, crater_of measured i s = Some r -> crater_of measured j s = Some r -> i = j.
(** The listed objects exist. *)
Definition made (s : counts measured) : Prop :=
  (forall r, In r (emplaced measured s) -> r < next measured s) /\ (forall p, In p (observed measured s) -> snd p < next measured s).

Variable fit : nat -> val -> val -> kwargs -> measured -> result measured.
Variable degrade : nat -> kwargs -> measured -> result (measured * R).
Variable visible : nat -> kwargs -> measured -> result R.
(** A crater measured with some options: its values afterwards, and whether it is too worn to be seen. *)
Definition measured_as (measure_rim : bool) (center ellipse : val) (kw : kwargs) (id : nat) (x x' : measured) (gone : Prop) : Prop :=
  let kw := if measure_rim then others kw else kw in
  exists x1 kd kv, (if measure_rim then fit id center ellipse kw x = Ok x1 else x1 = x) /\
    degrade id kw x1 = Ok (x', kd) /\ visible id kw x' = Ok kv /\ (gone <-> (kd >= kv)%R).
End Spec.

(** Examples: three observed craters, 2, 5 and 9, of which 2 and 5 are in the list of emplaced ones too. *)
Definition ex_fit (i : nat) (c e : bool) (kw : kwargs bool) (x : nat) : result nat := Ok (if c then x + 100 else x + 10).
Definition ex_degrade (i : nat) (kw : kwargs bool) (x : nat) : result (nat * R) := Ok (x, if Nat.eqb i 5 then 5%R else 1%R).
Definition ex_visible (i : nat) (kw : kwargs bool) (x : nat) : result R := Ok 3%R.
Definition ex_counts : counts nat := mkCounts nat 3 (fun r => r) [(2, 0); (5, 1); (9, 2)] [0; 1].
Definition ex_kw : kwargs bool := [("tol", true); ("fit_center", true)].
