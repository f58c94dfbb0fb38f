(** Vocabulary of the property about ejecta rays (C81). *)
From Coq Require Import Reals ZArith List Permutation.
From Verif Require Import Common Ray_model.
Open Scope R_scope.

(** Five azimuths spread evenly over the full turn, in any order, and eight numbers of the unit
    interval: what any seed can produce. *)
Definition drawn (d : draws) : Prop :=
  Permutation (azimuths d) [2 * PI / 5; 4 * PI / 5; 6 * PI / 5; 8 * PI / 5; 2 * PI] /\
  List.length (numbers d) = 8%nat /\ forall x, In x (numbers d) -> 0 <= x < 1.

(** All that is used of the error function. *)
Definition positive_erf (erf : R -> R) : Prop := forall x, 0 < x -> 0 < erf x.

(** Diameters in metres; the upper bound keeps the shortest ray below a hundred crater radii. *)
Definition sized (diameter : R) : Prop := 0 < diameter <= 10 ^ 100.

(** The value [v] was returned for the [i]th distance [r] and bearing [t]. *)
Definition at_point (rs ts : list R) (vs : list float) (i : nat) (r t : R) (v : float) : Prop :=
  nth_error rs i = Some r /\ nth_error ts i = Some t /\ nth_error vs i = Some v.

(** How many of the five rays extend to [r] crater radii. *)
Definition rays_reaching (r minray : R) : nat :=
  List.length (filter (fun i => if Rle_dec r (ray_length minray i) then true else false) (seq 0 5)).
