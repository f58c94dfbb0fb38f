(** Formation times of sampled craters and merging with user craters:
    cratermaker/components/production/__init__.py.  Real arithmetic in place of
    float64; the uniform draws of the generator are arguments. *)
From Coq Require Import Reals List Arith.
From Verif Require Import Common RSum Sorting.
Import ListNotations.
Open Scope R_scope.

Section Times.
(** production.function(diameter=D, time_start=t): the expected cumulative number per
    area, an argument here. *)
Variable F : R -> R -> R.
(** number of points of the time grid; 1000 in the code (line 306). *)
Variable num : nat.
Variables ts te : R.

(** np.linspace(time_end, time_start, num): compute_time, line 306. *)
Definition grid (k : nat) : R := te + INR k * ((ts - te) / INR (num - 1)).

(** np.min over the age axis: lines 319, 331. *)
Definition row_min (D : R) : R :=
  fold_right Rmin (F D (grid 0)) (map (fun k => F D (grid k)) (seq 0 num)).

(** lines 319-323 (331-334 for a single diameter): N minus its minimum, last column
    dropped, divided by the sum. *)
Definition weight (D : R) (k : nat) : R :=
  (F D (grid k) - row_min D) / fsum (num - 1) (fun j => F D (grid j) - row_min D).

(** np.cumsum: lines 326, 336. *)
Definition cdf (D : R) (k : nat) : R := fsum (S k) (weight D).

(** np.searchsorted(cdf, u, side="right"): lines 347, 349.  The number of entries not
    above u; this is what the binary search returns on a sorted array, and cumulated
    non-negative weights are sorted.  A zero sum of weights (0/0 = NaN in the code) is
    outside this model. *)
Definition count_le (D u : R) : nat :=
  List.length (filter (fun k => if Rle_dec (cdf D k) u then true else false) (seq 0 (num - 1))).

(** lines 347-352: minus 1, clipped to [0, num - 2] (natural subtraction clips below). *)
Definition chosen (D u : R) : nat := Nat.min (count_le D u - 1) (num - 2).

(** lines 354-356: uniform within the chosen subinterval; [v] is the second draw. *)
Definition time_of (D u v : R) : R :=
  let lo := grid (chosen D u) in let hi := grid (S (chosen D u)) in lo + v * (hi - lo).

Definition geb (x y : R) : bool := if Rle_dec y x then true else false.

(** compute_time: lines 286-364, one pair of draws per diameter; the times are sorted
    in decreasing order (358-362). *)
Definition compute_time (diams : list R) (draws : nat -> R * R) : list R :=
  match diams with
  | [] => []
  | _ => sort geb (map (fun p => time_of (snd p) (fst (draws (fst p))) (snd (draws (fst p))))
                       (combine (seq 0 (List.length diams)) diams))
  end.

(** A crater as far as merging is concerned: an identity (Crater.id), a diameter and a
    time.  Generated craters may come without a time. *)
Record crater := mkCrater { cid : nat; diam : R; ctime : R }.
Record gen := mkGen { gid : nat; gdiam : R; gtime : option R }.

(** [c.time <= time_start and c.time > time_end]: lines 906 and 917. *)
Definition in_window (t : R) : bool :=
  if Rle_dec t ts then if Rlt_dec te t then true else false else false.

(** line 906: the timed craters of the window. *)
Definition timed (l : list gen) : list crater :=
  flat_map (fun g => match gtime g with
                     | Some t => if in_window t then [mkCrater (gid g) (gdiam g) t] else []
                     | None => []
                     end) l.

(** line 907 *)
Definition untimed (l : list gen) : list gen :=
  filter (fun g => match gtime g with Some _ => false | None => true end) l.

(** lines 904-914 (before sorting).  Crater.maker(c, time=t) copies the crater with a
    time; its new identifier is not modelled (the identity stands for the object). *)
Definition population (l : list gen) (draws : nat -> R * R) : list crater :=
  timed l ++ map (fun p => mkCrater (gid (fst p)) (gdiam (fst p)) (snd p))
                 (combine (untimed l) (compute_time (map gdiam (untimed l)) draws)).

Definition smaller (a b : crater) : bool := if Rle_dec (diam a) (diam b) then true else false.
Definition older (a b : crater) : bool := if Rle_dec (ctime b) (ctime a) then true else false.

(** lines 923-938: the loop over the generated craters; [ql] is qmclist[qidx:]. *)
Fixpoint replace (rl ql : list crater) : list crater :=
  match rl with
  | [] => ql
  | c :: r =>
      match ql with
      | [] => c :: replace r []
      | q :: q' => if Rlt_dec (diam c) (diam q) then c :: replace r ql else q :: replace r q'
      end
  end.

(** quasimc_merge: lines 860-943, with the window already validated
    (_validate_sample_args, modelled in Run_model) and the user craters processed, so
    that each has a time.  The branch `else: return rnglist` (919-920) is unreachable:
    the quasimc_craters property always holds a list (41, 1311-1332). *)
Definition quasimc_merge (l : list gen) (draws : nat -> R * R) (users : list crater) : list crater :=
  let rnglist := sort smaller (population l draws) in
  let qmclist := sort smaller (filter (fun c => in_window (ctime c)) users) in
  sort older (replace rnglist qmclist).
End Times.
