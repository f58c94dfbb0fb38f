(** Specification vocabulary for C93. *)
From Coq Require Import Reals List Sorted Permutation.
From Verif Require Import Common.
From Verif Require Limits_model.
Import ListNotations.
Open Scope R_scope.

(** An impact: diameter (of the crater or of the projectile), time and place. *)
Record impact (L : Type) := mk_impact { im_diam : R; im_time : R; im_loc : L }.
Arguments mk_impact {L}. Arguments im_diam {L}. Arguments im_time {L}. Arguments im_loc {L}.

(** The area of some faces. *)
Fixpoint sum_over (f : nat -> R) (l : list nat) : R := match l with [] => 0 | x :: r => f x + sum_over f r end.
Definition area_of (areas : list R) (faces : list nat) : R := sum_over (fun f => nth f areas 0) faces.
(** [s] is the size (square root of the area) of the smallest of the faces. *)
Definition smallest_size (areas : list R) (faces : list nat) (s : R) : Prop :=
  (exists f, In f faces /\ s = sqrt (nth f areas 0)) /\ forall f, In f faces -> s <= sqrt (nth f areas 0).
(** The smallest diameter that can be drawn for faces of smallest size [s]: at least the lower
    end of the production's diameter range, and a crater no smaller than [s]; for a projectile,
    one that makes such a crater even in a slow grazing impact ([slow]). *)
Definition least (g : Limits_model.generator) (slow : R -> R) (size_lo d0 s : R) : R :=
  Rmax (match g with Limits_model.GCrater => s | Limits_model.GProjectile => slow (Rmax s size_lo) end) d0.

(** The expected number, per unit area, of craters larger than [D] formed from ts to te. *)
Definition density (csfd chron : R -> R) (D ts te : R) : R := csfd D * (chron ts - chron te).

(** In order of decreasing time. *)
Definition oldest_first {C} (time : C -> R) (l : list C) : Prop := StronglySorted (fun a b => time b <= time a) l.

(** The impacts [part] drawn for the faces [faces] of a bin: the number drawn for the mean
    number, with sizes that fit the range, times in the period, each on one of the faces. *)
Record bin_impacts {L} (areas : list R) (csfd chron : R -> R) (count : R -> nat) (fits : R -> option R -> R -> Prop)
  (inside : nat -> L -> Prop) (lo : R -> R) (hi : option R) (ts te : R) (faces : list nat) (part : list (impact L)) : Prop := {
  bi_count : forall s, smallest_size areas faces s -> List.length part = count (density csfd chron (lo s) ts te * area_of areas faces);
  bi_sizes : forall s x, smallest_size areas faces s -> In x part -> fits (lo s) hi (im_diam x);
  bi_times : forall x, In x part -> te <= im_time x <= ts;
  bi_places : forall x, In x part -> exists f, In f faces /\ inside f (im_loc x) }.

(** What is assumed of the random draws: as many diameters as asked for, which fit the range;
    one time in the period for each; uniform draws; points on the faces. *)
Record good_draws {L} (sizes : nat -> nat -> R -> option R -> list R) (times : nat -> R -> R -> list R -> list R)
  (pick : nat -> nat -> R) (spot : nat -> nat -> nat -> L) (fits : R -> option R -> R -> Prop) (inside : nat -> L -> Prop) : Prop := {
  gd_count : forall i n lo hi, List.length (sizes i n lo hi) = n;
  gd_sizes : forall i n lo hi d, In d (sizes i n lo hi) -> fits lo hi d;
  gd_times : forall i ts te ds, List.length (times i ts te ds) = List.length ds;
  gd_period : forall i ts te ds t, te <= ts -> In t (times i ts te ds) -> te <= t <= ts;
  gd_pick : forall i k, 0 <= pick i k < 1;
  gd_spot : forall i k f, inside f (spot i k f) }.

(** The solver finds an age for every number density that is reached, within the valid times. *)
Definition solver_complete (csfd chron : R -> R) (age_of : R -> R -> result R) (thi : option R) : Prop :=
  forall D t, 0 <= t -> (forall h, thi = Some h -> t <= h) -> 0 < csfd D -> exists t', age_of D (csfd D * chron t) = Ok t'.

(* ------------------------------- a case ------------------------------- *)
(** Three faces of areas 1, 1.5 and 3; two impacts in each bin, at the smallest size allowed
    and at the end of the period; each in the middle of the draws; a location is a face. *)
Definition ex_areas : list R := [1; 1.5; 3].
Definition ex_range : Limits_model.range := Limits_model.mk_range 0.5 (Some 100).
Definition ex_sizes (i n : nat) (lo : R) (hi : option R) : list R := repeat lo n.
Definition ex_times (i : nat) (ts te : R) (ds : list R) : list R := repeat te (List.length ds).
Definition ex_fits (lo : R) (hi : option R) (d : R) : Prop := lo <= d /\ forall h, hi = Some h -> lo <= h -> d <= h.
Definition ex_same (l : Limits_model.limit) (d : R) : R := d.
(** A crater is its place, time and diameter. *)
Definition ex_make (l : nat) (t d : R) : result (nat * R * R) := Ok (l, t, d).
Definition ex_ctime (c : nat * R * R) : R := snd (fst c).
