(** Specification vocabulary for C09-C11: periods of a run. *)
From Coq Require Import Reals List.
From Verif Require Import Common Run_model.
Import ListNotations.
Open Scope R_scope.

(** The list of (start, end) pairs covers [a down to b] (times are ages, so they
    decrease): it begins at a, each piece has positive length and starts where the
    previous one ended, and the last one ends at b. *)
Inductive tiles : R -> R -> list (R * R) -> Prop :=
| tiles_last a b : b < a -> tiles a b [(a, b)]
| tiles_cons a c b l : c < a -> tiles c b l -> tiles a b ((a, c) :: l).

(** The periods that were sampled, in order; the saves, in order. *)
Fixpoint periods (l : list event) : list (R * R) :=
  match l with
  | [] => []
  | EPop t0 t1 :: r => (t0, t1) :: periods r
  | ESave _ _ _ :: r => periods r
  end.
Fixpoint saves (l : list event) : list Z :=
  match l with
  | [] => []
  | EPop _ _ :: r => saves r
  | ESave i _ _ :: r => i :: saves r
  end.

(** What is assumed of a production function: the chronology starts at 0 and
    increases, there are craters of the reference size, and the age solver
    returns a genuine solution. *)
Record good_production (csfd chron : R -> R) (age_of : R -> R -> result R) (area : R) : Prop := {
  gp_area : 0 < area;
  gp_zero : chron 0 = 0;
  gp_mono : forall a b, 0 <= a < b -> chron a < chron b;
  gp_csfd : 0 < csfd 1000;
  gp_root : forall D n t, age_of D n = Ok t -> 0 <= t /\ 0 < csfd D /\ csfd D * chron t = n
}.

(** [t] is an age at which the expected number of craters larger than [D] (m) per
    unit area is [n]. *)
Definition age_at (csfd chron : R -> R) (D n t : R) : Prop :=
  0 <= t /\ csfd D * chron t = n.

(** The period a caller asks for, [cur] being the current time of the simulation. *)
Inductive period (csfd chron : R -> R) (area Dconv Nconv : R) (cur : option R) (a : args)
  : R -> R -> Prop :=
| by_age x : a_age a = Some x -> period csfd chron area Dconv Nconv cur a x 0
| by_start x : a_age a = None -> a_ts a = Some x -> a_te a = None ->
    period csfd chron area Dconv Nconv cur a x 0
| by_start_end x y : a_age a = None -> a_ts a = Some x -> a_te a = Some y ->
    period csfd chron area Dconv Nconv cur a x y
| by_end c y : a_age a = None -> a_ts a = None -> a_te a = Some y -> cur = Some c ->
    period csfd chron area Dconv Nconv cur a c y
| by_density D n ts te : a_age a = None -> a_ts a = None -> a_te a = None ->
    a_ND a = Some (D, n) ->
    age_at csfd chron (D * Dconv) (n / Nconv) ts ->
    match a_NDe a with
    | None => te = 0
    | Some (D', n') => D' * Dconv = D * Dconv /\ age_at csfd chron (D' * Dconv) (n' / Nconv) te
    end ->
    period csfd chron area Dconv Nconv cur a ts te
| by_number D n ts te : a_age a = None -> a_ts a = None -> a_te a = None -> a_ND a = None ->
    a_dn a = Some (D, n) ->
    age_at csfd chron D (n / area) ts ->
    match a_dne a with
    | None => te = 0
    | Some (D', n') => D' = D /\ age_at csfd chron D' (n' / area) te
    end ->
    period csfd chron area Dconv Nconv cur a ts te.

(** The consistent sets of time arguments (no numbers of craters given). *)
Definition consistent_times (tlo thi cur : option R) (a : args) : Prop :=
  exists ts te,
    ((a_age a = Some ts /\ a_ts a = None /\ a_te a = None /\ te = 0) \/
     (a_age a = None /\ a_ts a = Some ts /\ (a_te a = Some te \/ a_te a = None /\ te = 0)) \/
     (a_age a = None /\ a_ts a = None /\ a_te a = Some te /\ cur = Some ts)) /\
    0 <= te <= ts /\
    (forall l, tlo = Some l -> l <= te) /\ (forall h, thi = Some h -> ts <= h) /\
    (a_dt a = None \/ a_n a = None) /\
    (forall n, a_n a = Some n -> (1 <= n)%Z) /\
    (forall dt, a_dt a = Some dt -> 0 < dt <= ts - te).
