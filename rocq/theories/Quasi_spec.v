(** Vocabulary for the theorems about Quasi_model. *)
From Coq Require Import Reals ZArith.
From Verif Require Import Common Quasi_model.
Open Scope R_scope.

(** A crater dated by N(D) or time; a crater with any production metadata. *)
Definition dated (c : qcrater) : Prop := q_ND c <> None \/ q_time c <> None.
Definition metadata (c : qcrater) : Prop := dated c \/ q_seq c <> None.

(** The age for a number density: refused or not negative, and not smaller for a larger number. *)
Definition age_like (age : R -> result R) : Prop :=
  (forall n t, age n = Ok t -> 0 <= n /\ 0 <= t) /\
  (forall n m t u, n <= m -> age n = Ok t -> age m = Ok u -> t <= u).
(** A truncated normal draw lies between its bounds. *)
Definition trunc_ok (trunc : nat -> R -> R -> R -> R -> R) : Prop :=
  forall i m s lo hi, lo < hi -> lo <= trunc i m s lo hi <= hi.

(** The cumulative number of 1 km craters per square metre that a user's N(D) stands for, D in
    km and N in the user's units. *)
Definition N1_of (csfd : R -> R) (nconv d n : R) : R := n / nconv * (csfd 1000 / csfd (d * 1000)).

(** [drawn c t]: [t] is a time that may be given to the untagged crater [c]. *)
Inductive drawn (csfd : R -> R) (age : R -> result R) (nconv : R) (normal : nat -> R -> R -> R) (c : qcrater) (t : R) : Prop :=
| drawn_ND_exact d n s : q_ND c = Some (d, n, s) -> N1_of csfd nconv d s <= 0 -> age (Rmax 0 (N1_of csfd nconv d n)) = Ok t -> drawn csfd age nconv normal c t
| drawn_ND d n s i : q_ND c = Some (d, n, s) -> 0 < N1_of csfd nconv d s ->
    age (Rmax 0 (normal i (N1_of csfd nconv d n) (N1_of csfd nconv d s))) = Ok t -> drawn csfd age nconv normal c t
| drawn_time_exact m s : q_ND c = None -> q_time c = Some (m, s) -> s <= 0 -> t = m -> drawn csfd age nconv normal c t
| drawn_time m s i : q_ND c = None -> q_time c = Some (m, s) -> 0 < s -> t = normal i m s -> drawn csfd age nconv normal c t.

(** The one-sigma range of a dated crater as a number of 1 km craters. *)
Inductive sigma_range (csfd : R -> R) (number_at : R -> result R) (nconv : R) (c : qcrater) (lo hi : R) : Prop :=
| range_ND d n s : q_ND c = Some (d, n, s) ->
    lo = N1_of csfd nconv d n - N1_of csfd nconv d s -> hi = N1_of csfd nconv d n + N1_of csfd nconv d s ->
    sigma_range csfd number_at nconv c lo hi
| range_time m s : q_ND c = None -> q_time c = Some (m, s) ->
    number_at (Rmax (m - s) 0) = Ok lo -> number_at (m + s) = Ok hi ->
    sigma_range csfd number_at nconv c lo hi.

(** The dates agree with the sequence numbers: no range is negative, and the ranges of craters
    with different sequence numbers do not overlap and come in the right order. *)
Definition in_order csfd number_at nconv (l : list qcrater) : Prop :=
  (forall c lo hi, In c l -> q_seq c <> None -> sigma_range csfd number_at nconv c lo hi -> 0 <= lo <= hi) /\
  (forall c1 c2 a b lo1 hi1 lo2 hi2, In c1 l -> In c2 l -> q_seq c1 = Some a -> q_seq c2 = Some b -> (a < b)%Z ->
    sigma_range csfd number_at nconv c1 lo1 hi1 -> sigma_range csfd number_at nconv c2 lo2 hi2 -> hi2 <= lo1).
(** Every sequence number has a dated crater, except perhaps the last. *)
Definition anchored (l : list qcrater) : Prop :=
  forall c a, In c l -> q_seq c = Some a ->
  (exists c', In c' l /\ q_seq c' = Some a /\ dated c') \/
  (forall c' b, In c' l -> q_seq c' = Some b -> (b <= a)%Z).
(** A smaller sequence number means at least as old. *)
Definition respects_sequence (res : list (qcrater * R)) : Prop :=
  forall c1 c2 a b t1 t2, In (c1, t1) res -> In (c2, t2) res -> q_seq c1 = Some a -> q_seq c2 = Some b -> (a < b)%Z -> t2 <= t1.
(** No date has a negative number in its middle or a negative uncertainty. *)
Definition sensible_dates csfd number_at nconv (l : list qcrater) : Prop :=
  forall c lo hi, In c l -> q_seq c <> None -> sigma_range csfd number_at nconv c lo hi -> lo <= hi /\ 0 <= (lo + hi) / 2.
(** No three craters have three different sequence numbers. *)
Definition at_most_two_sequences (l : list qcrater) : Prop :=
  forall c1 c2 c3 a b s, In c1 l -> In c2 l -> In c3 l -> q_seq c1 = Some a -> q_seq c2 = Some b -> q_seq c3 = Some s -> ~ (a < b < s)%Z.
(** [c] is the only dated crater of its sequence number. *)
Definition only_date (c : qcrater) (l : list qcrater) : Prop :=
  forall c', In c' l -> q_seq c' = q_seq c -> dated c' -> c' = c.
(** No date of a sequence number has an uncertainty. *)
Definition exact_dates csfd number_at nconv (l : list qcrater) : Prop :=
  forall c lo hi, In c l -> q_seq c <> None -> sigma_range csfd number_at nconv c lo hi -> lo = hi.
Definition in_use (l : list qcrater) (s : Z) : Prop := exists c, In c l /\ q_seq c = Some s.
Definition has_date (l : list qcrater) (s : Z) : Prop := exists c, In c l /\ q_seq c = Some s /\ dated c.
(** The number that a sequence number stands for: that of its only date, or zero for the last
    one if it has no date. *)
Definition anchor csfd number_at nconv (l : list qcrater) (s : Z) (n : R) : Prop :=
  (exists c, In c l /\ q_seq c = Some s /\ only_date c l /\ sigma_range csfd number_at nconv c n n) \/
  (in_use l s /\ ~ has_date l s /\ (forall x, in_use l x -> (x <= s)%Z) /\ n = 0).
(** The value at [x] of the straight line through (a, na) and (b, nb). *)
Definition line (a : Z) (na : R) (b : Z) (nb : R) (x : Z) : R := na + (nb - na) * (IZR x - IZR a) / (IZR b - IZR a).
