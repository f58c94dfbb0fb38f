(** Property theorems about the curves crater counts are compared with (C104). *)
From Coq Require Import Reals ZArith Lra.
From Verif Require Import Common RSum Prod_model Csfd_model Csfd_spec Csfd_proofs.
Import ListNotations.
Open Scope R_scope.

(** C104: for a positive diameter the conversion of an R-plot into a cumulative number ends, with one
    answer. *)
Theorem C104_ends : forall f lim D, 0 < D -> exists n, counts f lim D n /\ forall m, counts f lim D m -> m = n.
Proof. exact ends. Qed.
Print Assumptions C104_ends.
Example C104_ends_case : 0 < 5. Proof. lra. Qed.

(** C104: the answer is the sum over bins, each wider than the one before by the square root of two, of
    the density in the middle of the bin times its width; the last bin ends at or beyond the limit. *)
Theorem C104_sum : forall f lim D n, 0 < D -> counts f lim D n -> exists k,
  lim <= D * sqrt 2 ^ k /\ (forall i, (i < k)%nat -> D * sqrt 2 ^ i < lim) /\
  n = fsum k (fun i => density f (D * sqrt 2 ^ i * (1 + sqrt 2) / 2) * (D * sqrt 2 ^ S i - D * sqrt 2 ^ i)).
Proof. exact as_sum. Qed.
Print Assumptions C104_sum.

(** C104: two R-plots, each with a weight, add up, and one that is never negative gives no negative
    number. *)
Theorem C104_linear : (forall f g lim D n m a b, 0 < D -> counts f lim D n -> counts g lim D m -> counts (fun x => a * f x + b * g x) lim D (a * n + b * m)) /\
  (forall f lim D n, 0 < D -> (forall x, 0 < x -> 0 <= f x) -> counts f lim D n -> 0 <= n).
Proof. exact (conj linear nonneg). Qed.
Print Assumptions C104_linear.

(** C104: for a density that falls with the diameter, the number is between the true one of the craters
    from D√2 on divided by √2 and the true one of those from D/√2 on times √2, up to where the last bin
    ends. *)
Theorem C104_bounds : forall f C lim D n, decreasing_on (density f) -> cumulative f C -> 0 < D -> counts f lim D n ->
  exists e, last_edge lim D e /\ (C (D * sqrt 2) - C (e * sqrt 2)) / sqrt 2 <= n <= sqrt 2 * (C (D / sqrt 2) - C (e / sqrt 2)).
Proof. exact bounds. Qed.
Print Assumptions C104_bounds.
(** C104: for a convex density it is never more than the true number between D and the end of the last
    bin. *)
Theorem C104_underestimates : forall f C lim D n, convex (density f) -> cumulative f C -> 0 < D -> counts f lim D n ->
  exists e, last_edge lim D e /\ n <= C D - C e.
Proof. exact underestimates. Qed.
Print Assumptions C104_underestimates.
(** C104: where the last bin ends: not before the limit, and less than √2 times beyond it. *)
Theorem C104_last_bin : forall lim D e, 0 < D -> last_edge lim D e -> lim <= e /\ D <= e /\ (D < lim -> e < lim * sqrt 2) /\ (lim <= D -> e = D).
Proof. exact edge_range. Qed.
Print Assumptions C104_last_bin.
Example C104_bounds_case : decreasing_on (density (power 1 0)) /\ convex (density (power 1 0)) /\ cumulative (power 1 0) (fun D => 1 / (2 - 0) * Rpower D (0 - 2)).
Proof. exact (conj flat_decreasing (conj flat_convex (power_cumulative 1 0 ltac:(lra)))). Qed.

(** C104: for an R-plot that is a power law the number is the true one, up to the end of the last bin,
    times a positive factor that depends on the exponent alone; for a flat R-plot the factor is between
    0.94 and 0.95. *)
Theorem C104_power_law : exists K : R -> R, (forall p, p <> 2 -> 0 < K p) /\ 94 / 100 < K 0 < 95 / 100 /\
  forall c p lim D n, p <> 2 -> 0 < D -> counts (power c p) lim D n ->
    exists e, last_edge lim D e /\ n = K p * (c / (2 - p) * (Rpower D (p - 2) - Rpower e (p - 2))).
Proof. exact power_laws. Qed.
Print Assumptions C104_power_law.
(** The true number of a power law, for comparison. *)
Theorem C104_power_true : forall c p, p <> 2 -> cumulative (power c p) (fun D => c / (2 - p) * Rpower D (p - 2)).
Proof. exact power_cumulative. Qed.
Print Assumptions C104_power_true.

(** C104: larger craters are never more numerous, for an R-plot that is not negative and grows at most
    with the square of the diameter. *)
Theorem C104_falling_partial : forall f lim a b n m, (forall x, 0 < x -> 0 <= f x) -> decreasing_on (fun x => f x / x ^ 2) ->
  0 < a <= b -> counts f lim a n -> counts f lim b m -> m <= n.
Proof. exact falling. Qed.
Print Assumptions C104_falling_partial.
Example C104_falling_case : (forall x, 0 < x -> 0 <= x ^ 2) /\ decreasing_on (fun x => x ^ 2 / x ^ 2).
Proof. exact square_falls. Qed.
(** C104 fails for an R-plot that grows faster: the number of craters larger than a diameter can grow
    with the diameter. *)
Theorem C104_falling_refuted : exists a b n m, 0 < a < b /\ b < 1 /\ counts (fun D => D ^ 3) 1 a n /\ counts (fun D => D ^ 3) 1 b m /\ n < m.
Proof. exact rising. Qed.
Print Assumptions C104_falling_refuted.
(** C104 fails at the limit: craters larger than it are counted. *)
Theorem C104_limit_refuted : forall lim, 0 < lim -> exists f D n, 0 < D < lim /\ counts f lim D n /\ 0 < n /\ forall x, x <= lim -> f x = 0.
Proof. exact limit_passed. Qed.
Print Assumptions C104_limit_refuted.
(** C104 fails for a negative diameter: the call does not end. *)
Theorem C104_negative_refuted : forall f lim D, D < 0 -> D < lim -> endless f lim D.
Proof. exact negative. Qed.
Print Assumptions C104_negative_refuted.
Example C104_negative_case : -1 < 0 /\ -1 < 1000000. Proof. lra. Qed.
(** C104: from the limit on there are no craters. *)
Theorem C104_beyond : forall f lim D, lim <= D -> counts f lim D 0.
Proof. exact beyond. Qed.
Print Assumptions C104_beyond.

(** C104: an array of diameters gives the number of each, except that an empty one is a ValueError. *)
Theorem C104_arrays : forall f lim ds a, array_counts f lim ds a <->
  (ds = [] /\ a = Err ValueError) \/ (ds <> [] /\ exists ns, a = Ok ns /\ Forall2 (counts f lim) ds ns).
Proof. exact arrays. Qed.
Print Assumptions C104_arrays.

(** C104: geometric saturation is 1.54 craters per square of the diameter, for a number and for each
    number of an array, so that craters of one size cover the same part of the area whatever their
    size; the number 0 is refused. *)
Theorem C104_saturation :
  (forall d, d <> 0 -> csfd_geometric_saturation (Float d) = Ok (One (154 / 100 / d ^ 2))) /\
  (forall l, Forall (fun d => d <> 0) l -> csfd_geometric_saturation (Floats l) = Ok (Many (map (fun d => Some (154 / 100 / d ^ 2)) l))) /\
  (forall d, 0 < d -> (154 / 100 / d ^ 2) * (PI * (d / 2) ^ 2) = 154 / 400 * PI) /\
  csfd_geometric_saturation (Float 0) = Err ZeroDivisionError.
Proof. exact (conj saturation_float (conj saturation_floats (conj (fun d H => proj2 (saturation_cover d H)) saturation_zero))). Qed.
Print Assumptions C104_saturation.
(** C104: equilibrium is the given fraction of geometric saturation, 0.0218 unless it is given. *)
Theorem C104_equilibrium : f_geometric_default = 218 / 10000 /\
  (forall d f, d <> 0 -> csfd_equilibrium (Float d) f = Ok (One (f * (154 / 100 / d ^ 2)))) /\
  (forall l f, Forall (fun d => d <> 0) l -> csfd_equilibrium (Floats l) f = Ok (Many (map (fun d => Some (f * (154 / 100 / d ^ 2))) l))).
Proof. exact (conj eq_refl (conj equilibrium_float equilibrium_floats)). Qed.
Print Assumptions C104_equilibrium.
Example C104_saturation_case : Forall (fun d => d <> 0) [1; 10; 100]. Proof. repeat constructor; lra. Qed.
(** C104 fails for diameters that are whole numbers: an array of integers is a ValueError, and a list is a
    TypeError. *)
Theorem C104_integers_refuted : forall z l d ds f, csfd_geometric_saturation (Ints (z :: l)) = Err ValueError /\ csfd_equilibrium (Ints (z :: l)) f = Err ValueError /\
  csfd_geometric_saturation (PyList (d :: ds)) = Err TypeError.
Proof. exact (fun z l d ds f => conj eq_refl (conj eq_refl eq_refl)). Qed.
Print Assumptions C104_integers_refuted.
