(** C17, C18 and C58: crater scaling. *)
From Coq Require Import Reals Lra.
From Verif Require Import Common Prod_model Scaling_model Scaling_spec Scaling_proofs.
Open Scope R_scope.

(** C17: whatever the random draws, the final diameter and type returned for a transient
    diameter give that transient diameter back. *)
Theorem C17_transient_round_trip : forall s Dt u0 u1 u2 D m, built s ->
  transient_to_final s Dt u0 u1 u2 (Ok (D, m)) ->
  0 < D /\ forall u, final_to_transient s D (Some m) u = Ok (Dt, m).
Proof. exact transient_round_trip. Qed.
Print Assumptions C17_transient_round_trip.
Example C17_case : built (mc_recompute Silicate 1.62 true 0.84 0.079 0.3) /\ deterministic (ctem_recompute Ice 1.3).
Proof.
  split; [apply built_montecarlo; unfold bounded_norm; lra|]. split; [apply built_ctem; lra|reflexivity].
Qed.

(** C17: the exact domain of the conversion, which includes a window of ten decades. *)
Theorem C17_solver_domain : forall s Dt u0 u1 u2, built s -> 0 < Dt ->
  (~ solvable s Dt -> forall r, transient_to_final s Dt u0 u1 u2 r <-> r = Err ValueError) /\
  (solvable s Dt -> exists r, transient_to_final s Dt u0 u1 u2 r /\
     (forall r', transient_to_final s Dt u0 u1 u2 r' -> r' = r) /\
     (r = Err ZeroDivisionError \/ exists D m, r = Ok (D, m)) /\
     (monte_carlo s = false -> r <> Err ZeroDivisionError)).
Proof. exact t2f_total. Qed.
Print Assumptions C17_solver_domain.
Theorem C17_solver_window : forall s Dt, built s ->
  1 / 100000 * transition s <= Dt * simple_factor s <= 100000 * transition s -> solvable s Dt.
Proof. exact solvable_window. Qed.
Print Assumptions C17_solver_window.

(** C17, without Monte Carlo scaling: a final diameter is converted to a transient diameter
    that is converted back to it.  The type is the same except above twice the transition
    diameter, where it is Complex only if the simple estimate is also above it. *)
Theorem C17_final_round_trip : forall s D u Dt m, deterministic s ->
  final_to_transient s D None u = Ok (Dt, m) -> solvable s Dt ->
  forall u0 u1 u2 r, transient_to_final s Dt u0 u1 u2 r <->
    r = Ok (D, if Rlt_dec (2 * nominal s) D
               then if Rlt_dec (2 * nominal s) (Dt * simple_factor s) then Complex else Transitional else m).
Proof. exact final_round_trip. Qed.
Print Assumptions C17_final_round_trip.

(** C17: so the type does not always survive: a crater 2.04 times the transition diameter
    is complex, but is transitional after the round trip. *)
Theorem C17_type_round_trip_refuted : forall s, deterministic s -> exists Dt, forall u u0 u1 u2,
  final_to_transient s (2.04 * nominal s) None u = Ok (Dt, Complex) /\
  transient_to_final s Dt u0 u1 u2 (Ok (2.04 * nominal s, Transitional)).
Proof. exact type_changes. Qed.
Print Assumptions C17_type_round_trip_refuted.

(** C17: conversions are increasing, and final craters are larger than transient ones. *)
Theorem C17_increasing : forall s D D' u u' Dt Dt' m m', deterministic s -> D < D' ->
  final_to_transient s D None u = Ok (Dt, m) -> final_to_transient s D' None u' = Ok (Dt', m') -> Dt < Dt'.
Proof. exact f2t_increasing. Qed.
Print Assumptions C17_increasing.
Theorem C17_final_larger : forall s Dt u0 u1 u2 D m, deterministic s ->
  transient_to_final s Dt u0 u1 u2 (Ok (D, m)) -> Dt < D.
Proof. exact final_larger. Qed.
Print Assumptions C17_final_larger.

(** C18: the morphology type as a function of the diameter and of the uniform draw: with
    Monte Carlo scaling its probabilities are continuous, piecewise linear functions of the
    diameter; without, the transitional range is half to twice the nominal diameter. *)
Theorem C18_morphology_law : forall s D u, built s -> 0 < D -> 0 <= u < 1 ->
  (monte_carlo s = true ->
    (get_morphology_type s D u = Ok Simple <-> u < clip01 (2 * (nominal s - D) / nominal s)) /\
    (get_morphology_type s D u = Ok Complex <-> u < clip01 ((D - nominal s) / nominal s)) /\
    (get_morphology_type s D u = Ok Transitional <->
       clip01 (2 * (nominal s - D) / nominal s) + clip01 ((D - nominal s) / nominal s) <= u)) /\
  (monte_carlo s = false ->
    (get_morphology_type s D u = Ok Simple <-> D < nominal s / 2) /\
    (get_morphology_type s D u = Ok Complex <-> 2 * nominal s < D) /\
    (get_morphology_type s D u = Ok Transitional <-> nominal s / 2 <= D <= 2 * nominal s)).
Proof. exact morphology_law. Qed.
Print Assumptions C18_morphology_law.
Theorem C18_invalid_diameter : forall s D u, get_morphology_type s D u = Err ValueError <-> D <= 0.
Proof. exact morph_invalid. Qed.
Print Assumptions C18_invalid_diameter.

(** C18: the type that transient_to_final reports is not always the type of the diameter
    that it reports: for every deterministic scaling there is a transient diameter whose
    final crater is reported as simple although its diameter is transitional, and whose
    diameter alone is converted back to a larger transient diameter. *)
Theorem C18_reported_type_refuted : forall s, deterministic s -> exists Dt, 0 < Dt /\ forall u0 u1 u2,
  transient_to_final s Dt u0 u1 u2 (Ok (nominal s / 2, Simple)) /\
  (forall u, get_morphology_type s (nominal s / 2) u = Ok Transitional) /\
  (forall u, exists Dt', final_to_transient s (nominal s / 2) None u = Ok (Dt', Transitional) /\ Dt < Dt').
Proof. exact reported_type_window. Qed.
Print Assumptions C18_reported_type_refuted.

(** C58: a larger projectile makes a larger transient crater, never smaller than itself. *)
Theorem C58_projectile_increasing : forall i, good_impact i ->
  (forall d, 0 < d -> exists x, projectile_to_transient i d = Ok x /\ d <= x) /\
  (forall d d' x x', 0 < d -> d < d' ->
     projectile_to_transient i d = Ok x -> projectile_to_transient i d' = Ok x' -> x < x').
Proof. exact p2t_laws. Qed.
Print Assumptions C58_projectile_increasing.
Example C58_case : good_impact {| K1 := 0.2; mu := 0.55; Ybar := 7600000; gravity := 1.62; target_density := 2250;
                                  projectile_density := 2250; vertical_velocity := 15000 |}.
Proof. unfold good_impact; simpl; repeat split; lra. Qed.

(** C58: the projectile computed for a transient crater makes that crater, and the
    projectile that made a crater is found again unless it is 100 000 times smaller. *)
Theorem C58_projectile_round_trip : forall i Dt d, good_impact i ->
  transient_to_projectile i Dt (Ok d) -> 0 < d /\ projectile_to_transient i d = Ok Dt.
Proof. exact projectile_round_trip. Qed.
Print Assumptions C58_projectile_round_trip.
Theorem C58_projectile_inverse : forall i d Dt, good_impact i -> 0 < d -> projectile_to_transient i d = Ok Dt ->
  (1 / 100000 * Dt <= d -> forall r, transient_to_projectile i Dt r <-> r = Ok d) /\
  (d < 1 / 100000 * Dt -> forall r, transient_to_projectile i Dt r <-> r = Err ValueError).
Proof. exact projectile_inverse. Qed.
Print Assumptions C58_projectile_inverse.
