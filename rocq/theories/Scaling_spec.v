(** Vocabulary for C17 and C18. *)
From Coq Require Import Reals.
From Verif Require Import Common Prod_model Scaling_model.
Open Scope R_scope.

(** A scaling object as its constructor leaves it: any of the two models, any target with
    positive gravity, any outcome of the random draws. *)
Inductive built : scaling -> Prop :=
| built_montecarlo st g mc b1 b2 z : 0 < g ->
    bounded_norm 0.84 0.04 b1 -> bounded_norm 0.079 0.0001 b2 -> built (mc_recompute st g mc b1 b2 z)
| built_ctem st g : 0 < g -> built (ctem_recompute st g).
Definition deterministic (s : scaling) : Prop := built s /\ monte_carlo s = false.

(** Transient diameters for which the two bracket ends enclose the complex final diameter;
    the middle term is ((simple final diameter) / (transition diameter)) ** final_exp. *)
Definition solvable (s : scaling) (Dt : R) : Prop :=
  Rpower (1 / 10) (1 - final_exp s) / complex_factor s
    <= Rpower (Dt * simple_factor s / transition s) (final_exp s)
    <= Rpower 10 (1 - final_exp s) / complex_factor s.

(** Clip to [0, 1]. *)
Definition clip01 (x : R) : R := Rmax 0 (Rmin 1 x).

(** Impact conditions that the setters of the scaling, target and projectile accept,
    with positive densities and a non-zero vertical velocity. *)
Definition good_impact (i : impact) : Prop :=
  0 <= K1 i /\ 0 <= mu i /\ 0 <= Ybar i /\ 0 < gravity i /\ 0 < target_density i /\
  0 < projectile_density i /\ vertical_velocity i <> 0.
