(** Vocabulary for the theorems about Csfd_model. *)
From Coq Require Import Reals.
From Verif Require Import Common Prod_model Csfd_model.
Import ListNotations.
Open Scope R_scope.

(** The number of craters per area and diameter that the R-plot value stands for. *)
Definition density (f : R -> R) (D : R) : R := f D / D ^ 3.
(** The call with an R-plot [f] and a limit ends and answers [n] for diameter [D]. *)
Definition counts (f : R -> R) (lim D n : R) : Prop := exists fuel, R_to_CSFD f lim fuel D = Some n.
Definition array_counts (f : R -> R) (lim : R) (ds : list R) (a : result (list R)) : Prop := exists fuel, R_to_CSFD_array f lim fuel ds = Some a.
(** The call does not end. *)
Definition endless (f : R -> R) (lim D : R) : Prop := forall fuel, R_to_CSFD f lim fuel D = None.
(** Where the last bin ends: the first of D, D√2, 2D, ... that is not below the limit. *)
Definition last_edge (lim D e : R) : Prop :=
  exists k, e = D * sqrt 2 ^ k /\ lim <= e /\ forall i, (i < k)%nat -> D * sqrt 2 ^ i < lim.
(** [C] is the number of craters larger than a diameter: its rate of change is minus the density. *)
Definition cumulative (f C : R -> R) : Prop := forall D, 0 < D -> derivable_pt_lim C D (- density f D).
Definition decreasing_on (g : R -> R) : Prop := forall a b, 0 < a <= b -> g b <= g a.
(** Midpoint convexity around every diameter. *)
Definition convex (g : R -> R) : Prop := forall m h, 0 <= h < m -> 2 * g m <= g (m - h) + g (m + h).
(** A power law. *)
Definition power (c p D : R) : R := c * Rpower D p.
