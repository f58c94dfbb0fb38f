(** Vocabulary of the claim about periods given as crater densities (C109). *)
From Coq Require Import Reals.
From Verif Require Import Common Prod_model Run_model Nd_model.
Open Scope R_scope.

(** The cumulative number of craters larger than [D] per square metre of a surface of age [t]. *)
Definition density (csfd chron : R -> R) (D t : R) : R := csfd D * (chron t - chron 0).
(** age_from_D_N answers as in Prod_model: a time of the valid range at which the density is the one
    given, or ValueError. *)
Definition finds_ages (csfd chron : R -> R) (tlo thi : option R) (age_of : R -> R -> result R) : Prop :=
  forall D n, age_from_D_N (density csfd chron) tlo thi D n (age_of D n).
(** A density N(D) in the units of the conversion factors means: at time [t], a surface has [N]
    craters larger than [D] units of length on each [Nconv] square metres. *)
Definition means (csfd chron : R -> R) (Dconv Nconv : R) (ND : R * R) (t : R) : Prop :=
  density csfd chron (fst ND * Dconv) t * Nconv = snd ND.

(** Only densities are given. *)
Definition by_density (ND : R * R) (NDe : option (R * R)) : request :=
  mkRequest None None None (Some ND) NDe None None.
Definition run_by_density (ND : R * R) (NDe : option (R * R)) (n : option Z) : args :=
  mkArgs None None None (Some ND) NDe None None None n.
