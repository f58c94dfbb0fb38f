(** Specification vocabulary for C14-C16 and C55-C57. *)
From Coq Require Import Reals QArith Qreals List.
From Verif Require Import Prod_model Common.
Import ListNotations.
Open Scope R_scope.

Definition decreasing_on_pos (f : R -> R) : Prop := forall a b, 0 < a < b -> f b < f a.

(** production.function of the Neukum model with validated arguments
    (neukum.py:114-124): csfd(diameter) * chronology, with the coefficients of [v]. *)
Definition chron_of (v : version) (t : R) : R := N1km (Cexp_of (Clin_of v) v) (Clin_of v) t.
Definition neukum_number (v : version) (D ts te n : R) : Prop :=
  exists c, csfd v D (Ok c) /\ n = c * (chron_of v ts - chron_of v te).

(** The crater versions, whose csfd is defined without a loop. *)
Definition crater_csfd (v : version) (D : R) : R := CSFD v (D / 1000) * 1000.

(** The standard form of the Neukum production function (Ivanov et al. 2001): the number
    of craters larger than 1 km per m2 at age t is the chronology polynomial of eq. 5. *)
Definition standard_N1 (v : version) (t : R) : R := chron_of v t.

(** Slope of the size distribution in log-log coordinates at the diameter Dkm. *)
Definition loglog_slope (f : R -> R) (Dkm s : R) : Prop :=
  derivable_pt_lim (fun x => log10 (f (Rpower 10 x))) (log10 Dkm) s.

(** Histories of the Neukum object: reads of coefficients, and the version selected last. *)
Definition is_read (o : neukum_op) : bool := match o with SetVersion _ => false | _ => true end.
Fixpoint last_version (v : version) (l : list neukum_op) : version :=
  match l with [] => v | SetVersion w :: r => last_version w r | _ :: r => last_version v r end.

