(** C128: densities are read in the units chosen for a production function. *)
From Coq Require Import List Reals.
From Verif Require Import Common Units_model Units_spec Units_proofs.
Import ListNotations.
Open Scope R_scope.

(** After every history of assignments, accepted or not, and of craters given, the units reported are
    known ones and agree with the factors. *)
Theorem C128_units : forall csfd age l N D p es, init csfd age l N D = Ok p ->
  exists a m, reports (history csfd age p es) a m
    /\ N_conversion_factor (history csfd age p es) = a /\ D_conversion_factor (history csfd age p es) = m.
Proof. exact units. Qed.
Print Assumptions C128_units.
Example C128_units_ex : forall csfd age, exists p, init csfd age [mk_dated 1 2] (Some 1000000) (Some 1) = Ok p /\ reports p 1000000 1.
Proof. exact init_ex. Qed.

(** The factors accepted are exactly 1, a million and a million million for areas and 1 and a thousand
    for diameters; None is the last of each; assigning one leaves the other. *)
Theorem C128_assigned : forall p x,
  (In x [1; 1000000; 1000000000000] -> exists q, set_N p (Some x) = Ok q /\ N_conversion_factor q = x /\ D_conversion_factor q = D_conversion_factor p)
  /\ (~ In x [1; 1000000; 1000000000000] -> set_N p (Some x) = Err ValueError)
  /\ (In x [1; 1000] -> exists q, set_D p (Some x) = Ok q /\ D_conversion_factor q = x /\ N_conversion_factor q = N_conversion_factor p)
  /\ (~ In x [1; 1000] -> set_D p (Some x) = Err ValueError)
  /\ set_N p None = set_N p (Some 1000000000000) /\ set_D p None = set_D p (Some 1000).
Proof. exact assigned. Qed.
Print Assumptions C128_assigned.
Example C128_assigned_ex : In 1000000 [1; 1000000; 1000000000000].
Proof. exact (or_intror (or_introl eq_refl)). Qed.

(** Craters given after construction are dated by their densities in the unit of area then reported, when
    the unit of diameters reported is the kilometre.
    Missing: diameters in metres (C128_metres_refuted), craters given at construction (C128_construct_refuted). *)
Theorem C128_later_partial : forall csfd age l N D p es, init csfd age l N D = Ok p ->
  forall a, reports (history csfd age p es) a 1000 ->
  forall cs, Forall2 (fun c q => fst q = c /\ dates csfd age a 1000 c (snd q)) cs (given (history csfd age p (es ++ [Give cs]))).
Proof. intros csfd age l N D p es. exact (later csfd age l N D p es 1000). Qed.
Print Assumptions C128_later_partial.
Example C128_later_partial_ex : forall csfd age, exists p, init csfd age [mk_dated 1 2] None None = Ok p /\ reports p 1000000000000 1000.
Proof. exact default_ex. Qed.

(** When the unit of diameters reported is the metre, the diameters of craters given are nevertheless read
    in kilometres, and this gives them other times. *)
Theorem C128_metres_refuted :
  (forall csfd age l N D p es, init csfd age l N D = Ok p -> forall a, reports (history csfd age p es) a 1 ->
     forall cs, Forall2 (fun c q => fst q = c /\ dates csfd age a 1000 c (snd q)) cs (given (history csfd age p (es ++ [Give cs]))))
  /\ (exists csfd age c, (forall x, 0 < x -> 0 < csfd x) /\
       exists t t', dates csfd age 1 1000 c t /\ dates csfd age 1 1 c t' /\ t <> t').
Proof. exact (conj (fun csfd age l N D p es => later csfd age l N D p es 1) metres_differ). Qed.
Print Assumptions C128_metres_refuted.
Example C128_metres_refuted_ex : forall csfd age, exists p, init csfd age [mk_dated 1 2] (Some 1000000) (Some 1) = Ok p /\ reports p 1000000 1.
Proof. exact init_ex. Qed.

(** Craters given at construction are dated before the units given with them are set: whatever units are
    chosen then or assigned later, their densities are read per million square kilometres and their
    diameters in kilometres. *)
Theorem C128_construct_refuted :
  (forall csfd age l N D p es, init csfd age l N D = Ok p -> Forall assigns es ->
     Forall2 (fun c q => fst q = c /\ dates csfd age 1000000000000 1000 c (snd q)) l (given (history csfd age p es)))
  /\ (exists csfd age c, (forall x, 0 < x -> 0 < csfd x) /\
       exists t t', dates csfd age 1000000000000 1000 c t /\ dates csfd age 1 1000 c t' /\ t <> t').
Proof. exact (conj stays area_differ). Qed.
Print Assumptions C128_construct_refuted.
Example C128_construct_refuted_ex : (forall csfd age, exists p, init csfd age [mk_dated 1 2] (Some 1000000) (Some 1) = Ok p /\ reports p 1000000 1)
  /\ Forall assigns [SetN (Some 1); SetD None].
Proof. exact (conj init_ex two_assigned). Qed.
