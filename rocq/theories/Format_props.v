(** C107: a printed quantity is the quantity, to four digits, in the fitting unit. *)
From Coq Require Import Reals List ZArith.
From Verif Require Import Common Format_model Format_spec Format_proofs.
Import ListNotations.
Open Scope string_scope.
Open Scope R_scope.

(** Every value of every known quantity is printed, and the printed number in the printed unit
    differs from the value by at most one part in two thousand. *)
Theorem C107_accurate : forall quantity v, In quantity quantities ->
  exists t x, format_large_units (Some v) quantity = Ok t /\ denotes t x /\ Rabs (x - v) <= Rabs v * (5 / 10000).
Proof. exact format_accurate. Qed.
Print Assumptions C107_accurate.

Example C107_accurate_case : format_large_units (Some 1500) "length" = Ok (Shown (1500 / 1000) "km") /\
  format_large_units (Some 3920) "time" = Ok (Shown (3920 / 1000) "Gy").
Proof. exact format_doc. Qed.

(** The unit is the largest of which there is at least one, or else the smallest. *)
Theorem C107_unit : forall quantity v n u, In quantity quantities ->
  format_large_units (Some v) quantity = Ok (Shown n u) -> best_unit quantity v u.
Proof. exact format_unit. Qed.
Print Assumptions C107_unit.

Example C107_unit_case : In "time" quantities /\ exists n, format_large_units (Some 3920) "time" = Ok (Shown n "Gy").
Proof. exact (conj (or_intror (or_intror (or_intror (or_intror (or_introl eq_refl))))) (ex_intro _ _ (proj2 format_doc))). Qed.

(** What is printed for a larger value is never less. *)
Theorem C107_monotone : forall quantity v w tv tw x y, In quantity quantities -> v <= w ->
  format_large_units (Some v) quantity = Ok tv -> format_large_units (Some w) quantity = Ok tw ->
  denotes tv x -> denotes tw y -> x <= y.
Proof. exact format_monotone. Qed.
Print Assumptions C107_monotone.

Example C107_monotone_case : exists tv tw, format_large_units (Some (99996 / 100)) "length" = Ok tv /\ format_large_units (Some 1500) "length" = Ok tw.
Proof. exact (ex_intro _ _ (ex_intro _ _ (conj format_carry (proj1 format_doc)))). Qed.

(** The number has one, two or three decimals from 100, 10 and 1 on, and four significant
    digits below. *)
Theorem C107_digits : forall quantity v n u s, In quantity quantities ->
  format_large_units (Some v) quantity = Ok (Shown n u) -> unit_size u = Some s ->
  (100 <= Rabs v / s -> has_decimals 1 n) /\ (10 <= Rabs v / s < 100 -> has_decimals 2 n) /\ (1 <= Rabs v / s < 10 -> has_decimals 3 n) /\
  (forall e, powerRZ 10 e <= Rabs v / s < 1 -> Rabs v / s < powerRZ 10 (e + 1) -> has_decimals (3 - e) n).
Proof. exact format_digits. Qed.
Print Assumptions C107_digits.

Example C107_digits_case : exists n, format_large_units (Some (99996 / 100)) "length" = Ok (Shown n "m") /\ unit_size "m" = Some 1.
Proof. exact (ex_intro _ _ (conj format_carry eq_refl)). Qed.

(** The opposite value is printed with the opposite sign. *)
Theorem C107_sign : forall quantity v n u,
  format_large_units (Some v) quantity = Ok (Shown n u) -> format_large_units (Some (- v)) quantity = Ok (Shown (- n) u).
Proof. exact format_sign. Qed.
Print Assumptions C107_sign.

Example C107_sign_case : exists n, format_large_units (Some (99996 / 100)) "length" = Ok (Shown n "m").
Proof. exact (ex_intro _ _ format_carry). Qed.

(** No value is printed as such, whatever the quantity. *)
Theorem C107_none : forall quantity, format_large_units None quantity = Ok NotAvailable.
Proof. exact (fun quantity => eq_refl). Qed.
Print Assumptions C107_none.

(** The unit is chosen before the number is rounded: a value just below one kilometre is
    printed as 1000.0 m, so that equal printed amounts may have different units. *)
Theorem C107_carry_refuted : format_large_units (Some (99996 / 100)) "length" = Ok (Shown 1000 "m").
Proof. exact format_carry. Qed.
Print Assumptions C107_carry_refuted.

(** A quantity that is not known is not refused as a wrong argument but ends in an unbound
    variable. *)
Theorem C107_unknown_refuted : forall v quantity, ~ In quantity quantities -> format_large_units (Some v) quantity = Err UnboundLocalError.
Proof. exact format_other. Qed.
Print Assumptions C107_unknown_refuted.

Example C107_unknown_case : format_large_units (Some 1) "mass" = Err UnboundLocalError.
Proof. exact eq_refl. Qed.
