(** Vocabulary of the claim about the shapes of lunar craters (C102). *)
From Coq Require Import Reals.
From Verif Require Import Common Crater_model Lunar_model.
Open Scope R_scope.

Definition bowl (mt : string) : Prop := mt = "simple"%string \/ mt = "transitional"%string.
Definition floored (mt : string) : Prop := mt = "complex"%string \/ mt = "peakring"%string \/ mt = "multiring"%string.

(** The published morphometry of lunar craters, with a diameter in metres: coefficient and
    exponent, in kilometres, of each length. *)
Definition law (c e d : R) : R := c * Rpower (d / 1000) e * 1000.
Inductive standard_value (mt : string) (d : R) : string -> value -> Prop :=
| bowl_rim : bowl mt -> standard_value mt d "rim_height" (VNum (law (43 / 1000) (1014 / 1000) d))
| bowl_width : bowl mt -> standard_value mt d "rim_width" (VNum (law (257 / 1000) (1011 / 1000) d))
| bowl_depth : bowl mt -> standard_value mt d "floor_depth" (VNum (- law (224 / 1000) (1010 / 1000) d))
| bowl_floor : bowl mt -> standard_value mt d "floor_diameter" (VNum (law (200 / 1000) (1143 / 1000) d))
| bowl_peak : bowl mt -> standard_value mt d "peak_height" VNone
| floored_rim : floored mt -> standard_value mt d "rim_height" (VNum (law (236 / 1000) (399 / 1000) d))
| floored_width : floored mt -> standard_value mt d "rim_width" (VNum (law (467 / 1000) (836 / 1000) d))
| floored_depth : floored mt -> standard_value mt d "floor_depth" (VNum (- law (1044 / 1000) (301 / 1000) d))
| floored_floor : floored mt ->
    standard_value mt d "floor_diameter" (VNum (Rmin (law (187 / 1000) (1249 / 1000) d) (9 / 10 * d)))
| floored_peak : floored mt -> standard_value mt d "peak_height" (VNum (law (32 / 1000) (9 / 10) d))
| any_ejecta : bowl mt \/ floored mt ->
    standard_value mt d "ejrim" (VNum (14 / 100 * Rpower (d / 2) (74 / 100))).

(** The six attributes of the shape. *)
Definition of_shape (k : string) : Prop :=
  In k ["rim_height"; "rim_width"; "floor_depth"; "floor_diameter"; "peak_height"; "ejrim"]%string.

(** The keywords Crater.maker assembles hold no attribute of the shape, and always the
    morphology type (crater/__init__.py:846-858 and 1117-1135). *)
Definition plain_core (core : option dict -> dict -> result (dict * bool)) : Prop :=
  forall old kw args popped, core old kw = Ok (args, popped) ->
    has "morphology_type" args = true /\ forall k, of_shape k -> has k args = false.
