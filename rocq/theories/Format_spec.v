(** Vocabulary of the claim about printed quantities (C107). *)
From Coq Require Import Reals List ZArith.
From Verif Require Import Common Format_model.
Import ListNotations.
Open Scope string_scope.
Open Scope R_scope.

(** What the units mean, in metres, square metres, cubic metres, metres per second, millions of
    years and pascals. *)
Definition unit_size (unit : string) : option R :=
  if String.eqb unit "m" then Some 1 else if String.eqb unit "km" then Some 1000
  else if String.eqb unit "m²" then Some 1 else if String.eqb unit "km²" then Some (1000 * 1000)
  else if String.eqb unit "m³" then Some 1 else if String.eqb unit "km³" then Some (1000 * 1000 * 1000)
  else if String.eqb unit "m/s" then Some 1 else if String.eqb unit "km/s" then Some 1000
  else if String.eqb unit "My" then Some 1 else if String.eqb unit "Gy" then Some 1000
  else if String.eqb unit "Pa" then Some 1 else if String.eqb unit "kPa" then Some 1000
  else if String.eqb unit "MPa" then Some (1000 * 1000) else if String.eqb unit "GPa" then Some (1000 * 1000 * 1000)
  else None.
Definition quantities : list string := ["length"; "area"; "volume"; "velocity"; "time"; "pressure"]%string.
(** The units of a quantity, from small to large. *)
Definition scale (quantity : string) : list string :=
  if String.eqb quantity "length" then ["m"; "km"]
  else if String.eqb quantity "area" then ["m²"; "km²"]
  else if String.eqb quantity "volume" then ["m³"; "km³"]
  else if String.eqb quantity "velocity" then ["m/s"; "km/s"]
  else if String.eqb quantity "time" then ["My"; "Gy"]
  else if String.eqb quantity "pressure" then ["Pa"; "kPa"; "MPa"; "GPa"] else [].

(** The printed text denotes this amount. *)
Definition denotes (t : text) (x : R) : Prop :=
  exists number unit size, t = Shown number unit /\ unit_size unit = Some size /\ x = number * size.
(** The largest unit of which the value is at least one, or the smallest unit. *)
Definition best_unit (quantity : string) (value : R) (unit : string) : Prop :=
  In unit (scale quantity) /\ exists size, unit_size unit = Some size /\
    (forall u s, In u (scale quantity) -> unit_size u = Some s -> s <= Rabs value -> s <= size) /\
    (size <= Rabs value \/ forall u s, In u (scale quantity) -> unit_size u = Some s -> size <= s).
(** A decimal number with so many decimals. *)
Definition has_decimals (d : Z) (x : R) : Prop := exists n, x = IZR n / powerRZ 10 d.
