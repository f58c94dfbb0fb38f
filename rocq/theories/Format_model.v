(** Model of cratermaker/utils/general_utils.py:348-411, format_large_units: how sizes, areas,
    velocities, times and pressures are printed.
    Simplifications: f64 is idealised as R, without infinities and NaN; a printed number is the
    number its digits denote (trailing zeros and the exponent notation of the g format are
    not distinguished). *)
From Coq Require Import Reals List ZArith.
From Verif Require Import Common.
Import ListNotations.
Open Scope string_scope.
Open Scope R_scope.

(** The rounding of Python's format: to nearest, ties to even. *)
Definition half_even (x : R) : Z :=
  let n := Int_part x in
  let f := x - IZR n in
  if Rlt_dec f (1 / 2) then n else if Rlt_dec (1 / 2) f then (n + 1)%Z else if Z.even n then n else (n + 1)%Z.
(** A number on the grid of step g. *)
Definition on_grid (g x : R) : R := IZR (half_even (x / g)) * g.
(** "{:.df}" *)
Definition fixed (d : Z) (x : R) : R := on_grid (powerRZ 10 (- d)) x.
(** "{:.4g}": four significant digits. *)
Definition significant (x : R) : R :=
  if Req_EM_T x 0 then 0 else on_grid (powerRZ 10 (Int_part (ln (Rabs x) / ln 10) - 3)) x.

(** 374-391: units and threshold. *)
Definition units_of (quantity : string) : option (string * list string * R) :=
  if String.eqb quantity "length" then Some ("m", ["km"], 1000)
  else if String.eqb quantity "area" then Some ("m²", ["km²"], 1000000)
  else if String.eqb quantity "volume" then Some ("m³", ["km³"], 1000000000)
  else if String.eqb quantity "velocity" then Some ("m/s", ["km/s"], 1000)
  else if String.eqb quantity "time" then Some ("My", ["Gy"], 1000)
  else if String.eqb quantity "pressure" then Some ("Pa", ["kPa"; "MPa"; "GPa"], 1000)
  else None.
(** 396-399: the loop over the units; [rest] are the units that follow. *)
Fixpoint shift (threshold value : R) (unit : string) (rest : list string) : R * string :=
  match rest with
  | [] => (value, unit)
  | next :: rest => if Rle_dec threshold (Rabs value) then shift threshold (value / threshold) next rest else (value, unit)
  end.
(** 401-408: the number of digits. *)
Definition digits (value : R) : R :=
  if Rle_dec 100 (Rabs value) then fixed 1 value
  else if Rle_dec 10 (Rabs value) then fixed 2 value
  else if Rle_dec 1 (Rabs value) then fixed 3 value
  else significant value.

Inductive text := NotAvailable | Shown (number : R) (unit : string).
(** format_large_units: 348-409.  Of an unknown quantity [units] is not bound. *)
Definition format_large_units (value : option R) (quantity : string) : result text :=
  match value with
  | None => Ok NotAvailable
  | Some value =>
      match units_of quantity with
      | None => Err UnboundLocalError
      | Some (unit, rest, threshold) =>
          let '(value, unit) := shift threshold value unit rest in
          Ok (Shown (digits value) unit)
      end
  end.
