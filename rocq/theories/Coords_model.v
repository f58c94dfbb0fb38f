(** Model of cratermaker/utils/general_utils.py: normalize_coords (210-260).
    Simplification: floats are exact rationals; NaN/inf are excluded. *)
From Coq Require Import QArith Qround.
Open Scope Q_scope.

(** Python's float modulo [x % m] for m > 0: x - m*floor(x/m). *)
Definition qmod (x m : Q) : Q := x - m * inject_Z (Qfloor (x / m)).

(** np.clip(x, lo, hi); used at general_utils.py:258. *)
Definition qclip (x lo hi : Q) : Q :=
  if Qle_bool hi x then hi else if Qle_bool x lo then lo else x.

(** general_utils.py:242-260 normalize_coords. *)
Definition normalize_coords (loc : Q * Q) : Q * Q :=
  let '(lon, lat) := loc in
  let normalized_lon := qmod (lon + 180) 360 - 180 in
  let '(normalized_lon, normalized_lat) :=
    if negb (Qle_bool lat 90) then (lon - 180, 180 - lat)
    else if negb (Qle_bool (-90) lat) then (lon - 180, -180 - lat)
    else (normalized_lon, lat) in
  (normalized_lon, qclip normalized_lat (-90) 90).
