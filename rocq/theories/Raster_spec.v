(** Vocabulary for the theorems about Raster_model. *)
From Coq Require Import Reals ZArith.
From Verif Require Import Common Raster_model.
Import ListNotations.
Open Scope R_scope.

Definition sensible (a : area) : Prop :=
  match a with Whole n radius => (1 <= n)%nat /\ 0 < radius | Region r pix => 0 < r /\ 0 < pix end.
(** The pixel in this row and column, counted from the upper left, contains the point. *)
Definition inside (a : area) (row col : Z) (x y : R) : Prop :=
  let '(xl, yt) := corner a row col in let '(xr, yb) := corner a (row + 1) (col + 1) in
  xl <= x < xr /\ yb < y <= yt.
Definition on_raster (a : area) (row col : Z) : Prop :=
  let '(w, h) := get_raster_dims a in (0 <= row < h)%Z /\ (0 <= col < w)%Z.
Definition within (a : area) (x y : R) : Prop :=
  let '(xmin, xmax, ymin, ymax) := extent a in xmin <= x < xmax /\ ymin < y <= ymax.

(** Face number i is one the raster can show in the pixel: it has a polygon that touches the pixel, a
    finite value v, and, on a whole surface, does not cross the antimeridian. *)
Definition candidate {polygon} (touches : polygon -> Z -> Z -> bool) (a : area) (faces : list (face polygon)) (row col : Z) (i : nat) (v : R) : Prop :=
  exists f g, nth_error faces i = Some f /\ geometry f = Some g /\ touches g row col = true /\ value f = Some v /\
    match a with Whole _ _ => crosses f = false | Region _ _ => True end.

(** Faces that are boxes: x from x0 to x1, y from y0 to y1. *)
Record box := mk_box { x0 : R; x1 : R; y0 : R; y1 : R }.
Definition holds (b : box) (x y : R) : Prop := x0 b < x < x1 b /\ y0 b < y < y1 b.
(** A box touches a pixel when they share a point. *)
Definition meets (a : area) (b : box) (row col : Z) : bool :=
  let '(xl, yt) := corner a row col in let '(xr, yb) := corner a (row + 1) (col + 1) in
  if Rle_dec (x0 b) xr then if Rle_dec xl (x1 b) then if Rle_dec (y0 b) yt then if Rle_dec yb (y1 b) then true else false else false else false else false.
Definition centre (a : area) (row col : Z) : R * R :=
  let '(xl, yt) := corner a row col in let '(xr, yb) := corner a (row + 1) (col + 1) in ((xl + xr) / 2, (yb + yt) / 2).
