(** Rasterising a face variable: get_raster_dims and to_raster (components/surface/__init__.py). *)
From Coq Require Import Reals ZArith.
From Verif Require Import Common.
Import ListNotations.
Open Scope R_scope.

(** int(np.ceil(x)). *)
Definition ceil (x : R) : Z := (- Int_part (- x))%Z.

(** What the raster is made of: the whole surface, with its number of faces and its radius, or a region
    with its radius and pixel size. *)
Inductive area := Whole (n_face : nat) (radius : R) | Region (region_radius pix : R).

(** deg_per_pix: 3165-3169. *)
Definition deg_per_pix (n : nat) (radius : R) : R := 180 * sqrt (4 * PI * radius ^ 2 / INR n) / (PI * radius).

(** get_raster_dims: 3150-3182; width, height. *)
Definition get_raster_dims (a : area) : Z * Z :=
  match a with
  | Whole n radius => let res := deg_per_pix n radius in (ceil ((180 - -180) / res), ceil ((90 - -90) / res))
  | Region r pix => let w := Z.max 1 (ceil (2 * r / pix)) in (w, w)
  end.

(** The extent (xmin, xmax, ymin, ymax): 3109-3127. *)
Definition extent (a : area) : R * R * R * R :=
  match a with
  | Whole _ _ => (-180, 180, -90, 90)
  | Region r pix => let b := r + 4 * pix in (- b, b, - b, b)
  end.
(** The size of a pixel along each axis, as the transform has it: 3117 (from_bounds) and 3128-3130. *)
Definition resolution (a : area) : R * R :=
  let '(w, h) := get_raster_dims a in
  let '(xmin, xmax, ymin, ymax) := extent a in
  match a with
  | Whole _ _ => ((xmax - xmin) / IZR w, (ymax - ymin) / IZR h)
  | Region r pix => (2 * (r + 4 * pix) / IZR w, 2 * (r + 4 * pix) / IZR w)
  end.
(** The transform: the coordinates of the upper left corner of a pixel. *)
Definition corner (a : area) (row col : Z) : R * R :=
  let '(xmin, xmax, ymin, ymax) := extent a in
  let '(xres, yres) := resolution a in
  (xmin + IZR col * xres, ymax - IZR row * yres).

Section Values.
(** The polygon of a face in the coordinates of the raster, and whether it touches a pixel. *)
Variable polygon : Type.
Variable touches : polygon -> Z -> Z -> bool.
(** A face: its polygon unless there is none or it is empty, whether it crosses the antimeridian, and
    its value unless that is not finite. *)
Record face := mk_face { geometry : option polygon; crosses : bool; value : option R }.

(** The rows of the data frame, "periodic_elements" being excluded from a whole surface: 3108 and
    3119; then shapes: 3132-3138. *)
Definition frame (a : area) (faces : list face) : list face :=
  match a with Whole _ _ => filter (fun f => negb (crosses f)) faces | Region _ _ => faces end.
Fixpoint shapes (l : list face) : list (polygon * R) :=
  match l with
  | [] => []
  | f :: r => match geometry f, value f with Some g, Some v => (g, v) :: shapes r | _, _ => shapes r end
  end.
(** rasterize(..., fill=nan, all_touched=True): 3141-3148; a later shape is burned over an earlier
    one.  None is nan. *)
Definition burn (l : list (polygon * R)) (row col : Z) : option R :=
  fold_left (fun acc s => if touches (fst s) row col then Some (snd s) else acc) l None.
Definition to_raster (a : area) (faces : list face) (row col : Z) : option R := burn (shapes (frame a faces)) row col.
End Values.
Arguments mk_face {polygon}. Arguments geometry {polygon}. Arguments crosses {polygon}. Arguments value {polygon}.
Arguments frame {polygon}. Arguments shapes {polygon}. Arguments burn {polygon}. Arguments to_raster {polygon}.
