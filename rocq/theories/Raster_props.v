(** C99: the raster made of a face variable. *)
From Coq Require Import Reals ZArith Lra Lia.
From Verif Require Import Common Raster_model Raster_spec Raster_proofs Raster_cases.
Import ListNotations.
Open Scope R_scope.

(** The raster of a whole surface has at least as many pixels as the surface has faces, is twice as wide
    as it is high up to one pixel, its pixels are at the equator no larger than the mean face, and its
    size does not depend on the radius. *)
Theorem C99_whole : forall n radius w h, (1 <= n)%nat -> 0 < radius -> get_raster_dims (Whole n radius) = (w, h) ->
  (Z.of_nat n <= w * h)%Z /\ (2 * h - 1 <= w <= 2 * h)%Z /\
  (2 * PI * radius / IZR w) * (PI * radius / IZR h) <= 4 * PI * radius ^ 2 / INR n /\
  (forall radius', 0 < radius' -> get_raster_dims (Whole n radius') = (w, h)).
Proof.
  exact (fun n radius w h N P E => match whole_counts n radius w h N P E with conj A (conj (conj _ B) (conj D _)) =>
    conj A (conj (conj (proj2 (Z.le_sub_le_add_r (2 * h) w 1) D) B) (conj (equator n radius w h N P E) (fun r' P' => eq_trans (whole_radius n r' radius N P' P) E))) end).
Qed.
Print Assumptions C99_whole.
Example C99_whole_case : (1 <= 320)%nat /\ 0 < 1737400. Proof. split; [lia | lra]. Qed.

(** The pixels lie side by side from the upper left corner of the extent to its lower right corner, and
    every point of the extent is in exactly one of them. *)
Theorem C99_tiles : forall a, sensible a ->
  (let '(xmin, xmax, ymin, ymax) := extent a in let '(w, h) := get_raster_dims a in corner a 0 0 = (xmin, ymax) /\ corner a h w = (xmax, ymin)) /\
  (forall x y, within a x y -> exists row col, on_raster a row col /\ inside a row col x y /\ (forall row' col', inside a row' col' x y -> row' = row /\ col' = col)).
Proof. exact (fun a H => conj (corners a H) (tiles a H)). Qed.
Print Assumptions C99_tiles.
Example C99_tiles_case : sensible patch /\ within patch 3 3.
Proof. unfold sensible, within, patch, extent. cbv zeta. lra. Qed.

(** A pixel shows the value of the last face, in the order of the mesh, that it can show; it is nan
    exactly when there is none. *)
Theorem C99_value : forall polygon (touches : polygon -> Z -> Z -> bool) a faces row col,
  match to_raster touches a faces row col with
  | Some v => exists i, candidate touches a faces row col i v /\ (forall j w, candidate touches a faces row col j w -> (j <= i)%nat)
  | None => forall i v, ~ candidate touches a faces row col i v
  end.
Proof. exact raster_values. Qed.
Print Assumptions C99_value.
Example C99_value_case : to_raster (meets patch) patch two_boxes 0 0 = Some 2. Proof. exact two_boxes_raster. Qed.

(** The pixels of a region are square and larger than the pixel size asked for by at most eight parts in
    the number of pixels.  Missing: that they have the size asked for, which is false. *)
Theorem C99_region_partial : forall r pix, 0 < r -> 0 < pix ->
  let '(xres, yres) := resolution (Region r pix) in let '(w, h) := get_raster_dims (Region r pix) in
  xres = yres /\ w = h /\ xres <= pix * (1 + 8 / IZR w).
Proof.
  exact (fun r pix A B => match region_coarse r pix A B with conj _ H => H end).
Qed.
Print Assumptions C99_region_partial.
Example C99_region_case : 0 < 4 /\ 0 < 1 /\ get_raster_dims patch = (8%Z, 8%Z). Proof. repeat split; try lra. exact patch_dims. Qed.

(** The raster of a whole surface covers all longitudes and latitudes (but the south pole itself, which is on
    its lower edge), that of a region the circle of the region. *)
Theorem C99_covers : (forall n radius lon lat, -180 <= lon < 180 -> -90 < lat <= 90 -> within (Whole n radius) lon lat) /\
  (forall r pix x y, 0 < r -> 0 < pix -> x ^ 2 + y ^ 2 <= r ^ 2 -> within (Region r pix) x y).
Proof. exact (conj whole_covers region_covers). Qed.
Print Assumptions C99_covers.
Example C99_covers_case : 3 ^ 2 + (-2) ^ 2 <= 4 ^ 2. Proof. lra. Qed.

(** The border of four pixels is added to the extent and not to the number of pixels, so the pixels of a
    region are never as small as the pixel size. *)
Theorem C99_region_size_refuted : forall r pix, 0 < r -> 0 < pix -> pix < fst (resolution (Region r pix)).
Proof. exact (fun r pix A B => proj1 (region_coarse r pix A B)). Qed.
Print Assumptions C99_region_size_refuted.
Example C99_region_size_case : 0 < 4 /\ 0 < 1. Proof. lra. Qed.

(** A pixel whose centre lies in one face can show the value of another that only touches its edge. *)
Theorem C99_shared_pixel_refuted : exists a (faces : list (face box)) row col (f g : box) v,
  on_raster a row col /\ In (mk_face (Some f) false (Some v)) faces /\
  (let '(x, y) := centre a row col in holds f x y /\ ~ holds g x y) /\
  exists w, w <> v /\ In (mk_face (Some g) false (Some w)) faces /\ to_raster (meets a) a faces row col = Some w.
Proof. exact shared_pixel. Qed.
Print Assumptions C99_shared_pixel_refuted.

(** On a whole surface, a pixel that only faces crossing the antimeridian touch shows nothing, whatever
    their values. *)
Theorem C99_antimeridian_refuted : forall polygon (touches : polygon -> Z -> Z -> bool) n radius faces row col,
  (forall f g, In f faces -> geometry f = Some g -> touches g row col = true -> crosses f = true) -> to_raster touches (Whole n radius) faces row col = None.
Proof. exact @meridian. Qed.
Print Assumptions C99_antimeridian_refuted.
Example C99_antimeridian_case : to_raster (fun (_ : unit) _ _ => true) (Whole 1 1) [mk_face (Some tt) true (Some 5)] 0 0 = None /\
  to_raster (fun (_ : unit) _ _ => true) (Region 1 1) [mk_face (Some tt) true (Some 5)] 0 0 = Some 5.
Proof. split; reflexivity. Qed.
