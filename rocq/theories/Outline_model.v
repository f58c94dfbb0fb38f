(** Model of Crater.to_geoseries (cratermaker/components/crater/__init__.py:1138-1227): the
    outline of a crater as a polygon of longitudes and latitudes in degrees.
    Simplifications: floats are reals; geod.fwd of pyproj, split and centroid of shapely are
    arguments; the checks of shapely on the number of points are left out. *)
From Coq Require Import Reals.
From Verif Require Import Common.
From Verif Require Region_model.
Import ListNotations.
Open Scope R_scope.

(** np.deg2rad *)
Definition rad (x : R) : R := x * PI / 180.
(** np.sign *)
Definition sign (x : R) : R := if Rlt_dec 0 x then 1 else if Rlt_dec x 0 then -1 else 0.
(** np.linspace(0.0, 360.0, num=n, endpoint=True): 1174. *)
Definition thetas (n : nat) : list R :=
  match n with 1%nat => [0] | _ => map (fun i => 360 * INR i / INR (n - 1)) (seq 0 n) end.
(** np.ptp *)
Definition ptp (l : list R) : R := match l with [] => 0 | x :: l => Region_model.rmax x l - Region_model.rmin x l end.
(** The polar radius of the ellipse: 1194-1196. *)
Definition polar (a b theta : R) : R :=
  (a * b) / sqrt ((b * cos (rad theta)) ^ 2 + (a * sin (rad theta)) ^ 2).

(** Python's float modulo by a positive number. *)
Definition fmod (x m : R) : R := x - m * IZR (Int_part (x / m)).

(** The sizes and the place used: 1175-1186.  [use_measured]: use_measured_properties. *)
Record ellipse := mk_ellipse { e_a : R; e_b : R; e_lon : R; e_lat : R; e_phi : R; e_radius : R }.
Definition chosen (use_measured : bool) (initial measured : ellipse) : ellipse := if use_measured then measured else initial.

(** A point of a polygon: longitude, latitude and, unless lost, height. *)
Record point := mk_point { p_lon : R; p_lat : R; p_z : option R }.
(** The polygon, or the collection of the parts it was split in. *)
Inductive shape := Whole (p : list point) | Parts (l : list (list point)).

Section Outline.
(** geod.fwd(lon, lat, bearing, distance) on the sphere of the target. *)
Variable fwd : R -> R -> R -> R -> R * R.
(** split(polygon, meridian of the given longitude) and centroid.x. *)
Variable cut : list point -> R -> list (list point).
Variable centroid : list point -> R.
(** The elevations of the faces of surface.extract_region((lon, lat), radius,
    at_least_one_face=True): 1189, never empty. *)
Variable elevations : R -> R -> R -> list R.

(** rim_height: 1190. *)
Definition top (e : ellipse) : R :=
  match elevations (e_lon e) (e_lat e) (e_radius e) with [] => 0 | x :: l => Region_model.rmax x l end.

(** poly_lon and poly_lat: 1192-1202. *)
Definition vertices (n : nat) (e : ellipse) : list (R * R) :=
  map (fun theta => fwd (e_lon e) (e_lat e) (theta + fmod (e_phi e) 360) (polar (e_a e) (e_b e) theta)) (thetas n).

(** np.where(np.sign(poly_lon) != center_sign, poly_lon + 360.0 * center_sign, poly_lon): 1206-1207. *)
Definition unwrap (lon x : R) : R := if Req_EM_T (sign x) (sign lon) then x else x + 360 * sign lon.

(** lon_flip: 1213-1215, which returns two coordinates. *)
Definition lon_flip (p : point) : point :=
  mk_point (if Rle_dec 180 (Rabs (p_lon p)) then p_lon p - 360 * sign (p_lon p) else p_lon p) (p_lat p) None.

(** 1204-1227. *)
Definition to_geoseries (n : nat) (split_antimeridian use_measured : bool) (initial measured : ellipse) : shape :=
  let e := chosen use_measured initial measured in
  let vs := vertices n e in
  let z := top e in
  if (split_antimeridian && (if Rlt_dec 180 (ptp (map fst vs)) then true else false))%bool then
    let poly := map (fun v => mk_point (unwrap (e_lon e) (fst v)) (snd v) (Some z)) vs in
    Parts (map (fun p => if Rlt_dec 180 (Rabs (centroid p)) then map lon_flip p else p)
               (cut poly (180 * sign (e_lon e))))
  else Whole (map (fun v => mk_point (fst v) (snd v) (Some z)) vs).
End Outline.
