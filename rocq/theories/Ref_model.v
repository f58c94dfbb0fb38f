(** Model of the reference surface of a region, the removal of its mean slope and the shape of a
    crater on given terrain: components/surface/__init__.py get_reference_surface 2566-2642,
    set_face_proj and set_node_proj 4490-4506, compute_desloped_face_elevation 4533-4538;
    components/morphology/basicmoon.py crater_shape 272-303.
    Floats are idealised to reals; [lstsq] stands for numpy.linalg.lstsq with the columns x, y, 1.
    The region has a location, so that distances and bearings exist. *)
From Coq Require Import Reals List Bool Arith.
From Verif Require Import Common Profile_model.
Import ListNotations.
Open Scope R_scope.

(** A face or node of the region: distance and bearing (degrees) from its centre, elevation. *)
Record point := mkPoint { p_dist : R; p_bear : R; p_elev : R }.
(** surface/__init__.py:4490-4506 *)
Definition radians (d : R) : R := d * (PI / 180).
Definition proj_x (p : point) : R := p_dist p * sin (radians (p_bear p)).
Definition proj_y (p : point) : R := p_dist p * cos (radians (p_bear p)).

Definition solver := list (R * R * R) -> R * R * R.
(** surface/__init__.py:2604-2605: coeffs[0] * x + coeffs[1] * y + coeffs[2] *)
Definition plane (c : R * R * R) (x y : R) : R := fst (fst c) * x + snd (fst c) * y + snd c.
(** surface/__init__.py:2612, 2619 *)
Definition within (radius : R) (p : point) : bool := if Rle_dec (p_dist p) radius then true else false.
Definition coords (p : point) : R * R * R := (proj_x p, proj_y p, p_elev p).

(** surface/__init__.py:2566-2642 get_reference_surface, for a given reference radius *)
Definition reference (lstsq : solver) (radius : R) (only_faces : bool) (faces nodes : list point) : list R :=
  let pts := if only_faces then faces else (faces ++ nodes)%list in
  let near := filter (within radius) pts in
  if negb only_faces && negb (existsb (within radius) nodes) then map p_elev pts
  else if Nat.ltb (List.length near) 5 then map p_elev pts
  else
    let c := lstsq (map coords near) in
    map (fun p => if within radius p then plane c (proj_x p) (proj_y p) else p_elev p) pts.

(** surface/__init__.py:4533-4538, for an empty cache; the region radius is the reference radius *)
Definition desloped (lstsq : solver) (region_radius : R) (faces : list point) : list R :=
  map (fun e => fst e - snd e) (combine (map p_elev faces) (reference lstsq region_radius true faces [])).

(** basicmoon.py:272-303 crater_shape, with crater.radius = diameter / 2; the profile is that of
    Profile_model. *)
Definition crater_shape (lstsq : solver) (s : shape) (faces nodes : list point) : result (list R) :=
  let ref := reference lstsq (diameter s / 2) false faces nodes in
  let distance := map p_dist (faces ++ nodes)%list in
  rbind (crater_profile s (combine distance ref)) (fun new =>
    Ok (map (fun e => fst e - snd e) (combine new (map p_elev (faces ++ nodes)%list)))).
(** The elevations after the change has been added to them (update_elevation). *)
Definition after_crater (lstsq : solver) (s : shape) (faces nodes : list point) : result (list R) :=
  rbind (crater_shape lstsq s faces nodes) (fun dz =>
    Ok (map (fun e => fst e + snd e) (combine (map p_elev (faces ++ nodes)%list) dz))).
