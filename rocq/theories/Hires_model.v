(** Model of the mesh of a high resolution local surface:
    cratermaker/components/surface/hireslocal.py: the constructor (56-87), superdomain_function
    (122-143), set_superdomain (425-494), _rotate_point_cloud (512-558),
    _generate_face_distribution (560-648), the parameters (749-828).
    Simplifications: floats are reals; the rounding and sorting of the points (641-645) is left
    out; loops take fuel, [None] means that it ran out; the reach of ejecta (morphology.rmax of a
    crater made from a diameter) and scipy's curve_fit are arguments; longitudes and latitudes of
    the local region are radians. *)
From Coq Require Import Reals.
From Verif Require Import Common.
Open Scope R_scope.

Record hires := mk_h { h_radius : R; h_pix : R; h_local : R; h_factor : option R; h_slope : option R; h_exp : option R }.

(* ------------------------------ parameters ------------------------------ *)
(** pix setter: 756-760 *)
Definition set_pix (v : R) (h : hires) : result hires :=
  if Rle_dec v 0 then Err TypeError else Ok (mk_h (h_radius h) v (h_local h) (h_factor h) (h_slope h) (h_exp h)).
(** local_radius setter: 769-777 *)
Definition set_local (v : R) (h : hires) : result hires :=
  if Rle_dec v 0 then Err TypeError
  else if Rlt_dec (PI * h_radius h) v then Err ValueError
  else if Rlt_dec v (h_pix h) then Err ValueError
  else Ok (mk_h (h_radius h) (h_pix h) v (h_factor h) (h_slope h) (h_exp h)).
(** superdomain_scale_factor setter: 824-828 *)
Definition set_factor (v : R) (h : hires) : result hires :=
  if Rlt_dec v 1 then Err TypeError else Ok (mk_h (h_radius h) (h_pix h) (h_local h) (Some v) (h_slope h) (h_exp h)).
(** __init__ with an explicit factor: 68-87 *)
Definition make (radius pix loc factor : R) : result hires :=
  rbind (set_pix pix (mk_h radius 0 0 None None None)) (fun h => rbind (set_local loc h) (set_factor factor)).
(** superdomain_function_slope: 799-807, computed once and kept; None * float is a TypeError. *)
Definition slope (h : hires) : result (R * hires) :=
  match h_slope h with
  | Some v => Ok (v, h)
  | None =>
      match h_factor h with
      | None => Err TypeError
      | Some f =>
          let d0 := h_local h in
          let d1 := PI * h_radius h - h_local h in
          let pix_lo := h_pix h in
          let pix_hi := h_pix h * f in
          if Req_EM_T (d1 - d0) 0 then Err ZeroDivisionError
          else let v := (pix_hi - pix_lo) / (d1 - d0) in
               Ok (v, mk_h (h_radius h) (h_pix h) (h_local h) (h_factor h) (Some v) (h_exp h))
      end
  end.
(** superdomain_function_exponent: 809-813 *)
Definition exponent (h : hires) : R * hires :=
  match h_exp h with
  | Some v => (v, h)
  | None => (1, mk_h (h_radius h) (h_pix h) (h_local h) (h_factor h) (h_slope h) (Some 1))
  end.
(** x ** e for x >= 0 and e > 0 *)
Definition ppow (x e : R) : R := if Rle_dec x 0 then 0 else Rpower x e.
(** 139-143 with the slope and exponent read; the power is also computed where it is not used. *)
Definition size_of (h : hires) (v e r : R) : R := if Rlt_dec r (h_local h) then h_pix h else h_pix h + v * ppow (r - h_local h) e.
(** superdomain_function: 122-143 *)
Definition superdomain_function (r : R) (h : hires) : result (R * hires) :=
  match slope h with
  | Err x => Err x
  | Ok (v, h) => let '(e, h) := exponent h in Ok (size_of h v e r, h)
  end.

(* ------------------------------ automatic sizes ------------------------------ *)
Section Auto.
Context (rmax : R -> R) (fit : list (R * R) -> option (R * R)).
(** np.logspace(log10(lo), log10(2 radius), 1000): 462-466 *)
Definition candidates (lo radius : R) : list R := map (fun i => lo * Rpower (radius * 2 / lo) (INR i / 999)) (seq 0 1000).
(** The for loop: 462-475, the size is kept when no candidate reaches. *)
Definition first_reaching (distance lo radius : R) : R :=
  match find (fun d => if Rle_dec distance (rmax d) then true else false) (candidates lo radius) with Some d => d | None => lo end.
(** The while loop: 461-478. *)
Fixpoint auto_sizes (fuel : nat) (radius distance size : R) : option (list (R * R)) :=
  if Rlt_dec distance (PI * radius) then
    match fuel with
    | O => None
    | S n =>
        let size := first_reaching distance size radius in
        option_map (cons (distance, size)) (auto_sizes n radius (distance + size) size)
    end
  else Some [].
(** set_superdomain: 449-491 *)
Definition set_superdomain (fuel : nat) (h : hires) : option hires :=
  match auto_sizes fuel (h_radius h) 1 (1 * 0.1) with
  | None => None
  | Some l =>
      let '(a, b) := match fit l with Some p => p | None => (1, 1) end in
      Some (mk_h (h_radius h) (h_pix h) (h_local h) (Some (size_of h a b (PI * h_radius h))) (Some a) (Some b))
  end.
End Auto.

(* ------------------------------ points ------------------------------ *)
Definition ceil (x : R) : Z := (- Int_part (- x))%Z.
(** np.arange(-m, m + delta, delta): 579 *)
Definition coords (m delta : R) : list R := map (fun i => - m + INR i * delta) (seq 0 (Z.to_nat (ceil ((m + delta - - m) / delta)))).
(** _interior_distribution: 570-600; the points are (latitude, longitude) about the centre. *)
Definition interior_step (radius pix theta : R) : list (R * R) * R :=
  let arc_distance := radius * theta in
  let delta := pix / radius in
  if Rlt_dec arc_distance pix then ([], theta + delta)
  else if Rlt_dec (PI * radius - arc_distance) pix then ([], PI)
  else
    let c := coords (arc_distance / radius) delta in
    let grid := List.concat (map (fun lat => map (fun lon => (lat, lon)) c) c) in
    let inner := (arc_distance / pix - 1) ^ 2 in
    let outer := (arc_distance / pix) ^ 2 in
    let mask := fun p : R * R =>
      let sq := (snd p / delta) ^ 2 + (fst p / delta) ^ 2 in
      (if Rle_dec inner sq then true else false) && (if Rlt_dec sq outer then true else false) in
    (filter mask grid, theta + delta).
(** 628-632 *)
Fixpoint interior (fuel : nat) (radius pix loc theta : R) : option (list (R * R) * R) :=
  if Rle_dec theta (loc / radius) then
    match fuel with
    | O => None
    | S n =>
        let '(p, t) := interior_step radius pix theta in
        option_map (fun r : list (R * R) * R => ((p ++ fst r)%list, snd r)) (interior n radius pix loc t)
    end
  else Some ([], theta).
(** Python's round: half to even *)
Definition round (x : R) : Z :=
  let f := Int_part x in
  if Rlt_dec (x - IZR f) (1 / 2) then f
  else if Rlt_dec (1 / 2) (x - IZR f) then (f + 1)%Z
  else if Z.even f then f else (f + 1)%Z.
(** _exterior_distribution: 602-622: the angle of the ring and its number of points, if any. *)
Definition exterior_step (radius : R) (size : R -> R) (theta : R) : option (R * Z) * R :=
  let arc_distance := radius * theta in
  let pix_local := size arc_distance in
  if Rlt_dec (PI * radius - arc_distance) pix_local then (None, PI)
  else (Some (theta, Z.max 1 (round (2 * PI * radius * sin theta / pix_local))), theta + pix_local / radius).
(** 635-638 *)
Fixpoint exterior (fuel : nat) (radius : R) (size : R -> R) (theta : R) : option (list (R * Z)) :=
  if Rlt_dec theta PI then
    match fuel with
    | O => None
    | S n =>
        let '(g, t) := exterior_step radius size theta in
        option_map (fun r => match g with Some g => g :: r | None => r end) (exterior n radius size t)
    end
  else Some [].
(** _generate_face_distribution: 624-640, before rounding and rotation: the points of the local
    region and the rings outside. *)
Definition generate (fuel : nat) (h : hires) : option (result (list (R * R) * list (R * Z))) :=
  match interior fuel (h_radius h) (h_pix h) (h_local h) 0 with
  | None => None
  | Some (p, theta) =>
      if Rlt_dec theta PI then
        match slope h with
        | Err e => Some (Err e)
        | Ok (v, h) =>
            let '(e, h) := exponent h in
            option_map (fun g => Ok (p, g)) (exterior fuel (h_radius h) (size_of h v e) theta)
        end
      else Some (Ok (p, []))
  end.
Definition vec := (R * R * R)%type.
(** 588-599 *)
Definition interior_point (p : R * R) : vec := let '(lat, lon) := p in (cos lat * sin lon, sin lat, cos lat * cos lon).
(** 615-621: phi = 2 pi j / n *)
Definition ring_points (g : R * Z) : list vec :=
  let '(theta, n) := g in
  map (fun j => (sin theta * cos (2 * PI * INR j / IZR n), sin theta * sin (2 * PI * INR j / IZR n), cos theta)) (seq 0 (Z.to_nat n)).

(* ------------------------------ rotation ------------------------------ *)
Definition cross (u v : vec) : vec :=
  let '(a, b, c) := u in let '(x, y, z) := v in (b * z - c * y, c * x - a * z, a * y - b * x).
Definition vdot (u v : vec) : R := let '(a, b, c) := u in let '(x, y, z) := v in a * x + b * y + c * z.
Definition scale (k : R) (v : vec) : vec := let '(x, y, z) := v in (k * x, k * y, k * z).
Definition vadd (u v : vec) : vec := let '(a, b, c) := u in let '(x, y, z) := v in (a + x, b + y, c + z).
(** scipy Rotation.from_rotvec(axis * angle).apply, for a unit axis: Rodrigues' formula. *)
Definition rodrigues (axis : vec) (angle : R) (v : vec) : vec :=
  vadd (vadd (scale (cos angle) v) (scale (sin angle) (cross axis v))) (scale (vdot axis v * (1 - cos angle)) axis).
(** _rotate_point_cloud: 529-558, location in degrees; one point. *)
Definition rotate (location : R * R) (p : vec) : vec :=
  let lon_rad := fst location * (PI / 180) in
  let lat_rad := snd location * (PI / 180) in
  let target := (cos lat_rad * cos lon_rad, cos lat_rad * sin lon_rad, sin lat_rad) in
  let original := (0, 0, 1) in
  let axis := cross original target in
  let axis_norm := sqrt (vdot axis axis) in
  if Rlt_dec axis_norm 1e-10 then p
  else
    let axis := scale (/ axis_norm) axis in
    let angle := acos (Rmin (Rmax (vdot original target) (-1)) 1) in
    rodrigues axis angle p.
