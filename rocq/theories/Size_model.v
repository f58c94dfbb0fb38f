(** The sizes of a mesh: face areas and sizes, their statistics, the coordinates in metres, the edge
    lengths and the distances across edges, each computed when first asked for and kept
    (components/surface/__init__.py, crates/cratermaker-components/src/surface/mod.rs).
    Simplifications: f64 is idealised as R; pix, which every surface type defines for itself, is left
    out; faces exist (of none, min() is an error). *)
From Coq Require Import Reals ZArith List.
From Verif Require Import Common Trig_model Place_model.
Import ListNotations.
Open Scope R_scope.

(** The mesh on the unit sphere, as UxArray has it: areas, Cartesian coordinates of face centres
    ([true]) and nodes by axis, longitudes and latitudes in degrees, and for each edge its nodes and
    its faces (negative for a missing one). *)
Record grid := mk_grid {
  g_areas : list R; g_unit : bool -> nat -> list R;
  g_faces : list (R * R); g_nodes : list (R * R);
  g_edge_nodes : list (Z * Z); g_edge_faces : list (Z * Z) }.

(** numpy's mean, std, min and max *)
Definition sum (l : list R) : R := fold_right Rplus 0 l.
Definition mean (l : list R) : R := sum l / INR (List.length l).
Definition std (l : list R) : R := sqrt (mean (map (fun x => (x - mean l) ^ 2) l)).
Definition least (l : list R) : R := match l with [] => 0 | x :: r => fold_left Rmin r x end.
Definition largest (l : list R) : R := match l with [] => 0 | x :: r => fold_left Rmax r x end.

(** _compute_face_size: surface/__init__.py:1363-1384 *)
Record sizes := mk_sizes { z_areas : list R; z_sizes : list R; z_mean : R; z_std : R; z_min : R; z_max : R }.
Definition compute_face_size (radius : R) (g : grid) : sizes :=
  let areas := map (fun a => a * radius ^ 2) (g_areas g) in
  let s := map sqrt areas in
  mk_sizes areas s (mean s) (std s) (least s) (largest s).
(** compute_edge_distances: mod.rs:483-506; an index beyond the array is a panic *)
Definition edge_distance (places : list (R * R)) (radius : R) (e : Z * Z) : result R :=
  if (fst e <? 0)%Z || (snd e <? 0)%Z then Ok 0
  else match nth_error places (Z.to_nat (fst e)), nth_error places (Z.to_nat (snd e)) with
       | Some p, Some q => Ok (compute_one_distance (radians (fst p)) (radians (snd p)) (radians (fst q)) (radians (snd q)) radius)
       | _, _ => Err RuntimeError
       end.
Fixpoint edge_distances (places : list (R * R)) (radius : R) (es : list (Z * Z)) : result (list R) :=
  match es with
  | [] => Ok []
  | e :: r => rbind (edge_distance places radius e) (fun d => rbind (edge_distances places radius r) (fun ds => Ok (d :: ds)))
  end.

(** A surface: the radius of its target, its mesh, and what it has kept (82-107). *)
Record surface := mk_surface {
  radius : R; mesh : grid;
  k_sizes : option sizes; k_area : option R; k_smallest : option R;
  k_coord : bool -> nat -> option (list R);
  k_across : option (list R); k_lengths : option (list R) }.
Definition new_surface (r : R) (g : grid) : surface := mk_surface r g None None None (fun _ _ => None) None None.

(** What can be asked. *)
Inductive query := FaceArea | FaceSize | PixMean | PixStd | PixMin | PixMax | Area | Smallest
| Coord (face : bool) (axis : nat) | EdgeFaceDistance | EdgeLength.
Inductive answer := Num (x : R) | Array (l : list R).

(** 1484-1510, 1524-1536: the sizes, computed if needed *)
Definition with_sizes (s : surface) : sizes * surface :=
  match k_sizes s with
  | Some z => (z, s)
  | None => let z := compute_face_size (radius s) (mesh s) in
            (z, mk_surface (radius s) (mesh s) (Some z) (k_area s) (k_smallest s) (k_coord s) (k_across s) (k_lengths s))
  end.
(** 1484-1543, 1555-1604, 1750-1778; an exception keeps nothing *)
Definition ask (s : surface) (q : query) : result answer * surface :=
  match q with
  | FaceArea => let (z, s') := with_sizes s in (Ok (Array (z_areas z)), s')
  | FaceSize => let (z, s') := with_sizes s in (Ok (Array (z_sizes z)), s')
  | PixMean => let (z, s') := with_sizes s in (Ok (Num (z_mean z)), s')
  | PixStd => let (z, s') := with_sizes s in (Ok (Num (z_std z)), s')
  | PixMin => let (z, s') := with_sizes s in (Ok (Num (z_min z)), s')
  | PixMax => let (z, s') := with_sizes s in (Ok (Num (z_max z)), s')
  | Area =>
      match k_area s with
      | Some x => (Ok (Num x), s)
      | None => let (z, s') := with_sizes s in
                let x := sum (z_areas z) in
                (Ok (Num x), mk_surface (radius s') (mesh s') (k_sizes s') (Some x) (k_smallest s') (k_coord s') (k_across s') (k_lengths s'))
      end
  | Smallest =>
      match k_smallest s with
      | Some x => (Ok (Num x), s)
      | None => let (z, s') := with_sizes s in
                let x := least (z_sizes z) * (1 / 100000) in
                (Ok (Num x), mk_surface (radius s') (mesh s') (k_sizes s') (k_area s') (Some x) (k_coord s') (k_across s') (k_lengths s'))
      end
  | Coord f a =>
      match k_coord s f a with
      | Some l => (Ok (Array l), s)
      | None => let l := map (fun x => x * radius s) (g_unit (mesh s) f a) in
                (Ok (Array l), mk_surface (radius s) (mesh s) (k_sizes s) (k_area s) (k_smallest s)
                   (fun f' a' => if Bool.eqb f' f && Nat.eqb a' a then Some l else k_coord s f' a') (k_across s) (k_lengths s))
      end
  | EdgeFaceDistance =>
      match k_across s with
      | Some l => (Ok (Array l), s)
      | None => match edge_distances (g_faces (mesh s)) (radius s) (g_edge_faces (mesh s)) with
                | Ok l => (Ok (Array l), mk_surface (radius s) (mesh s) (k_sizes s) (k_area s) (k_smallest s) (k_coord s) (Some l) (k_lengths s))
                | Err e => (Err e, s)
                end
      end
  | EdgeLength =>
      match k_lengths s with
      | Some l => (Ok (Array l), s)
      | None => match edge_distances (g_nodes (mesh s)) (radius s) (g_edge_nodes (mesh s)) with
                | Ok l => (Ok (Array l), mk_surface (radius s) (mesh s) (k_sizes s) (k_area s) (k_smallest s) (k_coord s) (k_across s) (Some l))
                | Err e => (Err e, s)
                end
      end
  end.

(** The assignment of a target: 1470-1475. *)
Definition set_target (r : R) (s : surface) : surface :=
  mk_surface r (mesh s) (k_sizes s) (k_area s) (k_smallest s) (k_coord s) (k_across s) (k_lengths s).
(** A new mesh for the same surface: _generate_grid 1162-1181, which computes the sizes again,
    and _load_from_files 1099-1103. *)
Definition regrid (g : grid) (s : surface) : surface :=
  mk_surface (radius s) g (Some (compute_face_size (radius s) g)) (k_area s) (k_smallest s) (k_coord s) (k_across s) (k_lengths s).
(** The edges of a region: 4149-4164, indexed by edge_indices. *)
Definition of_region (edges : list nat) (l : list R) : list R := map (fun i => nth i l 0) edges.
