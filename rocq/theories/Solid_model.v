(** Model of the three-dimensional models of a surface and of its craters:
    cratermaker/components/surface/__init__.py (elevation_to_cartesian, to_vtk_mesh) and
    cratermaker/components/counting/__init__.py (to_vtk_mesh, to_vtk_file).
    Simplifications: f64 is idealised as R; VTK's containers are lists; the geometry and
    normals filters of VTK, which compute smooth shading, are not modelled. *)
From Coq Require Import Reals Ascii.
From Verif Require Import Common.
Open Scope R_scope.

(** A row (x, y, z). *)
Notation xyz := (R * R * R)%type.
(** np.linalg.norm of a row. *)
Definition norm (p : xyz) : R := let '(x, y, z) := p in sqrt (x * x + y * y + z * z).

(** surface/__init__.py:1036-1054 _compute_elevation_to_cartesian, one row. *)
Definition raise_by (p : xyz) (e : R) : xyz :=
  let '(x, y, z) := p in let n := norm p in (x + e * (x / n), y + e * (y / n), z + e * (z / n)).

(** 2719-2742 elevation_to_cartesian. *)
Definition elevation_to_cartesian (element : string) (faces : list (xyz * R)) (nodes : list (xyz * R)) : result (list xyz) :=
  if String.eqb element "face" then Ok (map (fun pe => raise_by (fst pe) (snd pe)) faces)
  else if String.eqb element "node" then Ok (map (fun pe => raise_by (fst pe) (snd pe)) nodes)
  else Err ValueError.

(** 2954-2963: one row of node_xyz + elevation * node_xyz / radius. *)
Definition warp (radius : R) (p : xyz) (e : R) : xyz :=
  let '(x, y, z) := p in (x + e * (x / radius), y + e * (y / radius), z + e * (z / radius)).

(** 2954-2977: the points; numpy combines rows one by one, stretches a single row, and
    raises ValueError for any other difference in length.  Only n_node points are inserted. *)
Definition mesh_points (radius : R) (nodes : list xyz) (elevation : option (list R)) : result (list xyz) :=
  match elevation with
  | None => Ok nodes
  | Some es =>
      if Nat.eqb (List.length es) (List.length nodes) then Ok (map (fun pe => warp radius (fst pe) (snd pe)) (combine nodes es))
      else match es, nodes with
           | [e], _ => Ok (map (fun p => warp radius p e) nodes)
           | e :: _, [p] => Ok [warp radius p e]
           | _, _ => Err ValueError
           end
  end.

(** 2979-2981: the cells; None is INT_FILL_VALUE. *)
Definition mesh_cells (connectivity : list (list (option nat))) (counts : list nat) : list (list (option nat)) :=
  map (fun rn => firstn (snd rn) (fst rn)) (combine connectivity counts).

(** A variable of a dataset: name, dimensions and size. *)
Record variable := mkVar { var_name : string; var_dims : list string; var_size : nat }.
Record tables := mkTables { cell_data : list string; point_data : list string; field_data : list string }.
Definition mentions (d : string) (v : variable) : bool := existsb (String.eqb d) (var_dims v).
(** 2986-2996: where each variable goes. *)
Definition store (t : tables) (v : variable) : tables :=
  if mentions "n_face" v then mkTables (cell_data t ++ [var_name v]) (point_data t) (field_data t)
  else if mentions "n_node" v then mkTables (cell_data t) (point_data t ++ [var_name v]) (field_data t)
  else if match var_dims v with [d] => String.eqb d "time" | _ => false end || Nat.eqb (var_size v) 1
  then mkTables (cell_data t) (point_data t) (field_data t ++ [var_name v])
  else t.
Definition store_all (vs : list variable) : tables := fold_left store vs (mkTables [] [] []).

(** A dataset: the numbers of its intervals, if it has any, and the data of each. *)
Section Select.
Context {D : Type}.
Inductive uxds := Single (d : D) | Several (ds : list (Z * D)).
(** isel(interval=k): by position, negative from the end. *)
Definition isel (ds : list (Z * D)) (k : Z) : result D :=
  let n := Z.of_nat (List.length ds) in
  let i := if Z.ltb k 0 then (k + n)%Z else k in
  if Z.ltb i 0 then Err IndexError
  else match nth_error ds (Z.to_nat i) with Some (_, d) => Ok d | None => Err IndexError end.
(** 2943-2952: the data to show.  [current] is the loaded data, [saved k] what
    read_saved_output(interval=k) gives (one interval: C06).  A dataset with several
    intervals and no choice is left as it is (None). *)
Definition select (current : D) (saved : Z -> result D) (given : option uxds) (interval : option Z) : result (option D) :=
  match given, interval with
  | None, None => Ok (Some current)
  | None, Some k => rbind (saved k) (fun d => Ok (Some d))
  | Some (Single d), None => Ok (Some d)
  | Some (Several _), None => Ok None
  | Some (Single _), Some _ => Err ValueError
  | Some (Several ds), Some k => rbind (isel ds k) (fun d => Ok (Some d))
  end.
End Select.
Arguments uxds : clear implicits.

(* ------------------------------ craters ------------------------------ *)

(** counting/__init__.py:1161-1170 lonlat_to_xyz, of degrees. *)
Definition lonlat_to_xyz (r : R) (lon_deg lat_deg z : R) : xyz :=
  let lon := lon_deg * (PI / 180) in
  let lat := lat_deg * (PI / 180) in
  ((r + z) * cos lat * cos lon, (r + z) * cos lat * sin lon, (r + z) * sin lat).

(** A geometry of shapely; the coordinates are (longitude, latitude). *)
Inductive geom := Polygon (exterior : list (R * R)) (interiors : list (list (R * R)))
  | Many (gs : list geom) | Line (coords : list (R * R)).
(** 1176-1185 _rings. *)
Fixpoint rings_of (g : geom) : list (list (R * R)) :=
  match g with
  | Polygon ext ints => ext :: ints
  | Many gs => flat_map rings_of gs
  | Line c => [c]
  end.

(** 1198-1213: points and lines; the state has the points so far and the lines so far
    (point_id is the number of points). *)
Definition add_ring (r : R) (st : list xyz * list (list nat)) (ring : list (R * R)) : list xyz * list (list nat) :=
  let '(points, lines) := st in
  let point_id := List.length points in
  (points ++ map (fun c => lonlat_to_xyz r (fst c) (snd c) 0) ring,
   lines ++ [map (fun i => point_id + i)%nat (seq 0 (List.length ring))])%list.
Definition draw_rings (r : R) (gs : list geom) : list xyz * list (list nat) :=
  fold_left (fun st g => fold_left (add_ring r) (rings_of g) st) gs ([], []).

(** What the drawing uses of a crater; None is an attribute the crater does not have, Some
    None one that is None. *)
Record crater := mkCrater {
  k_face : option nat; k_location : R * R; k_measured_location : R * R;
  k_projectile_radius : option R; k_floor_diameter : option (option R) }.

Section Draw.
Context (radius : R) (face_elevation face_size : nat -> R).
(** Crater.to_geoseries with split_antimeridian=False, with or without the measured
    properties (Outline_model). *)
Context (outline : bool -> crater -> geom).

(** 1221-1237: the height of the point of a crater. *)
Definition point_height (style : string) (factor : R) (c : crater) : result R :=
  match k_face c with
  | None => Err AttributeError
  | Some f =>
      let z := face_elevation f in
      if String.eqb style "points" then Ok (z + factor * face_size f / 2)
      else if String.eqb style "spheres" then
        match k_projectile_radius c with Some p => Ok (z + factor * p) | None => Err TypeError end
      else if String.eqb style "impacts" then
        match k_floor_diameter c with
        | None => Err AttributeError
        | Some None => Err TypeError
        | Some (Some d) => Ok (z + sqrt factor * d / 2)
        end
      else Ok z
  end.
(** 1221-1246 draw_points. *)
Fixpoint draw_points (style : string) (factor : R) (cs : list crater) : result (list xyz) :=
  match cs with
  | [] => Ok []
  | c :: cs =>
      rbind (point_height style factor c) (fun z =>
      rbind (draw_points style factor cs) (fun ps =>
      Ok (lonlat_to_xyz radius (fst (k_location c)) (snd (k_location c)) z :: ps)))
  end.

(** str.lower *)
Definition lower_ascii (a : ascii) : ascii :=
  let n := nat_of_ascii a in if Nat.leb 65 n && Nat.leb n 90 then ascii_of_nat (n + 32) else a.
Fixpoint lower (s : string) : string :=
  match s with EmptyString => EmptyString | String a s => String (lower_ascii a) (lower s) end.

(** 1120-1286 to_vtk_mesh for a list of craters: points and lines. *)
Definition crater_mesh (craters : list crater) (measured : bool) (style : string) (factor : R) : result (list xyz * list (list nat)) :=
  let style := lower style in
  if negb (existsb (String.eqb style) ["rings"; "points"; "impacts"; "spheres"]%string) then Err ValueError
  else if String.eqb style "rings" then Ok (draw_rings radius (map (outline measured) craters))
  else rbind (draw_points style factor craters) (fun ps => Ok (ps, [])).

(** 1288-1339 to_vtk_file: what is written (1329). *)
Definition crater_file (craters : list crater) (measured : bool) (style : string) (factor : R) : result (list xyz * list (list nat)) :=
  crater_mesh craters true "rings" 1.
End Draw.
