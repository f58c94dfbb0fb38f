(** Exporting the surface: Surface.export, to_vector_file, to_vtk_file and to_geotiff_file
    (components/surface/__init__.py) and Simulation.export (core/simulation.py).

    Saved files are identified by their interval number, exported files by their extension and
    interval number (the names are prefix, number and extension).  What a file of variables holds
    is a list of named variables; the values themselves are of any type. *)
From Coq Require Import ZArith Ascii Lia.
From Verif Require Import Common Conf_model Files_model.
Import ListNotations.
Open Scope string_scope.

(** str.upper, of ASCII letters. *)
Definition up (c : ascii) : ascii := if is_lower c then ascii_of_nat (nat_of_ascii c - 32) else c.
Fixpoint upper (s : string) : string := match s with EmptyString => "" | String c r => String (up c) (upper r) end.
(** s.replace(long, short), for [long] not empty; [skip] characters of a match are still to be
    passed over. *)
Fixpoint replace_from (long short : string) (skip : nat) (s : string) : string :=
  match s with
  | EmptyString => ""
  | String c r =>
      match skip with
      | S k => replace_from long short k r
      | O => if starts long s then short ++ replace_from long short (String.length long - 1) r
             else String c (replace_from long short O r)
      end
  end.
Definition replace (long short s : string) : string := replace_from long short O s.

(** constants.py:26-58. *)
Definition extensions : pairs string :=
  [ ("PCIDSK", "pix"); ("PDS4", "xml"); ("PDF", "pdf"); ("MBTILES", "mbtiles"); ("ESRI SHAPEFILE", "shp");
    ("MAPINFO FILE", "tab"); ("S57", "000"); ("DGN", "dgn"); ("CSV", "csv"); ("GML", "gml"); ("GPX", "gpx");
    ("KML", "kml"); ("GEOJSON", "json"); ("GEOJSONSEQ", "geojsonl"); ("OGR_GMT", "gmt"); ("GPKG", "gpkg");
    ("SQLite", "sqlite"); ("WASP", "map"); ("OPENFILEGDB", "gdb"); ("DXF", "dxf"); ("FLATGEOBUF", "fgb");
    ("PGDUMP", "sql"); ("GPSBABEL", "mps"); ("ODS", "ods"); ("XLSX", "xlsx"); ("JML", "jml"); ("VDV", "txt");
    ("MVT", "mvt"); ("PMTiles", "pmtiles"); ("JSONFG", "json"); ("MIRAMONVECTOR", "pol") ].

(** shp_key_fix: 2882-2897. *)
Definition alt_names : list (string * string) :=
  [ ("face_elevation", "faceelev"); ("face_distance", "facedis"); ("face_bearing", "facebearng"); ("face_indices", "faceindx") ].
Definition shp_key_fix (key : string) : string :=
  upper (substring 0 10 (fold_left (fun k a => replace (fst a) (snd a) k) alt_names key)).

(** f"{layer:02d}": 2873. *)
Definition pad2 (n : nat) : string :=
  let d := digits_of (N.of_nat n) in show (repeat 0%N (2 - List.length d) ++ d)%list.

Section Exports.
Variable V : Type.
(** A variable of the data set: one value for each face, one for each face and layer, one for each
    node, or anything else. *)
Inductive var := FaceVar (x : V) | LayerVar (l : list V) | NodeVar (x : V) | Scalar (x : V).
Definition dataset : Type := pairs var.

(** What an exported file holds: a table of the faces by columns, a mesh with the variables, the
    mesh alone, or a raster of one variable. *)
Inductive content := Table (columns : list (string * V)) | Mesh (d : dataset) | Grid | Raster (x : V).
Inductive file := FGrid | FData (extension : string) (interval : Z).
Definition same_file (f g : file) : bool :=
  match f, g with
  | FGrid, FGrid => true
  | FData a i, FData b j => (a =? b) && (i =? j)%Z
  | _, _ => false
  end.
Definition exported : Type := list (file * content).
Fixpoint fget (f : file) (e : exported) : option content :=
  match e with [] => None | (g, c) :: r => if same_file f g then Some c else fget f r end.
Definition fput (f : file) (c : content) (e : exported) : exported := (f, c) :: e.

(** The saved intervals, in the order of their numbers; the variables of the surface now; the files
    in the export directory. *)
Record state := mk_state { hist : list (Z * dataset); cur : dataset; files : exported }.
Definition set_files (e : exported) (s : state) : state := mk_state (hist s) (cur s) e.

(** ds.merge(ds_old, compat="override"): 1272, for data sets of the same grid. *)
Definition merge (new old : dataset) : dataset := (new ++ filter (fun v => negb (pmem (fst v) new)) old)%list.
(** Writing the file of an interval: _save_data, 1262-1283. *)
Fixpoint write_interval (i : Z) (d : dataset) (h : list (Z * dataset)) : list (Z * dataset) :=
  match h with
  | [] => [(i, d)]
  | (j, e) :: r => if (i =? j)%Z then (i, merge d e) :: r else if (i <? j)%Z then (i, d) :: (j, e) :: r else (j, e) :: write_interval i d r
  end.
(** save: 3252-3300; [time]: the time variables given.  An interval may be negative. *)
Definition save (i : Z) (time : dataset) (s : state) : state := mk_state (write_interval i (cur s ++ time)%list (hist s)) (cur s) (files s).

(** read_saved_output followed by .interval.values: 4336-4383, core/base.py:248-292.  Without a data
    file, or for an interval that is not saved, the data set has no variable "interval". *)
Definition read (interval : option Z) (h : list (Z * dataset)) : result (list (Z * dataset)) :=
  match interval with
  | None => match h with [] => Err AttributeError | _ => Ok h end
  | Some i =>
      if (i <? 0)%Z then
        let k := (i + Z.of_nat (List.length h))%Z in
        match h with
        | [] => Err AttributeError
        | _ => if (k <? 0)%Z then Err IndexError
               else match nth_error h (Z.to_nat k) with Some e => Ok [e] | None => Err IndexError end
        end
      else match find (fun e => (fst e =? i)%Z) h with Some e => Ok [e] | None => Err AttributeError end
  end.

(** Whether the user lets an existing file be replaced (ask_overwrite is False, or the answer is
    yes): _overwrite_check, core/base.py:447-495. *)
Variable agrees : file -> bool.
Definition writable (f : file) (e : exported) : bool := match fget f e with None => true | Some _ => agrees f end.

(** The loop over the intervals: 2910-2919, 3064-3069 and 3241-3248; [check]: whether an existing
    file is replaced only with consent. *)
Fixpoint write_each (check : bool) (extension : string) (make : dataset -> result content) (l : list (Z * dataset)) (e : exported) : exported * option exn :=
  match l with
  | [] => (e, None)
  | (i, d) :: r =>
      match make d with
      | Err x => (e, Some x)
      | Ok c => write_each check extension make r
                  (if (negb check || writable (FData extension i) e)%bool then fput (FData extension i) c e else e)
      end
  end.

(** The columns of a table: 2857-2878.  Assigning a column that exists replaces it; renaming keeps
    the columns apart even if their names become the same. *)
Definition on_faces (v : string * var) : bool := match snd v with FaceVar _ | LayerVar _ => true | _ => false end.
Fixpoint add_layers (name : string) (n : nat) (l : list V) (t : pairs V) : pairs V :=
  match l with [] => t | x :: r => add_layers name (S n) r (pset (name ++ pad2 n) x t) end.
Definition add_column (t : pairs V) (v : string * var) : pairs V :=
  match snd v with
  | FaceVar x => pset (fst v) x t
  | LayerVar l => add_layers (fst v) 0 l t
  | _ => t
  end.
Definition table (driver : string) (d : dataset) : result content :=
  let variables := filter on_faces d in
  match variables with
  | [] => Err ValueError
  | _ =>
      let shapefile := driver =? "ESRI Shapefile" in
      let variables := if shapefile then filter (fun v => negb (starts "id" (fst v))) variables else variables in
      let columns := fold_left add_column variables [] in
      Ok (Table (if shapefile then map (fun c => (shp_key_fix (fst c), snd c)) columns else columns))
  end.

(** to_vector_file: 2899-2920. *)
Definition to_vector (driver : string) (interval : option Z) (s : state) : state * option exn :=
  let driver := if upper driver =? "SHP" then "ESRI Shapefile" else driver in
  match pget (upper driver) extensions with
  | None => (s, Some ValueError)
  | Some extension =>
      match read interval (hist s) with
      | Err x => (s, Some x)
      | Ok l => let (e, x) := write_each true extension (table driver) l (files s) in (set_files e s, x)
      end
  end.

(** to_vtk_file: 3048-3071.  The requested interval is looked up among the intervals just read, of
    which there is one. *)
Definition to_vtk (interval : option Z) (s : state) : state * option exn :=
  match read interval (hist s) with
  | Err x => (s, Some x)
  | Ok l =>
      let numbers := match interval with
                     | None => Ok l
                     | Some i => if (i <? 0)%Z then
                                   (if (i + Z.of_nat (List.length l) <? 0)%Z then Err IndexError
                                    else match nth_error l (Z.to_nat (i + Z.of_nat (List.length l))) with Some e => Ok [e] | None => Err IndexError end)
                                 else Ok l
                     end in
      match numbers with
      | Err x => (s, Some x)
      | Ok l =>
          let e := match fget FGrid (files s) with None => fput FGrid Grid (files s) | Some _ => files s end in
          let (e, x) := write_each true "vtp" (fun d => Ok (Mesh d)) l e in (set_files e s, x)
      end
  end.

(** to_geotiff_file: 3236-3249, without _overwrite_check.  Rasterising anything but one value for
    each face fails. *)
Definition raster (variable_name : string) (d : dataset) : result content :=
  match pget variable_name d with
  | None => Err KeyError
  | Some (FaceVar x) => Ok (Raster x)
  | Some _ => Err ValueError
  end.
Definition to_geotiff (variable_name : string) (interval : option Z) (s : state) : state * option exn :=
  match read interval (hist s) with
  | Err x => (s, Some x)
  | Ok l => let (e, x) := write_each false "tif" (raster variable_name) l (files s) in (set_files e s, x)
  end.

(** export: 2797-2819. *)
Definition export (driver variable_name : string) (interval : option Z) (s : state) : state * option exn :=
  let s := match interval with Some i => save i [] s | None => s end in
  let u := upper driver in
  if existsb (String.eqb u) ["VTK"; "VTP"] then to_vtk interval s
  else if existsb (String.eqb u) ["GEOTIFF"; "GTIFF"; "TIFF"; "TIF"] then to_geotiff variable_name interval s
  else if pmem u extensions then to_vector driver interval s
  else (s, None).

(** Simulation.export, the part about the surface: core/simulation.py:910-931; [now]: the number of
    the current interval, [time]: its time variables. *)
Definition sim_export (driver variable_name : string) (interval : option Z) (now : Z) (time : dataset) (s : state) : state * option exn :=
  let interval := match interval with Some i => if (i <? 0)%Z then Some (now + 1 + i)%Z else Some i | None => None end in
  let s := save now time s in
  export (if upper driver =? "OPENCRATERTOOL" then "GeoTIFF" else driver) variable_name interval s.
End Exports.
Arguments FaceVar {V}. Arguments LayerVar {V}. Arguments NodeVar {V}. Arguments Scalar {V}.
Arguments Table {V}. Arguments Mesh {V}. Arguments Grid {V}. Arguments Raster {V}.
Arguments mk_state {V}. Arguments hist {V}. Arguments cur {V}. Arguments files {V}.
Arguments fget {V}. Arguments fput {V}. Arguments merge {V}. Arguments write_interval {V}. Arguments save {V}. Arguments read {V}.
Arguments writable {V}. Arguments write_each {V}. Arguments table {V}. Arguments add_column {V}. Arguments add_layers {V}. Arguments on_faces {V}.
Arguments to_vector {V}. Arguments to_vtk {V}. Arguments to_geotiff {V}. Arguments raster {V}. Arguments export {V}. Arguments sim_export {V}. Arguments set_files {V}.
