(** Property theorems about exporting the surface (C98). *)
From Coq Require Import ZArith.
From Verif Require Import Common Conf_model Exports_model Exports_spec Exports_proofs Exports_more Exports_cases.
Import ListNotations.
Open Scope string_scope.

Section Exporting.
Context {V : Type}.
Variable agrees : file -> bool.

(** C98: exporting all intervals with a vector driver, replacing files being agreed to, writes one
    file for each saved interval with one column for each face variable and each layer of it
    (shortened and without those that begin with "id" for the driver "ESRI Shapefile"), and changes
    no other file, nothing that is saved and nothing of the surface. *)
Theorem C98_vector driver name extension (s : state V) : (forall f, agrees f = true) ->
  pget (upper driver) extensions = Some extension -> hist s <> [] -> increasing (hist s) -> (forall i d, In (i, d) (hist s) -> has_faces d) ->
  let r := export agrees driver name None s in
  snd r = None /\ hist (fst r) = hist s /\ cur (fst r) = cur s /\
  written extension (if driver =? "ESRI Shapefile" then shapefile else tabulates) (hist s) false (files s) (files (fst r)).
Proof. exact (fun y => vector_all agrees y driver name extension s). Qed.

(** C98: likewise the VTK driver writes one mesh for each saved interval, and the mesh without data
    unless that file exists. *)
Theorem C98_vtk driver name (s : state V) : (forall f, agrees f = true) -> vtk_driver driver -> hist s <> [] -> increasing (hist s) ->
  let r := export agrees driver name None s in
  snd r = None /\ hist (fst r) = hist s /\ cur (fst r) = cur s /\ written "vtp" meshes (hist s) true (files s) (files (fst r)).
Proof. exact (fun y => vtk_all agrees y driver name s). Qed.

(** C98: likewise the GeoTIFF driver writes one raster of the variable for each saved interval. *)
Theorem C98_geotiff driver name (s : state V) : tiff_driver driver -> hist s <> [] -> increasing (hist s) ->
  (forall i d, In (i, d) (hist s) -> exists x, pget name d = Some (FaceVar x)) ->
  let r := export agrees driver name None s in
  snd r = None /\ hist (fst r) = hist s /\ cur (fst r) = cur s /\ written "tif" (rasters name) (hist s) false (files s) (files (fst r)).
Proof. exact (tiff_all agrees driver name s). Qed.

(** C98: a file that the user does not want replaced is kept, by every driver but GeoTIFF. *)
Theorem C98_kept_partial driver name interval (s : state V) f c : ~ tiff_driver driver ->
  fget f (files s) = Some c -> agrees f = false -> fget f (files (fst (export agrees driver name interval s))) = Some c.
Proof. exact (keeps agrees driver name interval s f c). Qed.

(** C98: exporting one interval first saves the surface of now under that number, over what was
    saved: the other intervals stay, the surface stays, and variables the surface does not have keep
    their saved values.  Then that one interval is exported. *)
Theorem C98_one_interval_partial driver name i (s : state V) : increasing (hist s) -> let s' := fst (export agrees driver name (Some i) s) in
  increasing (hist s') /\ cur s' = cur s /\ same_but i (hist s) (hist s') /\
  (forall n v, holds (hist s') i n v <-> overlaid (cur s) (hist s) i n v).
Proof. exact (history agrees driver name i s). Qed.
Theorem C98_one_file driver name extension i (s : state V) : (forall f, agrees f = true) -> pget (upper driver) extensions = Some extension ->
  (0 <= i)%Z -> increasing (hist s) -> has_faces (cur s) ->
  let r := export agrees driver name (Some i) s in
  snd r = None /\ exists d, In (i, d) (hist (fst r)) /\
    written extension (if driver =? "ESRI Shapefile" then shapefile else tabulates) [(i, d)] false (files s) (files (fst r)).
Proof. exact (vector_one agrees driver name extension i s). Qed.

(** C98: so exporting an interval of the past destroys it: each saved value of a variable the surface
    has now is replaced by that of now. *)
Theorem C98_history_refuted driver name i (s : state V) n v v0 : increasing (hist s) ->
  pget n (cur s) = Some v -> v0 <> v ->
  holds (hist (fst (export agrees driver name (Some i) s))) i n v /\ ~ holds (hist (fst (export agrees driver name (Some i) s))) i n v0.
Proof. exact (gone agrees driver name i s n v v0). Qed.

(** C98: exporting interval -1, "the last one", adds a saved interval numbered -1. *)
Theorem C98_negative_refuted driver name i (s : state V) : (i < 0)%Z -> saved (hist (fst (export agrees driver name (Some i) s))) i.
Proof. exact (negative agrees driver name i s). Qed.

(** C98: exporting the last interval but one, or an earlier one, by counting from the end always
    fails with the VTK driver, however many are saved. *)
Theorem C98_vtk_counted_back_refuted driver name i (s : state V) : vtk_driver driver -> (i < -1)%Z ->
  snd (export agrees driver name (Some i) s) = Some IndexError.
Proof. exact (vtk_negative agrees driver name i s). Qed.

(** C98: a driver that is not known is ignored: nothing is exported and nothing is raised.  Among
    them are "SHP", for which to_vector_file has an alias, and "SQLite" and "PMTiles", which are in
    the table of drivers. *)
Theorem C98_unknown_driver_refuted driver name (s : state V) : unknown driver -> export agrees driver name None s = (s, None).
Proof. exact (silent agrees driver name s). Qed.

(** C98: an existing GeoTIFF is replaced whatever the user would answer, also by that of another
    variable, since the name of the variable is not part of the name of the file. *)
Theorem C98_geotiff_asks_refuted driver name (s : state V) i d x : tiff_driver driver -> increasing (hist s) ->
  (forall j e, In (j, e) (hist s) -> exists x, pget name e = Some (FaceVar x)) -> In (i, d) (hist s) -> pget name d = Some (FaceVar x) ->
  fget (FData "tif" i) (files (fst (export agrees driver name None s))) = Some (Raster x).
Proof. exact (tiff_replaces agrees driver name s i d x). Qed.

(** C98: Simulation.export saves the current interval and exports the one asked for, counted from the
    current one if negative.  Exporting the current one (-1, the default) changes no other saved
    interval; exporting an earlier one replaces what was saved by the surface of now. *)
Theorem C98_simulation_partial driver name i now time (s : state V) : increasing (hist s) ->
  let j := if (i <? 0)%Z then (now + 1 + i)%Z else i in
  let s' := fst (sim_export agrees driver name (Some i) now time s) in
  cur s' = cur s /\
  (forall k d, k <> now -> k <> j -> (In (k, d) (hist s') <-> In (k, d) (hist s))) /\
  (forall n v, pget n (cur s) = Some v -> holds (hist s') j n v) /\
  (j = now -> forall n v, holds (hist s') now n v <-> overlaid (cur s ++ time)%list (hist s) now n v).
Proof. exact (sim_history agrees driver name i now time s). Qed.
(** C98: a negative interval is counted from the last of the saved intervals, the one just saved under
    the negative number included; when there are not that many it is an IndexError. *)
Theorem C98_counted_back driver name extension i (s : state V) : (forall f, agrees f = true) ->
  pget (upper driver) extensions = Some extension -> (i < 0)%Z ->
  let r := export agrees driver name (Some i) s in
  let k := (Z.of_nat (List.length (hist (fst r))) + i)%Z in
  (forall j d, In (j, d) (hist (fst r)) -> has_faces d) ->
  ((k < 0)%Z -> snd r = Some IndexError /\ files (fst r) = files s) /\
  ((0 <= k)%Z -> snd r = None /\ exists j d, nth_error (hist (fst r)) (Z.to_nat k) = Some (j, d) /\
     written extension (if driver =? "ESRI Shapefile" then shapefile else tabulates) [(j, d)] false (files s) (files (fst r))).
Proof. exact (vector_back agrees driver name extension i s). Qed.

(** C98: an export without an error found in every saved interval what it was to write. *)
Theorem C98_errors driver name (s : state V) : snd (export agrees driver name None s) = None -> forall i d, In (i, d) (hist s) ->
  (tiff_driver driver -> exists x, pget name d = Some (FaceVar x)) /\ (forall extension, pget (upper driver) extensions = Some extension -> has_faces d).
Proof. exact (reported agrees driver name s). Qed.
End Exporting.

(** C98: in a shapefile two columns may get the same name, and a face variable whose name begins with
    "id" is left out. *)
Theorem C98_shapefile_refuted :
  apart twins /\ table "ESRI Shapefile" twins = Ok (Table [("EJECTA_THI", 1); ("EJECTA_THI", 2)]) /\
  apart ideal /\ table "ESRI Shapefile" ideal = Ok (Table [("FACEELEV", 1)]).
Proof. exact (conj (proj1 two_apart) (conj twins_table (conj (proj2 two_apart) ideal_table))). Qed.

(** C98: a variable named like a layer of another one is lost. *)
Theorem C98_layer_name_refuted : table "gpkg" clash = Ok (Table [("tag01", 2); ("tag00", 1)]).
Proof. exact clash_table. Qed.

Print Assumptions C98_counted_back.
Print Assumptions C98_errors.

(** C98: the usual drivers have their usual extensions, and different drivers different ones, except those
    that write "json". *)
Theorem C98_extensions : Forall (fun p => pget (upper (fst p)) extensions = Some (snd p))
    [("GPKG", "gpkg"); ("ESRI Shapefile", "shp"); ("GeoJSON", "json"); ("CSV", "csv"); ("KML", "kml"); ("GML", "gml"); ("FlatGeobuf", "fgb");
     ("DXF", "dxf"); ("OpenFileGDB", "gdb"); ("OGR_GMT", "gmt"); ("PDF", "pdf"); ("XLSX", "xlsx"); ("ODS", "ods"); ("GPX", "gpx"); ("MapInfo File", "tab")] /\
  forall a b extension, pget (upper a) extensions = Some extension -> pget (upper b) extensions = Some extension -> extension <> "json" -> upper a = upper b.
Proof. exact (conj extension_names extensions_apart). Qed.
Print Assumptions C98_extensions.
(** C98 fails for GeoJSON and JSON-FG: both write the same file, so exporting to one replaces what was
    exported to the other. *)
Theorem C98_same_extension_refuted : pget (upper "GeoJSON") extensions = Some "json" /\ pget (upper "JSONFG") extensions = Some "json" /\ upper "GeoJSON" <> upper "JSONFG".
Proof. exact json_twice. Qed.
Print Assumptions C98_same_extension_refuted.
Print Assumptions C98_vector.
Print Assumptions C98_vtk.
Print Assumptions C98_geotiff.
Print Assumptions C98_kept_partial.
Print Assumptions C98_one_interval_partial.
Print Assumptions C98_one_file.
Print Assumptions C98_history_refuted.
Print Assumptions C98_negative_refuted.
Print Assumptions C98_vtk_counted_back_refuted.
Print Assumptions C98_unknown_driver_refuted.
Print Assumptions C98_geotiff_asks_refuted.
Print Assumptions C98_simulation_partial.
Print Assumptions C98_shapefile_refuted.
Print Assumptions C98_layer_name_refuted.

(** The hypotheses are met by a surface with two saved intervals. *)
Example C98_case : hist shop <> [] /\ increasing (hist shop) /\ (forall i d, In (i, d) (hist shop) -> has_faces d) /\ has_faces (cur shop) /\
  (forall i d, In (i, d) (hist shop) -> exists x, pget "face_elevation" d = Some (FaceVar x)).
Proof. exact shop_ok. Qed.
Example C98_drivers : pget (upper "gpkg") extensions = Some "gpkg" /\ "gpkg" <> "ESRI Shapefile" /\ vtk_driver "VTK" /\ tiff_driver "GeoTIFF" /\
  pget (upper "ESRI Shapefile") extensions = Some "shp".
Proof. exact shop_drivers. Qed.
Example C98_columns : table "gpkg" late = Ok (Table [("face_elevation", 40); ("tag00", 41); ("tag01", 42)]).
Proof. exact late_table. Qed.
Example C98_unknown : unknown "SHP" /\ unknown "SQLite" /\ unknown "PMTiles" /\ unknown "netcdf".
Proof. exact not_known. Qed.
Example C98_overwritten : holds (hist shop) 0 "face_elevation" (FaceVar 10) /\ pget "face_elevation" (cur shop) = Some (FaceVar 50) /\
  hist (fst (export (fun _ => true) "gpkg" "face_elevation" (Some 0%Z) shop)) =
    [(0%Z, [("face_elevation", FaceVar 50); ("tag", LayerVar [51; 52]); ("node_elevation", NodeVar 11); ("elapsed_time", Scalar 0)]); (4%Z, late)].
Proof. exact (conj (ex_intro _ early (conj (or_introl eq_refl) eq_refl)) (conj eq_refl eq_refl)). Qed.
Example C98_back_case : (forall j d, In (j, d) (hist (fst (export (fun _ => true) "gpkg" "x" (Some (-1)%Z) shop))) -> has_faces d) /\
  snd (export (fun _ => true) "gpkg" "x" (Some (-1)%Z) shop) = None.
Proof. exact shop_back. Qed.
Example C98_errors_case : snd (export (fun _ => true) "GeoTIFF" "face_elevation" None shop) = None. Proof. reflexivity. Qed.
