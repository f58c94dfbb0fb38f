(** C126: outlines of craters together, and the polygon of a region in a file. *)
From Coq Require Import List String.
From Verif Require Import Common Exports_model Frame_model Frame_spec Frame_proofs.
Import ListNotations.
Open Scope string_scope.

(** For one or more craters, those given or else the observed ones, the series holds exactly the
    outline of each crater in the order of the craters, with the properties asked for.
    Missing: no craters at all (C126_none_refuted). *)
Theorem C126_series_partial : forall crater shape (outline : bool -> bool -> crater -> result shape) observed craters measured split l ss,
  asked observed craters l -> l <> [] ->
  (to_geoseries crater shape outline observed craters measured split = Ok ss <-> outlined outline measured split l ss).
Proof. intros crater shape. exact series. Qed.
Print Assumptions C126_series_partial.
Example C126_series_partial_ex : to_geoseries nat nat sketch [(5, 2); (9, 4)] None true false = Ok [12; 14]
  /\ asked [(5, 2); (9, 4)] None [2; 4] /\ to_geoseries nat nat sketch [] (Some [1; 0; 3]) false true = Err ValueError.
Proof. exact sketches. Qed.

(** It fails exactly when some crater has no outline, with the error of the first such crater. *)
Theorem C126_first_failure : forall crater shape (outline : bool -> bool -> crater -> result shape) observed craters measured split l e,
  asked observed craters l -> l <> [] ->
  (to_geoseries crater shape outline observed craters measured split = Err e <-> first_failure outline measured split l e).
Proof. intros crater shape. exact series_error. Qed.
Print Assumptions C126_first_failure.
Example C126_first_failure_ex : first_failure sketch false true [1; 0; 3] ValueError.
Proof. exact (fails_later sketch false true 1 [0; 3] 1 ValueError eq_refl (fails_here sketch false true 0 [3] ValueError eq_refl)). Qed.

(** Of no craters there is no empty series: before any crater is counted, or of an empty list, the
    request is always a ValueError. *)
Theorem C126_none_refuted : forall crater shape (outline : bool -> bool -> crater -> result shape) observed craters measured split,
  asked observed craters [] -> to_geoseries crater shape outline observed craters measured split = Err ValueError.
Proof. intros crater shape. exact none. Qed.
Print Assumptions C126_none_refuted.
Example C126_none_refuted_ex : asked (crater := nat) [] None [] /\ asked [(1, 2)] (Some []) [].
Proof. exact (conj eq_refl eq_refl). Qed.

(** A format that is not in the table is a ValueError, for a region and for a whole surface. *)
Theorem C126_unknown_format : forall crater shape number (outline : bool -> bool -> crater -> result shape) (r : region crater number) driver,
  ~ known driver -> export_region_polygon crater shape number outline r driver = Err ValueError.
Proof. intros crater shape number. exact unknown_format. Qed.
Print Assumptions C126_unknown_format.
Example C126_unknown_format_ex : known "gpkg" /\ known "ESRI Shapefile" /\ ~ known "SQLite".
Proof. exact gpkg. Qed.

(** For a whole surface, nothing is written. *)
Theorem C126_whole_surface : forall crater shape number (outline : bool -> bool -> crater -> result shape) (r : region crater number) driver,
  known driver -> is_local crater number r = false -> export_region_polygon crater shape number outline r driver = Ok [].
Proof. intros crater shape number. exact whole_surface. Qed.
Print Assumptions C126_whole_surface.
Example C126_whole_surface_ex : known "gpkg" /\ is_local nat nat (mk_region nat nat false 7 1 3) = false.
Proof. exact (conj (proj1 gpkg) eq_refl). Qed.

(** The polygon of a region is never written: the table has one row of values and an index of two, so
    for every region and every format the request fails, with a ValueError once the outline is made. *)
Theorem C126_region_refuted : forall crater shape number (outline : bool -> bool -> crater -> result shape) (r : region crater number) driver,
  is_local crater number r = true ->
  (forall files, export_region_polygon crater shape number outline r driver <> Ok files)
  /\ (forall s, known driver -> outline false false (boundary crater number r) = Ok s ->
       export_region_polygon crater shape number outline r driver = Err ValueError).
Proof. intros crater shape number outline r driver L. exact (conj (never outline r driver L) (fun s K O => no_region outline r driver s K L O)). Qed.
Print Assumptions C126_region_refuted.
Example C126_region_refuted_ex : is_local nat nat around = true /\ known "gpkg" /\ sketch false false (boundary nat nat around) = Ok 3.
Proof. exact (conj eq_refl (conj (proj1 gpkg) eq_refl)). Qed.
