(** Concrete cases for the theorems about exporting a surface. *)
From Coq Require Import ZArith Sorted Lia.
From Verif Require Import Common Conf_model Exports_model Exports_spec Exports_proofs Exports_more.
Import ListNotations.
Open Scope string_scope.

(** A surface saved twice, the second time as interval 4, and changed since. *)
Definition early : dataset nat := [("face_elevation", FaceVar 10); ("node_elevation", NodeVar 11); ("elapsed_time", Scalar 0)].
Definition late : dataset nat := [("face_elevation", FaceVar 40); ("tag", LayerVar [41; 42]); ("elapsed_time", Scalar 4)].
Definition now_ : dataset nat := [("face_elevation", FaceVar 50); ("tag", LayerVar [51; 52])].
Definition shop : state nat := mk_state [(0%Z, early); (4%Z, late)] now_ [(FData "tif" 4, Raster 99); (FData "gpkg" 0, Table [])].
Lemma shop_ok : hist shop <> [] /\ increasing (hist shop) /\ (forall i d, In (i, d) (hist shop) -> has_faces d) /\ has_faces (cur shop) /\
  (forall i d, In (i, d) (hist shop) -> exists x, pget "face_elevation" d = Some (FaceVar x)).
Proof.
  split; [discriminate |]. split; [repeat constructor; lia |]. split.
  - intros i d [E | [E | []]]; injection E as <- <-; exists "face_elevation"; eexists; (split; [left; reflexivity | left; eexists; reflexivity]).
  - split; [exists "face_elevation"; eexists; (split; [left; reflexivity | left; eexists; reflexivity]) |].
    intros i d [E | [E | []]]; injection E as <- <-; eexists; reflexivity.
Qed.
Lemma shop_drivers : pget (upper "gpkg") extensions = Some "gpkg" /\ "gpkg" <> "ESRI Shapefile" /\ vtk_driver "VTK" /\ tiff_driver "GeoTIFF" /\ pget (upper "ESRI Shapefile") extensions = Some "shp".
Proof. repeat split; try reflexivity; try discriminate; cbn; auto. Qed.
Lemma late_table : table "gpkg" late = Ok (Table [("face_elevation", 40); ("tag00", 41); ("tag01", 42)]).
Proof. reflexivity. Qed.

Lemma not_known : unknown "SHP" /\ unknown "SQLite" /\ unknown "PMTiles" /\ unknown "netcdf".
Proof.
  unfold unknown. cbn. repeat split; intros H; repeat (destruct H as [H | H]; [discriminate |]); exact H.
Qed.

(** Names that a shapefile cannot tell apart. *)
Definition twins : dataset nat := [("ejecta_thickness", FaceVar 1); ("ejecta_thinning", FaceVar 2)].
Definition ideal : dataset nat := [("face_elevation", FaceVar 1); ("ideal_slope", FaceVar 2)].
Definition clash : dataset nat := [("tag01", FaceVar 5); ("tag", LayerVar [1; 2])].
Lemma two_apart : apart twins /\ apart ideal.
Proof.
  split; intros n x y [A | (b & l & m & A & _)]; try (cbn in A; decompose [or] A; (discriminate || contradiction));
  intros [B | (b & l & m & B & _)]; try (cbn in B; decompose [or] B; (discriminate || contradiction));
  cbn in A, B; destruct A as [A | [A | []]]; destruct B as [B | [B | []]]; congruence.
Qed.
Lemma twins_table : table "ESRI Shapefile" twins = Ok (Table [("EJECTA_THI", 1); ("EJECTA_THI", 2)]).
Proof. reflexivity. Qed.
Lemma ideal_table : table "ESRI Shapefile" ideal = Ok (Table [("FACEELEV", 1)]).
Proof. reflexivity. Qed.
Lemma clash_table : table "gpkg" clash = Ok (Table [("tag01", 2); ("tag00", 1)]).
Proof. reflexivity. Qed.

Lemma gone {V} (agrees : file -> bool) driver name i (s : state V) n v v0 : increasing (hist s) -> pget n (cur s) = Some v -> v0 <> v ->
  holds (hist (fst (export agrees driver name (Some i) s))) i n v /\ ~ holds (hist (fst (export agrees driver name (Some i) s))) i n v0.
Proof.
  intros H P N. destruct (history agrees driver name i s H) as (_ & _ & _ & D). split; [apply D; left; exact P |].
  intros K. apply D in K as [K | [K _]]; congruence.
Qed.

Lemma json_twice : pget (upper "GeoJSON") extensions = Some "json" /\ pget (upper "JSONFG") extensions = Some "json" /\ upper "GeoJSON" <> upper "JSONFG".
Proof. split; [reflexivity |]. split; [reflexivity | discriminate]. Qed.
Lemma shop_back : (forall j d, In (j, d) (hist (fst (export (fun _ => true) "gpkg" "x" (Some (-1)%Z) shop))) -> has_faces d) /\
  snd (export (fun _ => true) "gpkg" "x" (Some (-1)%Z) shop) = None.
Proof.
  split; [| reflexivity]. cbn. intros j d [E | [E | [E | []]]]; injection E as <- <-; exists "face_elevation"; eexists; (split; [left; reflexivity | left; eexists; reflexivity]).
Qed.
