(** Vocabulary for the theorems about Exports_model. *)
From Coq Require Import ZArith Sorted.
From Verif Require Import Common Conf_model Exports_model.
Import ListNotations.
Open Scope string_scope.

Section Spec.
Context {V : Type}.
(** The saved intervals are listed by increasing number. *)
Definition increasing (h : list (Z * dataset V)) : Prop := StronglySorted Z.lt (map fst h).
(** The variable [name] of the saved interval [i] is [v]. *)
Definition holds (h : list (Z * dataset V)) (i : Z) (name : string) (v : var V) : Prop := exists d, In (i, d) h /\ pget name d = Some v.
Definition saved (h : list (Z * dataset V)) (i : Z) : Prop := exists d, In (i, d) h.
(** Apart from interval [i] the two histories are the same. *)
Definition same_but (i : Z) (h h' : list (Z * dataset V)) : Prop := forall j d, j <> i -> (In (j, d) h' <-> In (j, d) h).
(** Variable [name] has value [v] after saving [new] over what was saved as interval [i]. *)
Definition overlaid (new : dataset V) (h : list (Z * dataset V)) (i : Z) (name : string) (v : var V) : Prop :=
  pget name new = Some v \/ pget name new = None /\ holds h i name v.

(** A column of the table of a data set: a variable with one value for each face, or a layer, with
    its number in two digits, of one with layers. *)
Definition column (d : dataset V) (name : string) (x : V) : Prop :=
  In (name, FaceVar x) d \/ exists base l n, In (base, LayerVar l) d /\ nth_error l n = Some x /\ name = base ++ pad2 n.
(** The table of a data set: one column for each of these names. *)
Definition tabulates (d : dataset V) (c : content V) : Prop :=
  exists columns, c = Table columns /\ NoDup (map fst columns) /\
    (forall name x, In (name, x) columns -> column d name x) /\
    (forall name x, column d name x -> exists y, In (name, y) columns).
(** No two columns have the same name. *)
Definition apart (d : dataset V) : Prop := forall name x y, column d name x -> column d name y -> x = y.
Definition has_faces (d : dataset V) : Prop := exists name v, In (name, v) d /\ ((exists x, v = FaceVar x) \/ (exists l, v = LayerVar l)).

(** After an export the files [own] hold what [shows] says for each saved interval; all others are as
    before. *)
Definition written (extension : string) (shows : dataset V -> content V -> Prop) (h : list (Z * dataset V)) (grid : bool) (e e' : exported V) : Prop :=
  (forall i d, In (i, d) h -> exists c, fget (FData extension i) e' = Some c /\ shows d c) /\
  (forall f, (forall i d, In (i, d) h -> f <> FData extension i) -> (grid = true -> f <> FGrid) -> fget f e' = fget f e) /\
  (grid = true -> fget FGrid e = None -> fget FGrid e' = Some Grid).
End Spec.

Section Shapefile.
Context {V : Type}.
(** The table of a shapefile: variables whose name begins with "id" are left out and the names of the
    columns shortened. *)
Definition without_ids (d : dataset V) : dataset V := filter (fun v => negb (Files_model.starts "id" (fst v))) d.
Definition shapefile (d : dataset V) (c : content V) : Prop :=
  exists long, c = Table (map (fun c => (shp_key_fix (fst c), snd c)) long) /\ tabulates (without_ids d) (Table long).
Definition meshes (d : dataset V) (c : content V) : Prop := c = Mesh d.
Definition rasters (name : string) (d : dataset V) (c : content V) : Prop := exists x, pget name d = Some (FaceVar x) /\ c = Raster x.
(** A driver that export does not know. *)
Definition unknown (driver : string) : Prop :=
  ~ In (upper driver) ["VTK"; "VTP"; "GEOTIFF"; "GTIFF"; "TIFF"; "TIF"] /\ ~ In (upper driver) (map fst extensions).
Definition vtk_driver (driver : string) : Prop := In (upper driver) ["VTK"; "VTP"].
Definition tiff_driver (driver : string) : Prop := In (upper driver) ["GEOTIFF"; "GTIFF"; "TIFF"; "TIF"].
End Shapefile.
