(** Vocabulary for the theorems about Datasurf_model. *)
From Coq Require Import Reals List Arith Bool Sorted.
From Verif Require Import Common RSum Region_model Datasurf_model.
Import ListNotations.
Open Scope R_scope.

Definition average (l : list R) : R := lsum (fun x => x) l / INR (List.length l).

(** A value that was read, and is not the mark of missing data. *)
Definition reads (nodata : option fl) (x : fl) (y : R) : Prop := x = Fin y /\ nodata <> Some (Fin y).
(** [vals] are the values among [raw], in order. *)
Inductive values (nodata : option fl) : list fl -> list R -> Prop :=
| v_nil : values nodata [] []
| v_value x y l ys : reads nodata x y -> values nodata l ys -> values nodata (x :: l) (y :: ys)
| v_missing x l ys : (forall y, ~ reads nodata x y) -> values nodata l ys -> values nodata (x :: l) ys.
(** Values are kept, in metres, and missing ones are the average of the values, or 0 if there is none. *)
Definition filled (metres : R) (nodata : option fl) (raw : list fl) (out : list R) : Prop :=
  List.length out = List.length raw /\
  exists ys, values nodata raw ys /\ forall k x, nth_error raw k = Some x ->
    (forall y, reads nodata x y -> nth_error out k = Some (metres * y)) /\
    ((forall y, ~ reads nodata x y) -> nth_error out k = Some (match ys with [] => 0 | _ => metres * average ys end)).
(** The same for the pixels of the local files. *)
Definition present (pixels : list (option R)) : list R := flat_map (fun o => match o with Some x => [x] | None => [] end) pixels.

(** A mark for missing data that a float32 can hold. *)
Definition in_range (nodata : option fl) : Prop := match nodata with Some (Fin x) => Rabs x <= fmax | _ => True end.
(** The radius of the Moon: target/__init__.py:37. *)
Definition moon : R := 1737530.

(** A region of a mesh for which a list of elevations tells faces and nodes apart. *)
Definition region (m : mesh) (v : view) : Prop :=
  NoDup (v_faces v) /\ NoDup (v_nodes v) /\
  (forall f, In f (v_faces v) -> (f < m_nface m)%nat) /\ (forall n, In n (v_nodes v) -> (n < m_nnode m)%nat) /\
  v_faces v <> [] /\ v_nodes v <> [] /\
  List.length (v_nodes v) <> List.length (v_faces v) /\ m_nnode m <> m_nface m.
(** The elevations of a surface, and the absence of any other variable. *)
Definition elevations (s : state) (F N : list R) : Prop :=
  st_data s "face_elevation"%string = Some F /\ st_data s "node_elevation"%string = Some N.
Definition nothing_else (s : state) : Prop :=
  forall n, n <> "face_elevation"%string -> n <> "node_elevation"%string -> st_data s n = None.
(** [others] are the indices below n that are not in idx, in increasing order. *)
Definition complement (n : nat) (idx others : list nat) : Prop :=
  StronglySorted lt others /\ forall i, In i others <-> (i < n)%nat /\ ~ In i idx.
(** F has the local elevations at [idx], and elsewhere what the file of the whole body gives. *)
Definition composed (n : nat) (idx : list nat) (inside : nat -> R) (g : globe) (outside : nat -> fl) (F : list R) : Prop :=
  List.length F = n /\ (forall i, In i idx -> nth_error F i = Some (inside i)) /\
  exists others, complement n idx others /\
    map (fun i => nth i F 0) others = global_samples (g_nodata g) (g_units g) (map outside others).
(** The elevations [F] and [N] are those of the two sources. *)
Definition from_sources (m : mesh) (v : view) (dem : (nat -> R) * (nat -> R)) (g : globe) (F N : list R) : Prop :=
  composed (m_nface m) (v_faces v) (fst dem) g (g_face g) F /\ composed (m_nnode m) (v_nodes v) (snd dem) g (g_node g) N.
(** The file in the directory is of the size of the mesh. *)
Definition fits_file (m : mesh) (file : option (list R * list R)) : Prop :=
  match file with None => True | Some (f, n) => List.length f = m_nface m /\ List.length n = m_nnode m end.
(** The user asked for elevations outside from a file that can be used. *)
Definition usable (world : string -> option globe) (f : string) (g : globe) : Prop := world f = Some g /\ g_crs g = true.

(* ------------------------------ samples ------------------------------ *)
Definition heights (x : R) : globe := mkGlobe true ["METER"%string] (Some (Fin (-9999))) (fun _ => Fin x) (fun _ => Fin x).
Definition shelf : string -> option globe := fun f => if String.eqb f "LOLA" then Some (heights 7) else if String.eqb f "mars.tif" then Some (heights 3) else None.
Definition plain : (nat -> R) * (nat -> R) := (fun _ => 5, fun _ => 5).
