(** Vocabulary of the claim about the data of regions (C106). *)
From Coq Require Import Reals List Arith ZArith.
From Verif Require Import Common Region_model Region_spec Views_model.
Import ListNotations.
Open Scope R_scope.

(** The numbers of faces, nodes and edges tell the kinds of elements apart. *)
Definition told_apart (m : mesh) : Prop :=
  m_nface m <> m_nnode m /\ m_nface m <> m_nedge m /\ m_nnode m <> m_nedge m.
(** How many elements of a kind a mesh has, and which ones a region has. *)
Definition count (m : mesh) (k : kind) : option nat :=
  match k with KFace => Some (m_nface m) | KNode => Some (m_nnode m) | KEdge => Some (m_nedge m) | _ => None end.
Definition elements (v : view) (k : kind) : list nat :=
  match k with KFace => v_faces v | KNode => v_nodes v | KEdge => v_edges v | _ => [] end.
(** Every variable has one entry for each element of its kind. *)
Definition sized (m : mesh) (d : data_of) : Prop :=
  forall name arr n, d_vars d name = Some arr -> count m (d_kind d name) = Some n -> List.length arr = n.
(** A region's data are those of the surface at its own elements, in its own order. *)
Definition shows (v : view) (k : kind) (arr shown : list R) : Prop :=
  List.length shown = List.length (elements v k) /\
  forall i e, nth_error (elements v k) i = Some e -> nth_error shown i = nth_error arr e.
(** The region has distinct elements of the mesh. *)
Definition of_mesh (m : mesh) (v : view) : Prop :=
  NoDup (v_faces v) /\ NoDup (v_nodes v) /\
  (forall f, In f (v_faces v) -> (f < m_nface m)%nat) /\ (forall n, In n (v_nodes v) -> (n < m_nnode m)%nat) /\
  (forall e, In e (v_edges v) -> (e < m_nedge m)%nat).

(** A closed mesh in which three faces meet at every node (the Voronoi meshes), and one whose
    faces are triangles (the icospheres). *)
Definition three_faces_meet (m : mesh) : Prop :=
  (m_nnode m + 4 = 2 * m_nface m /\ m_nedge m + 6 = 3 * m_nface m)%nat.
Definition triangles (m : mesh) : Prop :=
  (m_nface m + 4 = 2 * m_nnode m /\ m_nedge m + 6 = 3 * m_nnode m)%nat.

(** Changes made by writing into an array of a region. *)
Definition edits_region (o : op) : Prop :=
  match o with EditArray r _ _ _ | EditUxds r _ _ _ => r_local r = true | _ => False end.
Definition saves_to (k : Z) (o : op) : Prop := o = Save k.

(** A local connectivity array says of every element of the region which elements of another
    kind belong to it: nothing is lost. *)
Definition complete (c : nat -> list (option nat)) (rows vals : list nat) (local : list (list (option nat))) : Prop :=
  List.length local = List.length rows /\
  forall i g, nth_error rows i = Some g ->
    exists row, nth_error local i = Some row /\
      map (fun o => match o with Some k => nth_error vals k | None => None end) row = c g.

(** Each entry of a local connectivity array names the same element as the entry of the surface's
    if that is in the region, and nothing if it is not. *)
Definition faithful (c : nat -> list (option nat)) (rows vals : list nat) (local : list (list (option nat))) : Prop :=
  List.length local = List.length rows /\
  forall i g, nth_error rows i = Some g ->
    exists row, nth_error local i = Some row /\ List.length row = List.length (c g) /\
      forall j x, nth_error (c g) j = Some x ->
        match x with
        | None => nth_error row j = Some None
        | Some e => (In e vals -> exists k, nth_error row j = Some (Some k) /\ nth_error vals k = Some e) /\
                    (~ In e vals -> nth_error row j = Some None)
        end.

(** A sample: as many faces, nodes and edges as a dodecahedron, a region and its data. *)
Definition sample_mesh : mesh := mkMesh 12 20 30 (fun _ => []) (fun _ => []) (fun _ => []) (fun _ => []) (fun _ => []) (fun _ => []).
Definition sample_region : region := mkRegion (mkView [3; 7]%nat [2; 5; 19]%nat [4]%nat 1) true.
Definition sample_data : data_of :=
  mkData (fun n => if String.eqb n "face_elevation" then Some (repeat 10 12) else if String.eqb n "node_elevation" then Some (repeat 20 20)
                   else if String.eqb n "edge_value" then Some (repeat 30 30) else None)
         (fun n => if String.eqb n "face_elevation" then KFace else if String.eqb n "node_elevation" then KNode else KEdge).
