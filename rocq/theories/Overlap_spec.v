(** Vocabulary for the theorems about Overlap_model. *)
From Coq Require Import Reals List Arith NArith.
From Verif Require Import Common RSum Mesh_model Region_model Region_spec Overlap_model.
From Verif Require Tags_model.
Import ListNotations.
Open Scope R_scope.

(** A value of a variable; a variable that does not exist yet reads as zero. *)
Definition val (s : dataset) (name : string) (i : nat) : R := match s name with Some l => nth i l 0 | None => 0 end.

(** Elements of the region, elements of the local region. *)
Definition in_faces (m : mesh) (v : hview) (f : nat) : Prop := match h_faces v with All => (f < m_nface m)%nat | Ids l => In f l end.
Definition in_nodes (m : mesh) (v : hview) (n : nat) : Prop := match h_nodes v with All => (n < m_nnode m)%nat | Ids l => In n l end.
Definition in_edges (m : mesh) (v : hview) (e : nat) : Prop := match h_edges v with All => (e < m_nedge m)%nat | Ids l => In e l end.

(** The local region is given by index arrays. *)
Definition by_arrays (lo : hview) : Prop := exists a b c r, lo = mk_hv (Ids a) (Ids b) (Ids c) r.

(** No face outside both regions changes its elevation or its ejecta, and no other variable
    of faces changes at all. *)
Definition faces_confined (m : mesh) (lo v : hview) (s s' : dataset) : Prop :=
  (forall f, ~ (in_faces m v f /\ in_faces m lo f) ->
     val s' "face_elevation" f = val s "face_elevation" f /\ val s' "ejecta_thickness" f = val s "ejecta_thickness" f) /\
  (forall n, n <> "face_elevation"%string -> n <> "node_elevation"%string -> n <> "ejecta_thickness"%string -> s' n = s n).

(** The compiled operations answer one change per face. *)
Definition one_per_face (op : view -> list R -> result (list R)) : Prop :=
  forall v e d, op v e = Ok d -> List.length d = List.length (v_faces v).

(* ------------------------------ samples ------------------------------ *)
(** On the strip of Region_spec: the local region is faces 0 and 1. *)
Definition loc01 : hview := mk_hv (Ids [0; 1]%nat) (Ids [0; 1; 2]%nat) (Ids [0; 1; 2]%nat) 1.
Definition reg123 : hview := mk_hv (Ids [1; 2; 3]%nat) (Ids [1; 2; 3; 4]%nat) (Ids [1; 2; 3; 4]%nat) 1.
Definition reg23 : hview := mk_hv (Ids [2; 3]%nat) (Ids [2; 3; 4]%nat) (Ids [2; 3; 4]%nat) 1.
(** Regions with their buffer: the faces 1 and 2 around the core face 2, whose edges are 2 and 3. *)
Definition local0 : hview := mk_hv (Ids [0; 1]%nat) (Ids [0; 1; 2]%nat) (Ids [0; 1]%nat) 1.
Definition core2 : hview := mk_hv (Ids [1; 2; 3]%nat) (Ids [1; 2; 3; 4]%nat) (Ids [2; 3]%nat) 1.
Definition whole : hview := mk_hv All All All 1.
