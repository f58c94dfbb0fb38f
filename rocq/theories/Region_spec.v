(** Vocabulary for the theorems about Region_model. *)
From Coq Require Import Reals List Arith Sorted.
From Verif Require Import Common RSum Mesh_model Region_model.
Import ListNotations.
Open Scope R_scope.

(** f is one of the faces [core], or shares a neighbourhood, a node or an edge with one. *)
Definition touches (m : mesh) (core : list nat) (f : nat) : Prop :=
  In f core \/ exists c, In c core /\
    (In (Some f) (face_faces m c) \/ (exists n, In (Some n) (face_nodes m c) /\ In (Some f) (node_faces_of m n)) \/
     (exists e, In (Some e) (face_edges m c) /\ In (Some f) (edge_faces m e))).
(** The elements of one kind attached to some face of a list. *)
Definition attached (c : nat -> list (option nat)) (faces : list nat) (x : nat) : Prop := exists f, In f faces /\ In (Some x) (c f).
(** All entries of the connectivity arrays are indices of elements. *)
Definition sound (m : mesh) : Prop :=
  (forall f x, (f < m_nface m)%nat -> (In (Some x) (face_faces m f) -> (x < m_nface m)%nat) /\ (In (Some x) (face_nodes m f) -> (x < m_nnode m)%nat) /\ (In (Some x) (face_edges m f) -> (x < m_nedge m)%nat)) /\
  (forall n x, (n < m_nnode m)%nat -> In (Some x) (node_faces_of m n) -> (x < m_nface m)%nat) /\
  (forall e x, (e < m_nedge m)%nat -> In (Some x) (edge_faces m e) -> (x < m_nface m)%nat).
Definition increasing (l : list nat) : Prop := StronglySorted lt l.
(** The faces within a distance, in the order of the ball tree or of the region. *)
Definition lists_within (m : mesh) (dist : nat -> R) (r : R) (l : list nat) : Prop := forall f, In f l <-> (f < m_nface m)%nat /\ dist f <= r.

(** The view selects distinct existing elements, and the elevations exist for all. *)
Definition fits (m : mesh) (v : view) (s : dataset) (F N : list R) : Prop :=
  NoDup (v_faces v) /\ NoDup (v_nodes v) /\ (forall f, In f (v_faces v) -> (f < m_nface m)%nat) /\ (forall n, In n (v_nodes v) -> (n < m_nnode m)%nat) /\
  s "face_elevation"%string = Some F /\ s "node_elevation"%string = Some N /\ List.length F = m_nface m /\ List.length N = m_nnode m.
(** [new] is [old] with the k-th entry of [d] written, or added, at the k-th index. *)
Definition updated (old new : list R) (idx : list nat) (d : list R) (overwrite : bool) : Prop :=
  List.length new = List.length old /\
  (forall k i x, nth_error idx k = Some i -> nth_error d k = Some x ->
     nth_error new i = Some (if overwrite then x else nth i old 0 + x)) /\
  (forall i, ~ In i idx -> nth_error new i = nth_error old i).
Definition others_same (s s' : dataset) : Prop :=
  forall n, n <> "face_elevation"%string -> n <> "node_elevation"%string -> s' n = s n.
(** Area-weighted mean elevation of some faces. *)
Definition mean_over (faces : list nat) (F areas : list R) : R :=
  lsum (fun f => nth f F 0 * nth f areas 0) faces / lsum (fun f => nth f areas 0) faces.
(** The faces of the region around a node. *)
Definition faces_around (m : mesh) (v : view) (n : nat) : list nat :=
  filter (fun f => existsb (Nat.eqb f) (v_faces v)) (valid (node_faces_of m n)).

(** Volume of the faces of a region. *)
Definition volume (areas : list R) (v : view) (F : list R) : R := lsum (fun f => nth f F 0 * nth f areas 0) (v_faces v).

(** The smallest and largest entries. *)
Definition smallest (l : list R) (x : R) : Prop := In x l /\ forall y, In y l -> x <= y.
Definition largest (l : list R) (x : R) : Prop := In x l /\ forall y, In y l -> y <= x.

(* ------------------------------ samples ------------------------------ *)
(** A strip of four faces: face i has the nodes i and i+1 and the edges i and i+1. *)
Definition strip : mesh := {|
  m_nface := 4; m_nnode := 5; m_nedge := 5;
  face_edges := fun i => [Some i; Some (S i)]; face_nodes := fun i => [Some i; Some (S i)];
  face_faces := fun i => match i with 0 => [Some 1; None] | 3 => [Some 2; None] | _ => [Some (i - 1); Some (i + 1)] end%nat;
  node_faces_of := fun n => match n with 0 => [Some 0; None] | 4 => [Some 3; None] | _ => [Some (n - 1); Some n] end%nat;
  edge_faces := fun n => match n with 0 => [Some 0; None] | 4 => [Some 3; None] | _ => [Some (n - 1); Some n] end%nat;
  edge_nodes := fun e => [Some e; None] |}.
(** The region of its first face: faces 0 and 1, nodes 0 to 2. *)
Definition strip_end : view := mkView [0; 1]%nat [0; 1; 2]%nat [0; 1]%nat 1.
Definition strip_data (F N : list R) : dataset :=
  fun n => if String.eqb n "face_elevation" then Some F else if String.eqb n "node_elevation" then Some N else None.
(** A region with as many nodes as faces. *)
Definition square : view := mkView [0; 1]%nat [1; 2]%nat [1]%nat 1.
(** Distances and ball tree on the strip, with a radius such that an angle in degrees is a distance: face i is at distance i. *)
Definition strip_radius : R := 180 / PI.
Definition strip_query (a : R) : list nat := filter (fun f => if Rle_dec (INR f) a then true else false) (seq 0 4).
