(** C95: operations on a region of a high resolution local surface. *)
From Coq Require Import Reals List Arith NArith.
From Verif Require Import Common RSum Mesh_model Region_model Region_spec Overlap_model Overlap_spec Overlap_proofs Overlap_cases.
From Verif Require Tags_model.
Import ListNotations.
Open Scope R_scope.

Section Props.
Context (m : mesh) (areas : list R).
Context (diffuse : view -> list R -> list R -> result (list R)) (collapse : view -> R -> list R -> result (list R)) (noise : view -> list R) (vsmall : R).

(** C95: diffusion, slope collapse and noise applied to any region change the elevation and the ejecta of faces of
    the local region only, and of the region only, and touch no other variable of the faces. *)
Theorem C95_confined : forall lo v, by_arrays lo -> forall k a s,
  (forall kappa, one_per_face (fun v => diffuse v kappa)) -> (forall angle, one_per_face (fun v => collapse v angle)) ->
  (forall w, List.length (noise w) = (List.length (v_faces w) + List.length (v_nodes w))%nat) ->
  faces_confined m lo v s (fst (hires_diffusion m areas diffuse vsmall (Some lo) v k s)) /\
  faces_confined m lo v s (fst (hires_collapse m areas collapse (Some lo) v a s)) /\
  faces_confined m lo v s (fst (hires_noise m areas noise (Some lo) v s)).
Proof. exact (confined m areas diffuse collapse noise vsmall). Qed.

(** The nodes that change are nodes of both, or of the region when all its faces are local.  Missing: the case
    where the shared part has as many faces as nodes (C67: the values then go to other nodes). *)
Theorem C95_nodes_confined_partial : forall lo v, by_arrays lo -> forall k a s fm w,
  (forall kappa, one_per_face (fun v => diffuse v kappa)) -> (forall angle, one_per_face (fun v => collapse v angle)) ->
  (forall w, List.length (noise w) = (List.length (v_faces w) + List.length (v_nodes w))%nat) ->
  overlap m (Some lo) v = Ok (Some (fm, w)) -> List.length (v_faces w) <> List.length (v_nodes w) ->
  forall n, ~ (in_nodes m v n /\ (in_nodes m lo n \/ forall f, in_faces m v f -> in_faces m lo f)) ->
  val (fst (hires_diffusion m areas diffuse vsmall (Some lo) v k s)) "node_elevation" n = val s "node_elevation" n /\
  val (fst (hires_collapse m areas collapse (Some lo) v a s)) "node_elevation" n = val s "node_elevation" n /\
  val (fst (hires_noise m areas noise (Some lo) v s)) "node_elevation" n = val s "node_elevation" n.
Proof. exact (confined_nodes m areas diffuse collapse noise vsmall). Qed.

(** On a region inside the local region they do what they do on any surface. *)
Theorem C95_inside : forall lo v, by_arrays lo -> forall k a s,
  (exists f, in_faces m v f) -> (forall f, in_faces m v f -> in_faces m lo f) ->
  (forall l, k = Arr l -> List.length l = List.length (v_faces (plain m v))) ->
  hires_diffusion m areas diffuse vsmall (Some lo) v k s = apply_diffusion m areas diffuse vsmall (plain m v) k s /\
  hires_collapse m areas collapse (Some lo) v a s = slope_collapse m areas collapse (plain m v) a s /\
  hires_noise m areas noise (Some lo) v s = apply_noise m areas (plain m v) s (noise (plain m v)).
Proof. exact (inside m areas diffuse collapse noise vsmall). Qed.

(** Outside the local region nothing happens, to tags neither. *)
Theorem C95_apart : forall lo v, by_arrays lo -> forall k a t ns s, (forall f, in_faces m v f -> ~ in_faces m lo f) ->
  hires_diffusion m areas diffuse vsmall (Some lo) v k s = (s, Ok tt) /\ hires_collapse m areas collapse (Some lo) v a s = (s, Ok tt) /\
  hires_noise m areas noise (Some lo) v s = (s, Ok tt) /\ hires_tag m (Some lo) v t false ns = Ok ns.
Proof. exact (apart m areas diffuse collapse noise vsmall). Qed.

(** A diffusivity given per face of the region is used for that face. *)
Theorem C95_values : forall lo v, by_arrays lo -> forall l s fm w,
  overlap m (Some lo) v = Ok (Some (fm, w)) -> List.length l = List.length (v_faces (plain m v)) ->
  exists l', hires_diffusion m areas diffuse vsmall (Some lo) v (Arr l) s = apply_diffusion m areas diffuse vsmall w (Arr l') s /\
  List.length l' = List.length (v_faces w) /\
  forall f x, In (f, x) (combine (v_faces w) l') -> In (f, x) (combine (v_faces (plain m v)) l).
Proof. exact (values m areas diffuse vsmall). Qed.

(** A tag is put on faces of both regions only. *)
Theorem C95_tags : forall lo v, by_arrays lo -> forall tag tb,
  exists tb', hires_tag m (Some lo) v (Some tag) false (Some tb) = Ok (Some tb') /\
  forall f, ~ (in_faces m v f /\ in_faces m lo f) -> tb' f = tb f.
Proof. exact (tag_confined m). Qed.

(** The part operated on: exactly the shared faces, and when it is taken to be empty: no shared face, or not all
    faces shared and no shared node or no shared edge. *)
Theorem C95_overlap : forall lo v, by_arrays lo ->
  (overlap m (Some lo) v = Ok None <->
     (forall f, in_faces m v f -> ~ in_faces m lo f) \/
     ((exists f, in_faces m v f /\ ~ in_faces m lo f) /\
      ((forall n, in_nodes m v n -> ~ in_nodes m lo n) \/ (forall e, in_edges m v e -> ~ in_edges m lo e)))) /\
  (forall fm w, overlap m (Some lo) v = Ok (Some (fm, w)) ->
     (forall f, In f (v_faces w) <-> in_faces m v f /\ in_faces m lo f) /\
     (forall n, In n (v_nodes w) <-> in_nodes m v n /\ (in_nodes m lo n \/ forall f, in_faces m v f -> in_faces m lo f)) /\
     v_faces w <> [] /\ v_faces w = select (v_faces (plain m v)) fm /\ List.length fm = List.length (v_faces (plain m v))) /\
  (forall e, overlap m (Some lo) v <> Err e).
Proof. exact (overlap_spec m). Qed.

(** Its edges are the shared ones, or those of the region when all its faces are local; its radius is that of the
    region. *)
Theorem C95_overlap_edges : forall lo v fm w, by_arrays lo -> overlap m (Some lo) v = Ok (Some (fm, w)) ->
  (forall e, In e (v_edges w) <-> in_edges m v e /\ (in_edges m lo e \/ forall f, in_faces m v f -> in_faces m lo f)) /\
  v_radius w = h_radius v.
Proof. exact (overlap_rest m). Qed.
End Props.
Print Assumptions C95_confined.
Print Assumptions C95_nodes_confined_partial.
Print Assumptions C95_inside.
Print Assumptions C95_apart.
Print Assumptions C95_values.
Print Assumptions C95_tags.
Print Assumptions C95_overlap.
Print Assumptions C95_overlap_edges.

(** Faces 1 to 3 of a strip whose faces 0 and 1 are local: face 1 is operated on, and moves. *)
Example C95_case : by_arrays loc01 /\ (forall kappa, one_per_face (fun v => raise1 v kappa)) /\
  overlap strip (Some loc01) reg123 = Ok (Some ([true; false; false], mkView [1]%nat [1; 2]%nat [1; 2]%nat 1)) /\
  val (fst (hires_diffusion strip ones raise1 (1 / 2) (Some loc01) reg123 (Scalar 1) s0)) "face_elevation" 1 = 0 + 1.
Proof. exact (conj loc01_arrays (conj raise1_ok (conj ex_overlap ex_moves))). Qed.

(** Finding: a region that meets the local region only in its border (face 1 here, shared by both) has no edge in
    common with it and is left alone, although a face is shared. *)
Theorem C95_shared_border_refuted : overlap strip (Some local0) core2 = Ok None /\ in_faces strip core2 1 /\ in_faces strip local0 1.
Proof. exact ex_no_edges. Qed.
Print Assumptions C95_shared_border_refuted.

(** Finding: when the local region is the whole body (local_radius = pi * radius) its faces are a slice and not an
    array, and every operation on a region raises ValueError. *)
Theorem C95_whole_body_refuted : overlap strip (Some whole) reg123 = Err ValueError.
Proof. exact ex_whole_local. Qed.
Print Assumptions C95_whole_body_refuted.

(** Finding: a negative diffusivity, an error on any region, is accepted outside the local region. *)
Theorem C95_negative_refuted : hires_diffusion strip ones raise1 (1 / 2) (Some loc01) reg23 (Scalar (-1)) s0 = (s0, Ok tt) /\
  apply_diffusion strip ones raise1 (1 / 2) (plain strip reg23) (Scalar (-1)) s0 = (s0, Err ValueError).
Proof. exact ex_negative. Qed.
Print Assumptions C95_negative_refuted.

(** Finding: diffusion of the surface is not confined to the local region, while diffusion of the region made of
    all its faces is. *)
Theorem C95_surface_refuted :
  val (fst (surface_diffusion strip ones raise1 (1 / 2) (Scalar 1) s0)) "face_elevation" 3 = 0 + 1 /\
  val (fst (hires_diffusion strip ones raise1 (1 / 2) (Some loc01) whole (Scalar 1) s0)) "face_elevation" 3 = 0 /\
  v_faces (plain strip whole) = v_faces (everything strip).
Proof. exact ex_surface. Qed.
Print Assumptions C95_surface_refuted.
