(** C106: a region shows the surface's data of its own faces, nodes and edges. *)
From Coq Require Import Reals List Arith ZArith.
From Verif Require Import Common Region_model Region_spec Views_model Views_spec Views_proofs.
Import ListNotations.
Open Scope R_scope.

(** The value that a region shows for its i-th element is the surface's value for that
    element. *)
Theorem C106_reads : forall m r d name arr n, told_apart m -> of_mesh m (r_view r) -> sized m d ->
  d_vars d name = Some arr -> count m (d_kind d name) = Some n ->
  exists shown, attribute m r d name = Ok shown /\ shows (r_view r) (d_kind d name) arr shown.
Proof. exact attribute_shows. Qed.
Print Assumptions C106_reads.

Example C106_reads_case : told_apart sample_mesh /\ of_mesh sample_mesh (r_view sample_region) /\ sized sample_mesh sample_data.
Proof. exact sample_ok. Qed.

(** On the meshes of the library the numbers of faces, nodes and edges differ, so that the
    kinds of elements, which are recognised by these numbers, are not confused. *)
Theorem C106_kinds : forall m, (4 < m_nface m)%nat \/ (4 < m_nnode m)%nat -> three_faces_meet m \/ triangles m -> told_apart m.
Proof. exact kinds_differ. Qed.
Print Assumptions C106_kinds.

Example C106_kinds_case : three_faces_meet sample_mesh.
Proof. exact (conj eq_refl eq_refl). Qed.

(** A name that the surface has no data for is an AttributeError. *)
Theorem C106_missing : forall m r d name, d_vars d name = None -> attribute m r d name = Err AttributeError.
Proof. exact attribute_missing. Qed.
Print Assumptions C106_missing.

Example C106_missing_case : d_vars sample_data "slope"%string = None.
Proof. exact eq_refl. Qed.

(** Whatever has been done with the surface before, through whatever regions, every region
    still shows the surface's data of its own elements. *)
Theorem C106_always : forall m s ops r name arr n, told_apart m -> of_mesh m (r_view r) -> sized m (s_data s) ->
  let d := s_data (run m s ops) in
  d_vars d name = Some arr -> count m (d_kind d name) = Some n ->
  exists shown, attribute m r d name = Ok shown /\ shows (r_view r) (d_kind d name) arr shown.
Proof. exact always_shows. Qed.
Print Assumptions C106_always.

Example C106_always_case : attribute sample_mesh sample_region
    (s_data (run sample_mesh (mkState sample_data (fun _ => None)) [Add sample_region "node_elevation"%string (Arr [1; 2; 3]) true true 0 false; Save 0])) "node_elevation"%string = Ok [1; 2; 3].
Proof. exact eq_refl. Qed.

(** Data written through a region are read back from it unchanged. *)
Theorem C106_read_back : forall m r s name l k isfacedata fill n, told_apart m -> of_mesh m (r_view r) -> sized m (s_data s) ->
  (k = KFace \/ k = KNode /\ List.length (v_nodes (r_view r)) <> List.length (v_faces (r_view r))) ->
  List.length l = List.length (elements (r_view r) k) -> count m k = Some n ->
  (forall arr, d_vars (s_data s) name = Some arr -> d_kind (s_data s) name = k) ->
  attribute m r (s_data (step m s (Add r name (Arr l) isfacedata true fill false))) name = Ok l.
Proof. exact read_own. Qed.
Print Assumptions C106_read_back.

Example C106_read_back_case : attribute sample_mesh sample_region
    (s_data (step sample_mesh (mkState sample_data (fun _ => None)) (Add sample_region "ejecta"%string (Arr [8; 9]) true true 0 false))) "ejecta"%string = Ok [8; 9].
Proof. exact eq_refl. Qed.

(** Any other region then shows the new values for the elements that both have, or what they
    add up to, and the former ones for its other elements: the fill value where there was no
    such variable. *)
Theorem C106_other_regions : forall m r w s name l k isfacedata overwrite fill n,
  told_apart m -> of_mesh m (r_view r) -> of_mesh m (r_view w) -> sized m (s_data s) ->
  (k = KFace \/ k = KNode /\ List.length (v_nodes (r_view r)) <> List.length (v_faces (r_view r))) ->
  List.length l = List.length (elements (r_view r) k) -> count m k = Some n ->
  (forall arr, d_vars (s_data s) name = Some arr -> d_kind (s_data s) name = k) ->
  exists shown, attribute m w (s_data (step m s (Add r name (Arr l) isfacedata overwrite fill false))) name = Ok shown /\
    List.length shown = List.length (elements (r_view w) k) /\
    (forall i e j x, nth_error (elements (r_view w) k) i = Some e -> nth_error (elements (r_view r) k) j = Some e -> nth_error l j = Some x ->
       nth_error shown i = match d_vars (s_data s) name with
                           | Some arr => Some (if overwrite then x else nth e arr 0 + x)
                           | None => Some x end) /\
    (forall i e, nth_error (elements (r_view w) k) i = Some e -> ~ In e (elements (r_view r) k) ->
       nth_error shown i = match d_vars (s_data s) name with Some arr => nth_error arr e | None => Some fill end).
Proof. exact read_back. Qed.
Print Assumptions C106_other_regions.

Example C106_other_regions_case : attribute sample_mesh (mkRegion (mkView [1; 7; 2]%nat [] [] 1) true)
    (s_data (step sample_mesh (mkState sample_data (fun _ => None)) (Add sample_region "ejecta"%string (Arr [8; 9]) true false 5 false))) "ejecta"%string = Ok [5; 9; 5].
Proof. exact eq_refl. Qed.

(** The dataset of a region has the same face and node values as its attributes. *)
Theorem C106_dataset_partial : forall m r d name arr, told_apart m -> sized m d -> r_local r = true ->
  d_vars d name = Some arr -> d_kind d name = KFace \/ d_kind d name = KNode ->
  exists shown, attribute m r d name = Ok shown /\ d_vars (uxds r d) name = Some shown.
Proof. exact uxds_agrees. Qed.
Print Assumptions C106_dataset_partial.

Example C106_dataset_case : d_vars (uxds sample_region sample_data) "node_elevation"%string = Some [20; 20; 20].
Proof. exact eq_refl. Qed.

(** The dataset of a region has all the surface's edges in an edge variable, not its own. *)
Theorem C106_dataset_edges_refuted : forall m r d name arr, told_apart m -> sized m d -> r_local r = true ->
  d_vars d name = Some arr -> d_kind d name = KEdge ->
  attribute m r d name = Ok (take arr (v_edges (r_view r))) /\ d_vars (uxds r d) name = Some arr /\
  (List.length (v_edges (r_view r)) <> m_nedge m -> attribute m r d name <> Ok arr).
Proof. exact uxds_edges. Qed.
Print Assumptions C106_dataset_edges_refuted.

Example C106_dataset_edges_case : d_kind sample_data "edge_value"%string = KEdge /\ d_vars sample_data "edge_value"%string = Some (repeat 30 30).
Proof. exact (conj eq_refl eq_refl). Qed.

(** Writing into the arrays or into the dataset that a region returns changes nothing, and
    raises nothing. *)
Theorem C106_edits_refuted : forall m s o, edits_region o -> step m s o = s.
Proof. exact edit_lost. Qed.
Print Assumptions C106_edits_refuted.

Example C106_edits_case : edits_region (EditArray sample_region "face_elevation"%string 0 99).
Proof. exact eq_refl. Qed.

(** The same done on the whole surface changes the surface. *)
Theorem C106_edits_global : forall m s r name i x arr, r_local r = false -> d_vars (s_data s) name = Some arr -> (i < List.length arr)%nat ->
  exists new, d_vars (s_data (step m s (EditArray r name i x))) name = Some new /\ nth_error new i = Some x /\
    s_data (step m s (EditUxds r name i x)) = s_data (step m s (EditArray r name i x)).
Proof. exact edit_global. Qed.
Print Assumptions C106_edits_global.

Example C106_edits_global_case : d_vars sample_data "face_elevation"%string = Some (repeat 10 12) /\ (3 < List.length (repeat 10 12))%nat.
Proof. split; [reflexivity|]. cbn. repeat constructor. Qed.

(** What a region reads from a saved interval is what its dataset was when the interval was
    saved, whatever was done since (short of saving to the same interval). *)
Theorem C106_saved : forall m r s k ops, (forall o, In o ops -> ~ saves_to k o) -> r_local r = true ->
  exists d, read_saved r (run m (step m s (Save k)) ops) k false = Ok d /\
    (forall name, d_vars d name = d_vars (uxds r (s_data s)) name) /\ forall name, d_kind d name = d_kind (s_data s) name.
Proof. exact saved_back. Qed.
Print Assumptions C106_saved.

Example C106_saved_case : exists d, read_saved sample_region (run sample_mesh (mkState sample_data (fun _ => None))
    [Save 4; Add sample_region "face_elevation"%string (Arr [0; 0]) true true 0 false]) 4 false = Ok d /\ d_vars d "face_elevation"%string = Some [10; 10].
Proof. exact (ex_intro _ _ (conj eq_refl eq_refl)). Qed.

(** An interval that was not saved is an error, also when an empty dataset is asked for; of one
    that was, asking for an empty dataset gives one without any data. *)
Theorem C106_saved_empty : forall r s k,
  (s_files s k = None -> forall reset, read_saved r s k reset = Err FileNotFoundError) /\
  (forall d, s_files s k = Some d -> exists e, read_saved r s k true = Ok e /\ forall name, d_vars e name = None).
Proof. exact (fun r s k => conj (fun H reset => saved_missing r s k reset H) (fun d => saved_reset r s k d)). Qed.
Print Assumptions C106_saved_empty.

Example C106_saved_empty_case : s_files (mkState sample_data (fun _ => None)) 3 = None.
Proof. exact eq_refl. Qed.

(** In the region's own mesh every face has all its nodes, every edge both its faces, and every
    edge its nodes if these are nodes of the faces it belongs to. *)
Theorem C106_mesh_partial : forall m radius query nearest r one v,
  extract_region m radius query nearest r one = Some v -> r / radius * 180 / PI < 180 ->
  complete (face_nodes m) (v_faces v) (v_nodes v) (local_face_nodes m v) /\
  complete (edge_faces m) (v_edges v) (v_faces v) (local_edge_faces m v) /\
  ((forall f e n, In (Some e) (face_edges m f) -> In (Some n) (edge_nodes m e) -> In (Some n) (face_nodes m f)) ->
   complete (edge_nodes m) (v_edges v) (v_nodes v) (local_edge_nodes m v)).
Proof. exact region_complete. Qed.
Print Assumptions C106_mesh_partial.

Example C106_mesh_case : local_face_nodes strip strip_end = [[Some 0; Some 1]; [Some 1; Some 2]]%nat.
Proof. exact eq_refl. Qed.

(** But the faces around its border lack the edges that no inner face has. *)
Theorem C106_mesh_edges_refuted : exists v, extract_region strip strip_radius strip_query 0 0 false = Some v /\
  ~ complete (face_edges strip) (v_faces v) (v_edges v) (local_face_edges strip v) /\
  local_face_edges strip v = [[Some 0; Some 1]; [Some 1; None]]%nat /\ face_edges strip 1 = [Some 1; Some 2]%nat.
Proof. exact strip_edges_lost. Qed.
Print Assumptions C106_mesh_edges_refuted.

(** The six connectivity arrays of a region have a row for each element of the region, and each entry names the same element as
    the entry of the surface's if the region has it, and nothing if not. *)
Theorem C106_connectivity : forall m v,
  faithful (face_nodes m) (v_faces v) (v_nodes v) (local_face_nodes m v) /\ faithful (face_edges m) (v_faces v) (v_edges v) (local_face_edges m v) /\
  faithful (face_faces m) (v_faces v) (v_faces v) (local_face_faces m v) /\ faithful (node_faces_of m) (v_nodes v) (v_faces v) (local_node_faces m v) /\
  faithful (edge_faces m) (v_edges v) (v_faces v) (local_edge_faces m v) /\ faithful (edge_nodes m) (v_edges v) (v_nodes v) (local_edge_nodes m v).
Proof. exact all_faithful. Qed.
Print Assumptions C106_connectivity.
Example C106_connectivity_case : exists row, nth_error (local_face_nodes strip strip_end) 1 = Some row /\ row = [Some 1; Some 2]%nat.
Proof. eexists. split; reflexivity. Qed.

(** A variable without dimensions is the same in every region. *)
Theorem C106_scalars : forall m r d name arr, d_vars d name = Some arr -> d_kind d name = KScalar -> attribute m r d name = Ok arr.
Proof. exact scalar_whole. Qed.
Print Assumptions C106_scalars.
Example C106_scalars_case : attribute sample_mesh sample_region (mkData (fun _ => Some [4]) (fun _ => KScalar)) "time" = Ok [4].
Proof. apply C106_scalars; reflexivity. Qed.
