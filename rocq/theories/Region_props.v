(** Property theorems about regions, surface data, noise and face bins (C45-C48, C64-C67). *)
From Coq Require Import Reals List Permutation.
From Verif Require Import Common RSum Mesh_model Region_model Region_spec Region_proofs Region_more Region_cases.
Import ListNotations.
Open Scope R_scope.

(** C45: the faces of a region are exactly the faces found around the location (or the nearest
    one when none is and at least one is asked for) and those sharing a neighbourhood, node or
    edge with them; its nodes are all nodes of its faces, its edges all edges of the faces
    found. *)
Theorem C45_region_contents m radius query nearest r one v : extract_region m radius query nearest r one = Some v -> r / radius * 180 / PI < 180 ->
  exists core, (core = query (r / radius * 180 / PI) \/ (query (r / radius * 180 / PI) = [] /\ one = true /\ core = [nearest])) /\ core <> [] /\
  (forall f, In f (v_faces v) <-> touches m core f) /\ (forall n, In n (v_nodes v) <-> attached (face_nodes m) (v_faces v) n) /\
  (forall e, In e (v_edges v) <-> attached (face_edges m) core e) /\ increasing (v_faces v) /\ increasing (v_nodes v) /\ increasing (v_edges v) /\ v_radius v = r.
Proof. exact (region_contents m radius query nearest r one v). Qed.
Print Assumptions C45_region_contents.
Example C45_case : extract_region strip strip_radius strip_query 0 0 false = Some (mkView [0; 1] [0; 1; 2] [0; 1] 0)%nat.
Proof. exact strip_r0. Qed.
(** C45: a region is empty exactly when no face is found and none is required. *)
Theorem C45_no_region m radius query nearest r one : extract_region m radius query nearest r one = None <->
  r / radius * 180 / PI < 180 /\ query (r / radius * 180 / PI) = [] /\ one = false.
Proof. exact (region_none m radius query nearest r one). Qed.
Print Assumptions C45_no_region.
(** C45: half the circumference or more gives the whole surface. *)
Theorem C45_whole_surface m radius query nearest r one : 180 <= r / radius * 180 / PI -> exists v, extract_region m radius query nearest r one = Some v /\
  (forall f, In f (v_faces v) <-> (f < m_nface m)%nat) /\ (forall n, In n (v_nodes v) <-> (n < m_nnode m)%nat) /\ (forall e, In e (v_edges v) <-> (e < m_nedge m)%nat).
Proof. exact (region_whole m radius query nearest r one). Qed.
Print Assumptions C45_whole_surface.
Example C45_whole_case : 180 <= 200 / strip_radius * 180 / PI.
Proof. rewrite strip_angle. apply IZR_le. discriminate. Qed.
(** C45: a local connectivity entry is the position, in the region, of the same global element;
    it is the fill value exactly when the entry was or the element is not in the region. *)
Theorem C45_local_indices c rows vals i j g : nth_error rows i = Some g ->
  exists row, nth_error (remap c rows vals) i = Some row /\ List.length row = List.length (c g) /\
  forall e, nth_error (c g) j = Some e -> exists l, nth_error row j = Some l /\
    (forall k, l = Some k -> exists x, e = Some x /\ nth_error vals k = Some x) /\
    (l = None <-> e = None \/ exists x, e = Some x /\ ~ In x vals).
Proof. exact (remap_entries c rows vals i j g). Qed.
Print Assumptions C45_local_indices.
Example C45_local_case : remap (node_faces_of strip) (v_nodes strip_end) (v_faces strip_end) = [[Some 0; None]; [Some 0; Some 1]; [Some 1; None]]%nat.
Proof. reflexivity. Qed.

(** C65: a subregion has the faces and edges of the region extracted directly with the smaller
    radius, its nodes are those of the faces within the radius, and all are elements of the
    region.  Missing: the nodes of the other faces (next theorem). *)
Theorem C65_subregion_faces_and_edges_partial m radius query nearest dist r1 r2 v v1 v2 :
  0 < radius -> sound m -> (forall r, lists_within m dist r (query (r / radius * 180 / PI))) ->
  r1 / radius * 180 / PI < 180 -> r2 < r1 ->
  extract_region m radius query nearest r1 false = Some v -> extract_subregion m dist v r2 = Some v2 -> extract_region m radius query nearest r2 false = Some v1 ->
  v_faces v2 = v_faces v1 /\ v_edges v2 = v_edges v1 /\
  (forall n, In n (v_nodes v2) <-> exists f, (f < m_nface m)%nat /\ dist f <= r2 /\ In (Some n) (face_nodes m f)) /\
  (forall f, In f (v_faces v2) -> In f (v_faces v)) /\ (forall e, In e (v_edges v2) -> In e (v_edges v)) /\ (forall n, In n (v_nodes v2) -> In n (v_nodes v)).
Proof. exact (subregion_same m radius query nearest dist r1 r2 v v1 v2). Qed.
Print Assumptions C65_subregion_faces_and_edges_partial.
Example C65_case : sound strip /\ (forall r, lists_within strip INR r (strip_query (r / strip_radius * 180 / PI))) /\
  extract_region strip strip_radius strip_query 0 2 false = Some (mkView [0; 1; 2; 3] [0; 1; 2; 3; 4] [0; 1; 2; 3] 2)%nat /\
  extract_subregion strip INR (mkView [0; 1; 2; 3] [0; 1; 2; 3; 4] [0; 1; 2; 3] 2)%nat 0 = Some (mkView [0; 1] [0; 1] [0; 1] 0)%nat.
Proof. exact (conj strip_sound (conj strip_within (conj strip_r2 strip_sub))). Qed.
(** C65 fails: a face of the subregion can have a node that the subregion lacks, and that the
    region extracted directly has. *)
Theorem C65_subregion_lacks_nodes_refuted : exists v v1 v2, extract_region strip strip_radius strip_query 0 2 false = Some v /\ extract_subregion strip INR v 0 = Some v2 /\
  extract_region strip strip_radius strip_query 0 0 false = Some v1 /\ In 1%nat (v_faces v2) /\ In (Some 2%nat) (face_nodes strip 1) /\ ~ In 2%nat (v_nodes v2) /\ In 2%nat (v_nodes v1).
Proof. exact sub_refuted. Qed.
Print Assumptions C65_subregion_lacks_nodes_refuted.

(** C46: an array with one entry for each face is written (or added) face by face; the nodes of the
    region get the area-weighted mean of the region's faces around them; all else is as before. *)
Theorem C46_face_array m areas v s F N ow : fits m v s F N -> List.length (v_nodes v) <> List.length (v_faces v) ->
  forall new, List.length new = List.length (v_faces v) -> List.length new <> 1%nat ->
  (forall n, In n (v_nodes v) -> 0 < lsum (fun f => nth f areas 0) (faces_around m v n)) ->
  exists s' F' N', update_elevation m areas v s new ow = (s', Ok tt) /\ fits m v s' F' N' /\ others_same s s' /\
   updated F F' (v_faces v) new ow /\ updated N N' (v_nodes v) (map (fun n => mean_over (faces_around m v n) F' areas) (v_nodes v)) true.
Proof. exact (update_faces m areas v s F N ow). Qed.
Print Assumptions C46_face_array.
Example C46_case : fits strip strip_end (strip_data [1; 2; 3; 4] [0; 0; 0; 0; 0]) [1; 2; 3; 4] [0; 0; 0; 0; 0] /\ (forall n, In n (v_nodes strip_end) -> 0 < lsum (fun f => nth f [1; 1; 1; 1] 0) (faces_around strip strip_end n)).
Proof. exact (conj (strip_fits [1; 2; 3; 4] [0; 0; 0; 0; 0] eq_refl eq_refl) strip_areas). Qed.
(** C46: an array with one entry for each node is written (or added) node by node. *)
Theorem C46_node_array m areas v s F N ow : fits m v s F N -> List.length (v_nodes v) <> List.length (v_faces v) ->
  forall new, List.length new = List.length (v_nodes v) -> List.length new <> 1%nat ->
  exists s' N', update_elevation m areas v s new ow = (s', Ok tt) /\ fits m v s' F N' /\ others_same s s' /\ updated N N' (v_nodes v) new ow.
Proof. exact (update_nodes m areas v s F N ow). Qed.
Print Assumptions C46_node_array.
(** C46: an array of face entries followed by node entries. *)
Theorem C46_face_and_node_array m areas v s F N ow : fits m v s F N -> List.length (v_nodes v) <> List.length (v_faces v) ->
  forall ef en, List.length ef = List.length (v_faces v) -> List.length en = List.length (v_nodes v) -> ef <> [] -> en <> [] ->
  exists s' F' N', update_elevation m areas v s (ef ++ en) ow = (s', Ok tt) /\ fits m v s' F' N' /\ others_same s s' /\ updated F F' (v_faces v) ef ow /\ updated N N' (v_nodes v) en ow.
Proof. exact (update_both m areas v s F N ow). Qed.
Print Assumptions C46_face_and_node_array.
(** C46: a single number goes to every face and node of the region. *)
Theorem C46_single_number m areas v s F N ow : fits m v s F N -> List.length (v_nodes v) <> List.length (v_faces v) ->
  forall x, exists s' F' N', update_elevation m areas v s [x] ow = (s', Ok tt) /\ fits m v s' F' N' /\ others_same s s' /\
   updated F F' (v_faces v) (repeat x (List.length (v_faces v))) ow /\ updated N N' (v_nodes v) (repeat x (List.length (v_nodes v))) ow.
Proof. exact (update_scalar m areas v s F N ow). Qed.
Print Assumptions C46_single_number.
(** C46: any other size is refused and nothing changes. *)
Theorem C46_other_sizes_refused m areas v s new ow : let k := List.length new in let nf := List.length (v_faces v) in let nn := List.length (v_nodes v) in
  k <> 1%nat -> k <> nf -> k <> nn -> k <> (nf + nn)%nat -> update_elevation m areas v s new ow = (s, Err ValueError).
Proof. exact (update_rejects m areas v s new ow). Qed.
Print Assumptions C46_other_sizes_refused.

(** C66: after a face update, a node of the region all of whose faces are in the region has the
    mean elevation of its faces; another node has the mean of the faces of the region only. *)
Theorem C66_nodes_follow_faces_partial m areas v s F N new ow : fits m v s F N -> List.length (v_nodes v) <> List.length (v_faces v) ->
  List.length new = List.length (v_faces v) -> List.length new <> 1%nat ->
  (forall n, In n (v_nodes v) -> 0 < lsum (fun f => nth f areas 0) (faces_around m v n)) ->
  exists s' F' N', update_elevation m areas v s new ow = (s', Ok tt) /\ s' "face_elevation"%string = Some F' /\ s' "node_elevation"%string = Some N' /\ updated F F' (v_faces v) new ow /\
  (forall n, In n (v_nodes v) -> (forall f, In (Some f) (node_faces_of m n) -> In f (v_faces v)) -> nth_error N' n = Some (mean_over (valid (node_faces_of m n)) F' areas)) /\
  (forall n, In n (v_nodes v) -> nth_error N' n = Some (mean_over (faces_around m v n) F' areas)).
Proof. exact (border_interior m areas v s F N new ow). Qed.
Print Assumptions C66_nodes_follow_faces_partial.
Example C66_case : fits strip strip_end (strip_data [1; 2; 3; 4] [0; 0; 0; 0; 0]) [1; 2; 3; 4] [0; 0; 0; 0; 0] /\ (forall n, In n (v_nodes strip_end) -> 0 < lsum (fun f => nth f [1; 1; 1; 1] 0) (faces_around strip strip_end n)).
Proof. exact (conj (strip_fits [1; 2; 3; 4] [0; 0; 0; 0; 0] eq_refl eq_refl) strip_areas). Qed.
(** C66 fails at the border: adding nothing to the faces of a region moves a border node from
    the mean of its faces to the mean of some of them. *)
Theorem C66_border_node_moved_refuted : exists s' N', update_elevation strip [1; 1; 1; 1] strip_end (strip_data [0; 0; 4; 0] [0; 0; 2; 2; 0]) [0; 0] false = (s', Ok tt) /\
  s' "face_elevation"%string = Some [0; 0; 4; 0] /\ s' "node_elevation"%string = Some N' /\
  mean_over (valid (node_faces_of strip 2)) [0; 0; 4; 0] [1; 1; 1; 1] = 2 /\ nth 2 N' 0 = 0.
Proof. exact border_refuted. Qed.
Print Assumptions C66_border_node_moved_refuted.

(** C67 fails: in a region with as many nodes as faces, a face update writes the node averages
    at the indices of the faces, so a node outside the region changes and one inside does not. *)
Theorem C67_equal_counts_wrong_nodes_refuted : exists s' N', update_elevation strip [1; 1; 1; 1] square (strip_data [0; 0; 0; 0] [0; 0; 0; 0; 0]) [10; 20] false = (s', Ok tt) /\
  s' "node_elevation"%string = Some N' /\ ~ In 0%nat (v_nodes square) /\ nth 0 N' 0 = 15 /\ In 2%nat (v_nodes square) /\ nth 2 N' 0 = 0.
Proof. exact square_refuted. Qed.
Print Assumptions C67_equal_counts_wrong_nodes_refuted.

(** C47: whatever the noise, the volume of the region is the same afterwards. *)
Theorem C47_noise_adds_no_volume m areas v s F noise : NoDup (v_faces v) -> (forall f, In f (v_faces v) -> (f < List.length F)%nat) -> s "face_elevation"%string = Some F ->
  v_faces v <> [] -> v_nodes v <> [] -> List.length noise = (List.length (v_faces v) + List.length (v_nodes v))%nat ->
  lsum (fun f => nth f areas 0) (v_faces v) <> 0 ->
  exists F', fst (apply_noise m areas v s noise) "face_elevation"%string = Some F' /\ List.length F' = List.length F /\ volume areas v F' = volume areas v F.
Proof. exact (noise_volume m areas v s F noise). Qed.
Print Assumptions C47_noise_adds_no_volume.
Example C47_case : lsum (fun f => nth f [1; 1; 1; 1] 0) (v_faces strip_end) <> 0 /\ List.length [1; 2; 3; 4; 5] = (List.length (v_faces strip_end) + List.length (v_nodes strip_end))%nat.
Proof. split; [cbn; rewrite Rplus_0_r; exact (not_eq_sym (Rlt_not_eq 0 2 Rlt_0_2)) | reflexivity]. Qed.
(** C47: this is the volume the region reports. *)
Theorem C47_reported_volume areas v F : compute_volume areas v (take F (v_faces v)) = Ok (volume areas v F).
Proof. exact (volume_code areas v F). Qed.
Print Assumptions C47_reported_volume.

(** C64: every elevation of the region changes by at most 8/3 of the height divided by the
    radius of the body.  Missing: the height itself (next theorem). *)
Theorem C64_change_is_height_over_radius_partial m areas v s F N (simplex : nat -> nat -> R) octs H radius : fits m v s F N -> List.length (v_nodes v) <> List.length (v_faces v) -> v_faces v <> [] -> v_nodes v <> [] ->
  (forall f, In f (v_faces v) -> 0 < nth f areas 0) -> 0 < H -> 0 < radius -> (forall p i, -1 <= simplex p i <= 1) ->
  let noise := map (fun p => raw_noise (simplex p) octs H radius) (seq 0 (List.length (v_faces v) + List.length (v_nodes v))) in
  exists s' F' N', apply_noise m areas v s noise = (s', Ok tt) /\ s' "face_elevation"%string = Some F' /\ s' "node_elevation"%string = Some N' /\
    (forall i, Rabs (nth i F' 0 - nth i F 0) <= 8 / 3 * (H / radius)) /\ (forall i, Rabs (nth i N' 0 - nth i N 0) <= 8 / 3 * (H / radius)).
Proof. exact (noise_amplitude m areas v s F N simplex octs H radius). Qed.
Print Assumptions C64_change_is_height_over_radius_partial.
(** C64 fails: asked for noise of 1 km on the Moon the surface moves by less than a
    millimetre, whatever the noise. *)
Theorem C64_kilometre_gives_less_than_a_millimetre_refuted simplex n : (forall i, -1 <= simplex i <= 1) -> Rabs (raw_noise simplex n 1000 1737400) < 0.001.
Proof. exact (moon_noise simplex n). Qed.
Print Assumptions C64_kilometre_gives_less_than_a_millimetre_refuted.
Example C64_case : (forall i : nat, -1 <= 1 <= 1) /\ raw_noise (fun _ => 1) 1 1000 1737400 = 1000 / 1737400.
Proof. exact noise_samples. Qed.

(** C48: unless the largest area is the smallest times a power of two, every face is in exactly
    one bin, no bin is empty, and the areas in a bin differ by less than a factor of two. *)
Theorem C48_faces_partitioned_partial areas lo hi : smallest areas lo -> largest areas hi -> 0 < lo -> (forall k : nat, hi <> lo * 2 ^ k) ->
  exists bins, face_bins areas = Ok bins /\ Permutation (List.concat bins) (seq 0 (List.length areas)) /\ (forall b, In b bins -> b <> []) /\
   (forall b i j, In b bins -> In i b -> In j b -> nth i areas 0 < 2 * nth j areas 0).
Proof. exact (bins_ok areas lo hi). Qed.
Print Assumptions C48_faces_partitioned_partial.
Example C48_case : smallest [1; 1.5; 3] 1 /\ largest [1; 1.5; 3] 3 /\ forall k : nat, 3 <> 1 * 2 ^ k.
Proof. exact three_small. Qed.
(** C48 fails in all the remaining cases: an IndexError. *)
Theorem C48_power_of_two_refuted areas lo (k : nat) : smallest areas lo -> largest areas (lo * 2 ^ k) -> 0 < lo -> face_bins areas = Err IndexError.
Proof. exact (bins_err areas lo k). Qed.
Print Assumptions C48_power_of_two_refuted.
(** C48 fails for every mesh of equal faces. *)
Theorem C48_equal_areas_refuted a n : 0 < a -> face_bins (repeat a (S n)) = Err IndexError.
Proof. exact (equal_areas a n). Qed.
Print Assumptions C48_equal_areas_refuted.
