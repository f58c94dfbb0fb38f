(** C103: three-dimensional models of the surface and of its craters stand where the surface
    and the craters are. *)
From Coq Require Import Reals.
From Verif Require Import Common Mesh_model Region_model Geo_spec Solid_model Solid_spec Solid_proofs.
Open Scope R_scope.

(** Every vertex of the model of the surface is straight above (or below) its node, at the
    node's elevation from the reference sphere, and where elevation_to_cartesian puts it. *)
Theorem C103_vertices : forall r nodes es, 0 < r -> List.length es = List.length nodes ->
  exists ps, mesh_points r nodes (Some es) = Ok ps /\ List.length ps = List.length nodes /\
    forall i p e, nth_error nodes i = Some p -> nth_error es i = Some e -> height_of p = r -> 0 <= r + e ->
      exists q, nth_error ps i = Some q /\ height_of q = r + e /\ above p q /\ q = raise_by p e.
Proof. exact points_place. Qed.
Print Assumptions C103_vertices.

Example C103_vertices_case : height_of (0, 0, 1737400) = 1737400 /\ 0 <= 1737400 + (-9000).
Proof. exact vertex_case. Qed.

(** elevation_to_cartesian raises every position by its own elevation. *)
Theorem C103_positions : forall element faces nodes ps,
  elevation_to_cartesian element faces nodes = Ok ps ->
  let l := if String.eqb element "face" then faces else nodes in
  List.length ps = List.length l /\
  forall i p e, nth_error l i = Some (p, e) -> 0 < height_of p -> 0 <= height_of p + e ->
    exists q, nth_error ps i = Some q /\ height_of q = height_of p + e /\ above p q.
Proof. exact cartesian_place. Qed.
Print Assumptions C103_positions.

Example C103_positions_case : exists ps, elevation_to_cartesian "node" [] [((0, 0, 1737400), -9000)] = Ok ps.
Proof. exact (ex_intro _ _ eq_refl). Qed.

(** Without elevations the model is the reference sphere. *)
Theorem C103_flat : forall r nodes, mesh_points r nodes None = Ok nodes.
Proof. exact points_flat. Qed.
Print Assumptions C103_flat.

(** Elevations of another mesh are refused, unless one of the two has a single node. *)
Theorem C103_mismatch : forall r nodes es, List.length es <> List.length nodes ->
  List.length es <> 1%nat -> List.length nodes <> 1%nat -> mesh_points r nodes (Some es) = Err ValueError.
Proof. exact points_mismatch. Qed.
Print Assumptions C103_mismatch.

Example C103_mismatch_case : mesh_points 1 [(1, 0, 0); (0, 1, 0)] (Some [1; 2; 3]) = Err ValueError.
Proof. exact eq_refl. Qed.

(** In the model of a region every face of the region is a polygon with its own corners, in
    order, at their own elevations. *)
Theorem C103_region_faces : forall m v (pos : nat -> xyz) (elev : nat -> R) r (corners : nat -> list nat),
  (forall f, In f (v_faces v) -> packed (face_nodes m f) (corners f)) ->
  (forall f n, In f (v_faces v) -> In n (corners f) -> In n (v_nodes v)) ->
  exists ps, mesh_points r (map pos (v_nodes v)) (Some (map elev (v_nodes v))) = Ok ps /\
    let cells := mesh_cells (remap (face_nodes m) (v_faces v) (v_nodes v)) (map (fun f => List.length (corners f)) (v_faces v)) in
    List.length cells = List.length (v_faces v) /\
    forall i f, nth_error (v_faces v) i = Some f ->
      exists ids, nth_error cells i = Some (map Some ids) /\
        map (fun id => nth_error ps id) ids = map (fun n => Some (warp r (pos n) (elev n))) (corners f).
Proof. exact region_cells. Qed.
Print Assumptions C103_region_faces.

Example C103_region_faces_case :
  mesh_cells (remap (fun f => if Nat.eqb f 4 then [Some 7; Some 2; Some 9; None] else [Some 2; Some 7; Some 8; Some 1])%nat
                    [4%nat; 6%nat] [1; 2; 7; 8; 9]%nat) [3%nat; 4%nat]
  = [[Some 2; Some 1; Some 4]; [Some 1; Some 2; Some 3; Some 0]]%nat.
Proof. exact eq_refl. Qed.

(** Variables on faces are data of the polygons, the others on nodes data of the vertices, and
    times and single numbers data of the model. *)
Theorem C103_variables_partial : forall vs n,
  (In n (cell_data (store_all vs)) <-> exists v, In v vs /\ var_name v = n /\ In "n_face"%string (var_dims v)) /\
  (In n (point_data (store_all vs)) <->
     exists v, In v vs /\ var_name v = n /\ ~ In "n_face"%string (var_dims v) /\ In "n_node"%string (var_dims v)) /\
  (In n (field_data (store_all vs)) <->
     exists v, In v vs /\ var_name v = n /\ ~ In "n_face"%string (var_dims v) /\ ~ In "n_node"%string (var_dims v) /\
       (var_dims v = ["time"%string] \/ var_size v = 1%nat)).
Proof. exact stored. Qed.
Print Assumptions C103_variables_partial.

Example C103_variables_case :
  store_all [mkVar "face_elevation" ["n_face"%string] 20; mkVar "node_elevation" ["n_node"%string] 12; mkVar "time" [] 1]
  = mkTables ["face_elevation"%string] ["node_elevation"%string] ["time"%string].
Proof. exact eq_refl. Qed.

(** Variables on edges are left out without a word. *)
Theorem C103_edges_refuted : forall name size, size <> 1%nat ->
  let t := store_all [mkVar name ["n_edge"%string] size] in
  cell_data t = [] /\ point_data t = [] /\ field_data t = [].
Proof. exact edges_dropped. Qed.
Print Assumptions C103_edges_refuted.

(** The number given as interval with a dataset is the number of the interval when the
    dataset has every interval from 0 on. *)
Theorem C103_interval_partial : forall (D : Type) (ds : list (Z * D)) current saved k d,
  (forall i n x, nth_error ds i = Some (n, x) -> n = Z.of_nat i) ->
  In (k, d) ds -> select current saved (Some (Several ds)) (Some k) = Ok (Some d).
Proof. exact @select_all. Qed.
Print Assumptions C103_interval_partial.

Example C103_interval_case : select 0%nat (fun _ => Err FileNotFoundError) (Some (Several [(0%Z, 10%nat); (1%Z, 20%nat)])) (Some 1%Z) = Ok (Some 20%nat).
Proof. exact eq_refl. Qed.

(** Otherwise it is a position: of the intervals 5 and 6, the interval 5 is out of bounds, and
    of the intervals 1 and 2, the interval 1 shows the data of 2. *)
Theorem C103_interval_refuted :
  select 0%nat (fun _ => Err FileNotFoundError) (Some (Several [(5%Z, 50%nat); (6%Z, 60%nat)])) (Some 5%Z) = Err IndexError /\
  select 0%nat (fun _ => Err FileNotFoundError) (Some (Several [(1%Z, 10%nat); (2%Z, 20%nat)])) (Some 1%Z) = Ok (Some 20%nat).
Proof. exact select_position. Qed.
Print Assumptions C103_interval_refuted.

(** The rings: one line for every ring of every outline, in order, whose points are exactly
    the ring's vertices, each in its own direction from the centre at the reference radius;
    every point belongs to exactly one line. *)
Theorem C103_rings : forall r gs,
  let '(ps, lines) := draw_rings r gs in
  let rings := flat_map rings_of gs in
  List.length lines = List.length rings /\
  List.concat lines = seq 0 (List.length ps) /\
  forall k ring, nth_error rings k = Some ring ->
    exists ids, nth_error lines k = Some ids /\
      map (fun i => nth_error ps i) ids = map (fun c => Some (times r (towards c))) ring.
Proof. exact rings_exact. Qed.
Print Assumptions C103_rings.

Example C103_rings_case : snd (draw_rings 1 [Polygon [(0, 0); (1, 0); (0, 0)] []; Many [Line [(2, 2); (3, 3)]; Line [(4, 4)]]])
  = [[0; 1; 2]; [3; 4]; [5]]%nat.
Proof. exact eq_refl. Qed.

(** The rings lie on the reference sphere and not on the ground: where the ground is not at
    zero elevation no point of a ring is on it. *)
Theorem C103_ring_height_refuted : forall r e gs, 0 < r -> e <> 0 ->
  forall p, In p (fst (draw_rings r gs)) -> height_of p <> r + e.
Proof. exact ring_buried. Qed.
Print Assumptions C103_ring_height_refuted.

(** Points, impacts and spheres: one point for every crater, in its direction, above the
    elevation of its face by the radius of what is drawn there. *)
Theorem C103_points_partial : forall radius face_elevation face_size outline cs measured style factor ps lines,
  In style ["points"; "impacts"; "spheres"]%string ->
  crater_mesh radius face_elevation face_size outline cs measured style factor = Ok (ps, lines) ->
  lines = [] /\ List.length ps = List.length cs /\
  forall i c, nth_error cs i = Some c ->
    exists f h, k_face c = Some f /\ lift face_size style factor c f h /\
      nth_error ps i = Some (times (radius + face_elevation f + h) (towards (k_location c))).
Proof. exact points_lifted. Qed.
Print Assumptions C103_points_partial.

Example C103_points_case : exists ps, crater_mesh 1737400 (fun _ => 0) (fun _ => 100) case_outline [case_crater; case_crater] true "impacts" 2 = Ok (ps, []).
Proof. exact (ex_intro _ _ eq_refl). Qed.

(** A direction scaled by a height is that high above the centre. *)
Theorem C103_height : forall h loc, 0 <= h -> height_of (times h (towards loc)) = h * height_of (towards loc) /\ height_of (towards loc) = 1.
Proof. exact (fun h loc H => conj (height_times h (towards loc) H) (towards_unit loc)). Qed.
Print Assumptions C103_height.

Example C103_height_case : 0 <= 1737400.
Proof. exact (IZR_le 0 1737400 ltac:(discriminate)). Qed.

(** The points are at the original location even when the measured one was asked for. *)
Theorem C103_measured_refuted : exists c, k_measured_location c = (11, 0) /\
  forall measured, exists p, crater_mesh 1737400 (fun _ => 0) (fun _ => 100) case_outline [c] measured "points" 1 = Ok ([p], []) /\
    p <> times (1737400 + 0 + 1 * 100 / 2) (towards (k_measured_location c)).
Proof. exact measured_point. Qed.
Print Assumptions C103_measured_refuted.

(** A crater that was made without a morphology has no face, and stops the drawing. *)
Theorem C103_plain_crater_refuted : forall radius face_elevation face_size outline c cs measured style factor,
  In style ["points"; "impacts"; "spheres"]%string -> k_face c = None ->
  crater_mesh radius face_elevation face_size outline (c :: cs) measured style factor = Err AttributeError.
Proof. exact plain_crater. Qed.
Print Assumptions C103_plain_crater_refuted.

(** Only the four styles, in any case of letters, are drawn. *)
Theorem C103_styles : forall radius face_elevation face_size outline cs measured style factor out,
  crater_mesh radius face_elevation face_size outline cs measured style factor = Ok out ->
  In (lower style) ["rings"; "points"; "impacts"; "spheres"]%string.
Proof. exact style_known. Qed.
Print Assumptions C103_styles.

Example C103_styles_case : lower "Rings" = "rings"%string.
Proof. exact eq_refl. Qed.

(** The file ignores every option of its caller: whatever the style, the factor and the use of
    measured properties, it has the measured rings. *)
Theorem C103_file_options_refuted :
  (forall radius face_elevation face_size outline cs measured style factor,
     crater_file radius face_elevation face_size outline cs measured style factor = Ok (draw_rings radius (map (outline true) cs))) /\
  exists craters style, crater_mesh 1737400 (fun _ => 0) (fun _ => 100) case_outline craters true style 1
    <> crater_file 1737400 (fun _ => 0) (fun _ => 100) case_outline craters true style 1.
Proof. exact (conj file_ignores file_other). Qed.
Print Assumptions C103_file_options_refuted.

(** A single elevation raises every vertex by as much. *)
Theorem C103_one_elevation : forall r nodes e, 0 < r -> List.length nodes <> 1%nat ->
  exists ps, mesh_points r nodes (Some [e]) = Ok ps /\ List.length ps = List.length nodes /\
    forall i p, nth_error nodes i = Some p -> height_of p = r -> 0 <= r + e ->
      exists q, nth_error ps i = Some q /\ height_of q = r + e /\ above p q.
Proof. exact points_single. Qed.
Print Assumptions C103_one_elevation.

Example C103_one_elevation_case : height_of (0, 0, 1737400) = 1737400 /\ 0 <= 1737400 + (-9000).
Proof. exact vertex_case. Qed.

(** Without a dataset the loaded data are shown, or those of the saved interval that is asked
    for; of a dataset without intervals none can be chosen; negative numbers count from the end. *)
Theorem C103_choices : forall (D : Type) (current : D) saved,
  select current saved None None = Ok (Some current) /\
  (forall k d, saved k = Ok d -> select current saved None (Some k) = Ok (Some d)) /\
  (forall k e, saved k = Err e -> select current saved None (Some k) = Err e) /\
  (forall d, select current saved (Some (Single d)) None = Ok (Some d)) /\
  (forall d k, select current saved (Some (Single d)) (Some k) = Err ValueError) /\
  (forall ds k n d, nth_error (rev ds) k = Some (n, d) -> select current saved (Some (Several ds)) (Some (- Z.of_nat (S k))%Z) = Ok (Some d)).
Proof. exact @select_choices. Qed.
Print Assumptions C103_choices.

Example C103_choices_case : select 0%nat (fun _ => Err FileNotFoundError) (Some (Several [(5%Z, 50%nat); (6%Z, 60%nat)])) (Some (-1)%Z) = Ok (Some 60%nat).
Proof. exact eq_refl. Qed.

(** In the style with rings every closed line of the chosen outline of every crater is drawn,
    and nothing else. *)
Theorem C103_every_ring : forall radius face_elevation face_size outline cs measured factor,
  exists ps lines, crater_mesh radius face_elevation face_size outline cs measured "rings" factor = Ok (ps, lines) /\
    (forall c ring, In c cs -> ring_in ring (outline measured c) -> exists line, In line lines /\
       map (fun i => nth_error ps i) line = map (fun p => Some (times radius (towards p))) ring) /\
    (forall line, In line lines -> exists c ring, In c cs /\ ring_in ring (outline measured c) /\
       map (fun i => nth_error ps i) line = map (fun p => Some (times radius (towards p))) ring).
Proof. exact mesh_every_ring. Qed.
Print Assumptions C103_every_ring.

Example C103_every_ring_case : ring_in [(1, 2)] (Many [Line [(0, 0)]; Polygon [(3, 3)] [[(1, 2)]]]).
Proof. apply ring_part with (Polygon [(3, 3)] [[(1, 2)]]); [now right; left|now apply ring_hole; left]. Qed.
