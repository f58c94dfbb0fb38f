(** C88: the reference surface of a region.  C89: the shape of a crater on given terrain. *)
From Coq Require Import Reals List Bool Arith Lra Lia.
From Verif Require Import Common RSum Profile_model Profile_spec Ref_model Ref_spec Ref_proofs Ref_surface Ref_solver Ref_crater Ref_cases.
Import ListNotations.
Open Scope R_scope.

(** The reference surface has one value for each point, and that of a point farther than the
    reference radius is its elevation.  So are all values if fewer than five points or, unless
    only faces are asked for, no node are within the radius. *)
Theorem C88_far : forall lstsq radius only faces nodes,
  List.length (reference lstsq radius only faces nodes) = List.length (points only faces nodes) /\
  forall p z, value (points only faces nodes) (reference lstsq radius only faces nodes) p z ->
    radius < p_dist p \/ ~ fitted radius only faces nodes -> z = p_elev p.
Proof. exact (fun f r o fs ns => conj (ref_length f r o fs ns) (ref_far f r o fs ns)). Qed.
Print Assumptions C88_far.
Example C88_far_ex : value (points true [mkPoint 3 0 7] []) (reference solve 2 true [mkPoint 3 0 7] []) (mkPoint 3 0 7) 7.
Proof.
  rewrite reference_map. apply value_map. split; [left; reflexivity|]. unfold refval, within. cbn [p_dist p_elev].
  destruct (Rle_dec 3 2); [lra|]. rewrite andb_false_r. reflexivity.
Qed.

(** Within the radius the reference surface is a plane, and no plane has a smaller sum of
    squared differences from the elevations there. *)
Theorem C88_plane : forall lstsq radius only faces nodes, least_squares lstsq -> fitted radius only faces nodes ->
  exists c, (forall p z, value (points only faces nodes) (reference lstsq radius only faces nodes) p z -> p_dist p <= radius -> z = height_at c p) /\
    (forall c', misfit c (map placed (filter (within radius) (points only faces nodes))) <= misfit c' (map placed (filter (within radius) (points only faces nodes)))).
Proof. exact ref_plane. Qed.
Print Assumptions C88_plane.
Example C88_plane_ex : least_squares solve /\ fitted (diameter bowl / 2) false cross hub.
Proof. exact (conj solve_least cross_fitted). Qed.

(** It does not depend on how the least squares are solved. *)
Theorem C88_unique : forall f g radius only faces nodes, least_squares f -> least_squares g ->
  reference f radius only faces nodes = reference g radius only faces nodes.
Proof. exact ref_unique. Qed.
Print Assumptions C88_unique.
Example C88_unique_ex : least_squares solve.
Proof. exact solve_least. Qed.

(** The reference surface has the mean elevation of the terrain within the radius. *)
Theorem C88_mean : forall lstsq radius only faces nodes, least_squares lstsq ->
  total (inside radius (points only faces nodes) (reference lstsq radius only faces nodes)) =
  total (inside radius (points only faces nodes) (map p_elev (points only faces nodes))).
Proof. exact ref_total. Qed.
Print Assumptions C88_mean.
Example C88_mean_ex : inside (diameter bowl / 2) (points false cross hub) (map p_elev (points false cross hub)) = [0; 0; 0; 0; 0; 0].
Proof. rewrite inside_map. cbn [points]. rewrite near_all. reflexivity. Qed.

(** If the terrain is raised by a plane its reference surface is raised by the same plane. *)
Theorem C88_tilt : forall lstsq radius only faces nodes d p z, least_squares lstsq ->
  value (points only faces nodes) (reference lstsq radius only faces nodes) p z ->
  value (points only (map (tilt d) faces) (map (tilt d) nodes)) (reference lstsq radius only (map (tilt d) faces) (map (tilt d) nodes))
    (tilt d p) (z + height_at d p).
Proof. exact ref_tilt. Qed.
Print Assumptions C88_tilt.
Example C88_tilt_ex : p_elev (tilt slope (mkPoint (1/2) 180 0)) = -5.
Proof. cbn [tilt p_elev]. change (height_at slope (mkPoint (1/2) 180 0)) with (plane slope (proj_x (mkPoint (1/2) 180 0)) (proj_y (mkPoint (1/2) 180 0))). unfold plane, slope. cbn [fst snd]. rewrite y_south. lra. Qed.

(** Terrain that is a plane within the radius is its own reference surface. *)
Theorem C88_planar : forall lstsq radius only faces nodes d, least_squares lstsq ->
  (forall p, In p (points only faces nodes) -> p_dist p <= radius -> p_elev p = height_at d p) ->
  reference lstsq radius only faces nodes = map p_elev (points only faces nodes).
Proof. exact ref_planar. Qed.
Print Assumptions C88_planar.
Example C88_planar_ex : forall p, In p (points false cross hub) -> p_dist p <= 1 -> p_elev p = height_at (0, 0, 0) p.
Proof. intros p I _. unfold height_at. cbn in I. cbn [fst snd]. repeat destruct I as [<-|I]; cbn [p_elev]; [ring..|destruct I]. Qed.

(** The desloped elevations sum to zero and do not change if the terrain is raised by a plane. *)
Theorem C88_desloped : forall lstsq radius faces d, least_squares lstsq ->
  total (desloped lstsq radius faces) = 0 /\ desloped lstsq radius (map (tilt d) faces) = desloped lstsq radius faces.
Proof. exact (fun f r fs d L => conj (desloped_total f r fs L) (desloped_tilt f r fs d L)). Qed.
Print Assumptions C88_desloped.

(** The desloped elevation of a face beyond the region radius is zero, however high it is, and in
    a region of fewer than five faces all desloped elevations are zero: nothing can be measured. *)
Theorem C88_desloped_refuted : forall lstsq radius faces p z, value faces (desloped lstsq radius faces) p z ->
  radius < p_dist p \/ (List.length (filter (within radius) faces) < 5)%nat -> z = 0.
Proof. exact desloped_zero. Qed.
Print Assumptions C88_desloped_refuted.
Example C88_desloped_ex : desloped solve 2 [mkPoint 0 0 (-100); mkPoint 1 0 50; mkPoint 1 180 50] = [0; 0; 0].
Proof.
  rewrite desloped_map. unfold refval, fits_plane. cbn [points orb andb existsb filter].
  unfold within. cbn [p_dist]. repeat (destruct (Rle_dec _ _); [|lra]). cbn. f_equal; [|f_equal; [|f_equal]]; ring.
Qed.

(** The change made by a crater has one value for each face and node of its region. *)
Theorem C89_defined : forall lstsq s, admissible s -> forall faces nodes, (faces ++ nodes)%list <> [] ->
  exists dz, crater_shape lstsq s faces nodes = Ok dz /\ List.length dz = List.length (faces ++ nodes).
Proof. exact shape_defined. Qed.
Print Assumptions C89_defined.
Example C89_defined_ex : admissible bowl /\ (cross ++ hub)%list <> [].
Proof. split; [exact bowl_ok|discriminate]. Qed.

(** Beyond the rim the change depends on the distance from the centre only, not on the terrain. *)
Theorem C89_outside : forall lstsq s, admissible s -> forall faces nodes dz p z, crater_shape lstsq s faces nodes = Ok dz ->
  value (faces ++ nodes) dz p z -> diameter s / 2 < p_dist p ->
  z = (rim_height s - ejrim s) * Rpower (p_dist p / (diameter s / 2)) (- (42 / 10)).
Proof. exact outside_value. Qed.
Print Assumptions C89_outside.

(** The change is the same on terrain raised by a constant. *)
Theorem C89_level : forall lstsq s, least_squares lstsq -> admissible s -> forall faces nodes h, (faces ++ nodes)%list <> [] ->
  crater_shape lstsq s (map (tilt (0, 0, h)) faces) (map (tilt (0, 0, h)) nodes) = crater_shape lstsq s faces nodes.
Proof. exact level. Qed.
Print Assumptions C89_level.

(** No point within the rim ends lower than the earlier mean elevation there plus the floor depth. *)
Theorem C89_floor : forall lstsq s, least_squares lstsq -> admissible s -> forall faces nodes out p z m,
  after_crater lstsq s faces nodes = Ok out -> value (faces ++ nodes) out p z -> p_dist p <= diameter s / 2 ->
  mean_within (diameter s / 2) p_elev (faces ++ nodes) m -> m + floor_depth s <= z.
Proof. exact floor_bound. Qed.
Print Assumptions C89_floor.
Example C89_floor_ex : mean_within (diameter bowl / 2) p_elev (cross ++ hub) 0.
Proof. exact cross_mean. Qed.

(** A resolved crater erases what was there: on two terrains with the same plane of best fit
    within the rim, the elevations within the rim are the same after the crater. *)
Theorem C89_erased : forall lstsq s, least_squares lstsq -> admissible s -> forall f1 n1 f2 n2 c out1 out2 i p z1 z2,
  same_places f1 f2 -> same_places n1 n2 -> fitted (diameter s / 2) false f1 n1 ->
  best_plane (diameter s / 2) (f1 ++ n1) c -> best_plane (diameter s / 2) (f2 ++ n2) c ->
  after_crater lstsq s f1 n1 = Ok out1 -> after_crater lstsq s f2 n2 = Ok out2 ->
  nth_error (f1 ++ n1) i = Some p -> p_dist p <= diameter s / 2 -> nth_error out1 i = Some z1 -> nth_error out2 i = Some z2 -> z1 = z2.
Proof. exact erased. Qed.
Print Assumptions C89_erased.
Example C89_erased_ex : same_places cross cross /\ exists c, best_plane (diameter bowl / 2) (cross ++ hub) c.
Proof. split; [repeat constructor|]. exists (solve (map placed (filter (within (diameter bowl / 2)) (cross ++ hub)))). intro c'. apply solve_least. Qed.

(** On terrain raised by a plane the change beyond the rim is the same, and within the rim it
    differs by no more than the height of the plane above its mean within the rim. *)
Theorem C89_slope_partial : forall lstsq s, least_squares lstsq -> admissible s -> forall faces nodes d dz dz' i p z z',
  crater_shape lstsq s faces nodes = Ok dz -> crater_shape lstsq s (map (tilt d) faces) (map (tilt d) nodes) = Ok dz' ->
  nth_error (faces ++ nodes) i = Some p -> nth_error dz i = Some z -> nth_error dz' i = Some z' ->
  (diameter s / 2 < p_dist p -> z' = z) /\
  (p_dist p <= diameter s / 2 -> forall t, mean_within (diameter s / 2) (fun q => height_at d q) (faces ++ nodes) t ->
    Rabs (z' - z) <= Rabs (height_at d p - t)).
Proof. exact tilt_bound. Qed.
Print Assumptions C89_slope_partial.

(** The change is not the same on a slope: at a place where a crater on level ground digs 1 m,
    the same crater on a steep slope raises the ground by 4 m, because the floor is limited by the
    mean elevation within the rim and not by the reference surface. *)
Theorem C89_slope_refuted : forall lstsq, least_squares lstsq -> exists s faces nodes d dz dz', admissible s /\ fitted (diameter s / 2) false faces nodes /\
  crater_shape lstsq s faces nodes = Ok dz /\ crater_shape lstsq s (map (tilt d) faces) (map (tilt d) nodes) = Ok dz' /\
  nth_error dz 3 = Some (-1) /\ nth_error dz' 3 = Some 4.
Proof.
  exact (fun f L => match flat_change f L, slope_change f L with ex_intro _ dz (conj A B), ex_intro _ dz' (conj C D) =>
    ex_intro _ bowl (ex_intro _ cross (ex_intro _ hub (ex_intro _ slope (ex_intro _ dz (ex_intro _ dz' (conj bowl_ok (conj cross_fitted (conj A (conj C (conj B D)))))))))) end).
Qed.
Print Assumptions C89_slope_refuted.
