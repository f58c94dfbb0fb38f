(** C21, C22, C23, C60: random locations, points on faces, sizes, velocities and angles. *)
From Coq Require Import Reals List Lra Lia Permutation Sorted.
From Verif Require Import Common Random_model Random_spec Random_proofs Random_sizes.
Import ListNotations.
Open Scope R_scope.

(** C21.  The point drawn on a face is a convex combination of the face's corners, which are
    the nodes in its row of the connectivity table that are not fill, for any number of
    corners and any draws. *)
Theorem C21_inside_face : forall node row corners u0 r1 r2, corners_of node row corners ->
  0 < rsum (map tri_area (triangles corners)) -> draw01 u0 -> draw01 r1 -> draw01 r2 ->
  exists p, random_on_face (face_corners row node) u0 r1 r2 = Ok p /\ convex_combination corners p.
Proof. exact face_row_point. Qed.
Print Assumptions C21_inside_face.
Example C21_inside_face_ex : corners_of sq_node [2; 0; 3; 1; -1; -1]%Z sq /\ 0 < rsum (map tri_area (triangles sq)).
Proof. split; [exact sq_row |]. rewrite sq_areas. cbn. lra. Qed.

(** C21.  Each triangle of the fan is used for an interval of first draws whose length is
    the triangle's share of the area, and the point is then inside that triangle. *)
Theorem C21_by_area : forall node row corners u0 r1 r2 k v0 v1 v2,
  let areas := map tri_area (triangles corners) in
  corners_of node row corners -> 0 < rsum areas -> 0 < u0 < 1 -> draw01 r1 -> draw01 r2 ->
  nth_error (triangles corners) k = Some (v0, v1, v2) ->
  rsum (firstn k areas) / rsum areas < u0 <= rsum (firstn (S k) areas) / rsum areas ->
  exists p, random_on_face (face_corners row node) u0 r1 r2 = Ok p /\ convex_combination [v0; v1; v2] p.
Proof. exact face_row_triangle. Qed.
Print Assumptions C21_by_area.
Example C21_by_area_ex : let areas := map tri_area (triangles sq) in
  0 < rsum areas /\ rsum (firstn 1 areas) / rsum areas < 3/4 <= rsum (firstn 2 areas) / rsum areas.
Proof. cbn zeta. rewrite sq_areas. cbn. lra. Qed.

(** C22.  Every size returned is at least the smallest tabulated size and at most the
    largest one plus one part in 10^8.  [t] is the table arranged by decreasing size. *)
Theorem C22_range_partial : forall ds cs t size mu poisson w z d,
  Permutation t (combine ds cs) -> StronglySorted (fun a b => fst b <= fst a) t ->
  draw01 w -> draw01 z -> random_size ds cs t size mu poisson w z = Ok d ->
  (exists a, In a ds /\ a <= d) /\ (exists b, In b ds /\ d <= b * (1 + 1e-8)).
Proof. exact size_range. Qed.
Print Assumptions C22_range_partial.
Example C22_range_ex : exists d, random_size [10; 1] [1; 4] two_rows (Some 1%nat) None (fun n => n) 0 (1/2) = Ok d.
Proof. destruct two_rows_exceeds as (d & E & _). exists d. exact E. Qed.

(** C22 does not hold without the allowance: the noise is only ever upwards, and takes a
    sample beyond the largest tabulated size. *)
Theorem C22_above_largest_refuted : exists ds cs t w z d,
  decreasing_table t /\ Permutation t (combine ds cs) /\ draw01 w /\ draw01 z /\
  random_size ds cs t (Some 1%nat) None (fun n => n) w z = Ok d /\ Forall (fun b => b < d) ds.
Proof.
  exact (match two_rows_exceeds with ex_intro _ d (conj E L) =>
    ex_intro _ [10; 1] (ex_intro _ [1; 4] (ex_intro _ two_rows (ex_intro _ 0 (ex_intro _ (1/2) (ex_intro _ d
      (conj two_rows_ok (conj (Permutation_refl _) (conj (conj (Rle_refl 0) Rlt_0_1) (conj half_draw (conj E
        (Forall_cons 10 L (Forall_cons 1 (Rlt_trans 1 10 d one_lt_ten L) (Forall_nil _)))))))))))))  end).
Qed.
Print Assumptions C22_above_largest_refuted.

(** C22.  A size is returned for every draw when the table is valid and not flat. *)
Theorem C22_total : forall ds cs t size mu poisson w z, List.length ds = List.length cs ->
  Permutation t (combine ds cs) -> decreasing_table t -> snd (first_row t) < snd (last_row t) ->
  size = None \/ mu = None -> draw01 w ->
  exists d, random_size ds cs t size mu poisson w z = Ok d.
Proof. exact size_exists. Qed.
Print Assumptions C22_total.
Example C22_total_ex : decreasing_table two_rows /\ Permutation two_rows (combine [10; 1] [1; 4]) /\
  snd (first_row two_rows) < snd (last_row two_rows).
Proof. split; [exact two_rows_ok |]. split; [apply Permutation_refl | cbn; lra]. Qed.

(** C22.  A table whose numbers are all equal passes the checks on the arguments, but no
    draw gives a size. *)
Theorem C22_flat_table_refuted : forall ds cs t size mu poisson w z, List.length ds = List.length cs ->
  Permutation t (combine ds cs) -> decreasing_table t -> snd (first_row t) = snd (last_row t) ->
  size = None \/ mu = None -> forall d, random_size ds cs t size mu poisson w z <> Ok d.
Proof. exact size_flat. Qed.
Print Assumptions C22_flat_table_refuted.
Example C22_flat_table_ex : decreasing_table [(10, 3); (1, 3)] /\ snd (first_row [(10, 3); (1, 3)]) = snd (last_row [(10, 3); (1, 3)]).
Proof. split; [| reflexivity]. split; [cbn; lia |]. split; repeat constructor; cbn; lra. Qed.

(** C22.  The sizes follow the table: the fraction of draws that give at least the size of
    row r is the row's share of the total.  (The draw u is uniform between the share of the
    first row and 1; the allowance is the noise.) *)
Theorem C22_distribution : forall ds cs t size mu poisson w z d r,
  Permutation t (combine ds cs) -> StronglySorted (fun a b => fst b <= fst a) t ->
  draw01 w -> draw01 z -> random_size ds cs t size mu poisson w z = Ok d -> In r t ->
  let u := fraction t (first_row t) + (1 - fraction t (first_row t)) * w in
  (u < fraction t r -> fst r <= d) /\ (fraction t r <= u -> d <= fst r * (1 + 1e-8)).
Proof. exact size_dist. Qed.
Print Assumptions C22_distribution.
Example C22_distribution_ex : In (10, 1) two_rows /\ fraction two_rows (10, 1) = 1/4.
Proof. split; [left; reflexivity | unfold fraction, last_row, two_rows; cbn; lra]. Qed.

(** C22.  Between two rows the size is the inverse of the table in the logarithms of size
    and number. *)
Theorem C22_log_inverse : forall t u, decreasing_table t -> fraction t (first_row t) <= u < 1 ->
  exists k r0 r1 d, nth_error t k = Some r0 /\ nth_error t (S k) = Some r1 /\ fraction t r0 <= u < fraction t r1 /\
    interp_size (map fst t) (map snd t) u = Ok d /\
    (ln u - ln (fraction t r0)) * (ln (fst r1) - ln (fst r0)) = (ln d - ln (fst r0)) * (ln (fraction t r1) - ln (fraction t r0)).
Proof. exact size_inverse. Qed.
Print Assumptions C22_log_inverse.
Example C22_log_inverse_ex : decreasing_table two_rows /\ fraction two_rows (first_row two_rows) <= 1/2 < 1.
Proof. split; [exact two_rows_ok | unfold fraction, first_row, last_row, two_rows; cbn; lra]. Qed.

(** C23.  With a mean above the escape velocity every sample is at least the escape velocity. *)
Theorem C23_fast : forall vm ve size batch rest, 0 <= ve < vm -> (size <= List.length batch)%nat ->
  exists vs, random_velocity vm (Some ve) size (batch :: rest) = Some vs /\ List.length vs = size /\ Forall (fun v => ve <= v) vs.
Proof. exact fast_length. Qed.
Print Assumptions C23_fast.
Example C23_fast_ex : 0 <= 2380 < 22100 /\ (2 <= List.length [(0, 1, 2); (1, 1, 1)])%nat.
Proof. cbn. split; [lra | lia]. Qed.

(** C23.  With a mean not above it, whatever the rejection loop returns is below the escape
    velocity and has the requested length. *)
Theorem C23_slow : forall vm ve size batches vs, vm <= ve -> 0 <= ve ->
  random_velocity vm (Some ve) size batches = Some vs -> Forall (fun v => 0 <= v < ve) vs /\ List.length vs = size.
Proof. exact slow_velocity. Qed.
Print Assumptions C23_slow.
Example C23_slow_ex : random_velocity 1000 (Some 2380) 1 [[(0, 0, 0)]] = Some [0].
Proof. apply slow_example. lra. Qed.

(** C23.  But the loop can run forever: a sample equal to the escape velocity is neither
    redrawn nor accepted, whatever is drawn afterwards. *)
Theorem C23_loop_refuted : forall vm ve, 0 < vm <= ve -> exists first, forall rest,
  random_velocity vm (Some ve) 1 (first :: rest) = None.
Proof. exact stuck_some. Qed.
Print Assumptions C23_loop_refuted.

(** C23.  Impact angles are at least 0 and below 90 degrees, and the probability of an angle
    of at most x is sin^2 x. *)
Theorem C23_angle : forall u, draw01 u -> 0 <= random_angle u < 90 /\
  forall x, 0 <= x <= 90 -> (random_angle u <= x <-> u <= (sin (deg2rad x))²).
Proof. exact (fun u H => conj (angle_range u H) (fun x X => angle_dist u x H X)). Qed.
Print Assumptions C23_angle.
Example C23_angle_ex : draw01 (1/2).
Proof. unfold draw01. lra. Qed.

(** C60.  Random locations are valid coordinates and uniform on the sphere: the longitude is
    uniform, and the probability of a latitude of at most x is (1 + sin x)/2, the share of
    the sphere south of x. *)
Theorem C60_uniform : forall u v, draw01 u -> draw01 v ->
  -180 <= random_lon u < 180 /\ -90 <= random_lat v <= 90 /\
  (forall x, -180 <= x <= 180 -> (random_lon u <= x <-> u <= (x + 180) / 360)) /\
  (forall x, -90 <= x <= 90 -> (random_lat v <= x <-> 1 - v <= (1 + sin (deg2rad x)) / 2)).
Proof. exact uniform_location. Qed.
Print Assumptions C60_uniform.
Example C60_uniform_ex : random_lon (1/4) = -90.
Proof. rewrite lon_eq. lra. Qed.

(** C60.  Impact directions are at least 0 and below 360 degrees, uniformly. *)
Theorem C60_direction : forall u, draw01 u -> 0 <= random_direction u < 360 /\
  forall x, random_direction u <= x <-> u <= x / 360.
Proof. exact uniform_direction. Qed.
Print Assumptions C60_direction.
Example C60_direction_ex : random_direction (1/2) = 180.
Proof. unfold random_direction. lra. Qed.

(** C60.  A bounded normal sample lies between its bounds, by default one standard
    deviation on either side. *)
Theorem C60_bounded : forall loc scale lower upper draw, 0 < scale ->
  (forall a b, a <= b -> a <= draw a b <= b) ->
  let lo := match lower with Some x => x | None => loc - scale end in
  let hi := match upper with Some x => x | None => loc + scale end in
  lo <= hi -> lo <= bounded_norm loc scale lower upper draw <= hi.
Proof. exact bounded_ok. Qed.
Print Assumptions C60_bounded.
Example C60_bounded_ex : bounded_norm 5 2 None None (fun a b => b) = 7.
Proof. unfold bounded_norm, bounds. lra. Qed.
