(** Property theorems about the mesh of a high resolution local surface (C79, C80). *)
From Coq Require Import Reals ZArith.
From Verif Require Import Common Hires_model Hires_spec Hires_sizes Hires_grid Hires_rings Hires_rotation Hires_sphere Hires_gap.
Open Scope R_scope.

(** C79: for a local region smaller than a quarter of the circumference the face size is the
    requested one up to the local radius, never decreases with the distance, and is the requested
    multiple of it at the local radius from the antipode. *)
Theorem C79_sizes radius pix loc f h : 0 < radius -> make radius pix loc f = Ok h -> 2 * loc < PI * radius ->
  (forall r, r <= loc -> has_size h r pix) /\
  (forall r1 r2 x1 x2, r1 <= r2 -> has_size h r1 x1 -> has_size h r2 x2 -> pix <= x1 <= x2) /\
  has_size h (PI * radius - loc) (pix * f) /\ forall r, exists x, has_size h r x.
Proof. exact (sizes radius pix loc f h). Qed.
Print Assumptions C79_sizes.
Example C79_case : 0 < 1 /\ make 1 0.001 1 1 = Ok g_h /\ 3 < PI.
Proof. exact (conj Rlt_0_1 (conj g_make PI_gt_3)). Qed.
(** C79 fails at the antipode: the factor is documented to be the ratio of the face size there to
    the local one, but the faces there are always larger than that. *)
Theorem C79_antipode_refuted radius pix loc f h : 0 < radius -> make radius pix loc f = Ok h -> 2 * loc < PI * radius -> 1 < f ->
  exists x, has_size h (PI * radius) x /\ pix * f < x.
Proof. exact (antipode radius pix loc f h). Qed.
Print Assumptions C79_antipode_refuted.
(** C79 fails for local regions of a quarter of the circumference or more, which the setter
    accepts: the size cannot be computed for exactly a quarter, and beyond it the faces outside
    are smaller than the local ones. *)
Theorem C79_wide_refuted radius pix loc f h : 0 < radius -> make radius pix loc f = Ok h ->
  (2 * loc = PI * radius -> forall r, superdomain_function r h = Err ZeroDivisionError) /\
  (PI * radius < 2 * loc -> 1 < f -> forall r, loc < r -> exists x, has_size h r x /\ x < pix).
Proof. exact (fun P M => conj (fun D r => half radius pix loc f h r M D) (wide radius pix loc f h P M)). Qed.
Print Assumptions C79_wide_refuted.
Example C79_wide_case : make (/ PI) 0.1 0.75 4 = Ok (mk_h (/ PI) 0.1 0.75 (Some 4) None None) /\
  0.75 + 0.1 <= PI * / PI /\ (4 - 1) * 0.1 < 2 * 0.75 - PI * / PI < (4 - 1) * (PI * / PI - 0.75).
Proof. exact wide_case. Qed.
(** C79 fails when the factor is changed after the function was used: the new factor is accepted
    and reported, and every size stays as before. *)
Theorem C79_new_factor_refuted r0 h x0 h' f h2 : superdomain_function r0 h = Ok (x0, h') -> set_factor f h' = Ok h2 ->
  h_factor h2 = Some f /\ forall r x, has_size h2 r x <-> has_size h r x.
Proof. exact (stale r0 h x0 h' f h2). Qed.
Print Assumptions C79_new_factor_refuted.
(** C79: the automatic sizes are found in finitely many steps for every reach of ejecta.  Each is
    the first candidate from the size before whose ejecta reach the distance; it is the size
    before if there is none. *)
Theorem C79_automatic rmax radius : 0.05 <= radius ->
  (exists n l, auto_sizes rmax n radius 1 0.1 = Some l) /\
  forall n l, auto_sizes rmax n radius 1 0.1 = Some l -> forall l1 d s l2, l = (l1 ++ (d, s) :: l2)%list -> let p := last (map snd l1) 0.1 in
  d < PI * radius /\ p <= s <= radius * 2 /\
  ((exists c1 c2, candidates p radius = (c1 ++ s :: c2)%list /\ d <= rmax s /\ forall c, In c c1 -> rmax c < d) \/ (s = p /\ forall c, In c (candidates p radius) -> rmax c < d)).
Proof. exact (automatic rmax radius). Qed.
Print Assumptions C79_automatic.
(** C79 fails for automatic sizes: the reported factor is the face size at the antipode in
    metres, not its ratio to the local size. *)
Theorem C79_automatic_factor_refuted rmax fit fuel h h' a b l : auto_sizes rmax fuel (h_radius h) 1 (1 * 0.1) = Some l -> fit l = Some (a, b) ->
  set_superdomain rmax fit fuel h = Some h' ->
  exists x, has_size h' (PI * h_radius h) x /\ h_factor h' = Some x.
Proof. exact (fun A F S => ex_intro _ _ (conj (proj2 (auto_factor rmax fit fuel h h' a b l A F S)) (proj1 (auto_factor rmax fit fuel h h' a b l A F S)))). Qed.
Print Assumptions C79_automatic_factor_refuted.

(** C80: the points of the local region are those of a square lattice with the requested step
    less than the whole number of faces in the local radius from the centre, each once; all lie
    in the local region, on the unit sphere. *)
Theorem C80_local_points radius pix loc f h k fuel pts rings : 0 < radius -> make radius pix loc f = Ok h -> 2 * loc < PI * radius -> faces_across pix loc k ->
  generate fuel h = Some (Ok (pts, rings)) ->
  NoDup pts /\ (forall p, In p pts <-> lattice (pix / radius) k p) /\
  forall p, In p pts -> vdot (interior_point p) (interior_point p) = 1 /\ radius * angle pole (interior_point p) < loc.
Proof. exact (local_points radius pix loc f h k fuel pts rings). Qed.
Print Assumptions C80_local_points.
(** C80: outside, rings of points follow each other at the local face size, the points of a ring
    are spaced by the local face size to a quarter, and every distance up to the antipode is less
    than two faces beyond a ring. *)
Theorem C80_rings radius pix loc f h k size fuel pts rings : 0 < radius -> make radius pix loc f = Ok h -> 2 * loc < PI * radius -> faces_across pix loc k ->
  (forall r, has_size h r (size r)) -> generate fuel h = Some (Ok (pts, rings)) ->
  successive radius size ((INR k + 1) * (pix / radius)) rings /\
  (forall t n, In (t, n) rings -> loc < radius * t /\ radius * t + size (radius * t) <= PI * radius /\ (1 <= n)%Z /\
    (n = 1%Z -> 2 * PI * radius * sin t <= 3 / 2 * size (radius * t)) /\
    ((2 <= n)%Z -> 3 / 4 * size (radius * t) <= 2 * PI * radius * sin t / IZR n <= 5 / 4 * size (radius * t))) /\
  (rings <> [] -> forall r, (INR k + 1) * pix <= r <= PI * radius -> exists t n, In (t, n) rings /\
    radius * t <= r < radius * t + size (radius * t) + size (radius * t + size (radius * t))).
Proof. exact (rings_spec radius pix loc f h k size fuel pts rings). Qed.
Print Assumptions C80_rings.
(** C80: the points of a ring of [n] at the angle [t] lie on the unit sphere at that angle from the
    centre of the region, each one [n]th of a turn from the one before, the first from the last. *)
Theorem C80_ring_points t n : (1 <= n)%Z -> 0 <= t <= PI ->
  List.length (ring_points (t, n)) = Z.to_nat n /\
  (forall q, In q (ring_points (t, n)) -> vdot q q = 1 /\ angle pole q = t) /\
  forall j, (j < Z.to_nat n)%nat ->
    nth ((j + 1) mod Z.to_nat n) (ring_points (t, n)) pole = spun (2 * PI / IZR n) (nth j (ring_points (t, n)) pole).
Proof. exact (ring_even t n). Qed.
Print Assumptions C80_ring_points.
(** C80: the generation ends. *)
Theorem C80_ends radius pix loc f h : 0 < radius -> make radius pix loc f = Ok h -> 2 * loc < PI * radius ->
  exists enough, forall fuel, (enough <= fuel)%nat -> exists pts rings, generate fuel h = Some (Ok (pts, rings)).
Proof. exact (generate_ends radius pix loc f h). Qed.
Print Assumptions C80_ends.
(** C80 fails for large regions that the setters accept: with the largest local radius, and with
    regions beyond a quarter of the circumference whose face size falls to zero before the
    antipode, the generation never ends. *)
Theorem C80_endless_refuted :
  (forall radius pix f h, 0 < radius -> make radius pix (PI * radius) f = Ok h -> forall fuel, generate fuel h = None) /\
  (forall radius pix loc f h, 0 < radius -> make radius pix loc f = Ok h -> loc + pix <= PI * radius ->
    (f - 1) * pix < 2 * loc - PI * radius < (f - 1) * (PI * radius - loc) -> forall fuel, generate fuel h = None).
Proof. exact (conj antipode_endless wide_endless). Qed.
Print Assumptions C80_endless_refuted.
(** C80 fails for large regions towards the diagonals: the local lattice does not reach the edge
    of the region there.  On a unit sphere with a local radius of 1 and faces of 0.001, a
    point 15 faces inside the edge has no point of the mesh within 15 faces. *)
Theorem C80_gap_refuted : make 1 0.001 1 1 = Ok g_h /\ vdot g_P g_P = 1 /\ 1 * angle pole g_P <= 1 - 15 * 0.001 /\
  forall fuel pts rings, generate fuel g_h = Some (Ok (pts, rings)) -> forall q, In q (all_points (pts, rings)) -> 15 * 0.001 < 1 * angle g_P q.
Proof. exact (conj g_make gap). Qed.
Print Assumptions C80_gap_refuted.
(** C80: the rotation to the local region keeps all angles, and takes the centre to the requested
    location unless it is a pole. *)
Theorem C80_rotation location : -90 <= snd location <= 90 ->
  (forall u v, vdot (rotate location u) (rotate location v) = vdot u v) /\
  (1e-10 <= cos (snd location * (PI / 180)) -> rotate location pole = position (fst location) (snd location)) /\
  (Rabs (cos (snd location * (PI / 180))) < 1e-10 -> 0 < sin (snd location * (PI / 180)) ->
    rotate location pole = pole /\ 1 - 1e-20 <= vdot pole (position (fst location) (snd location))).
Proof. exact (fun B => conj (rotate_isometry location) (conj (rotate_pole location B) (fun C S => rotate_near_north location C S pole))). Qed.
Print Assumptions C80_rotation.
(** C80 fails for a local region at the south pole: nothing is rotated, and the fine faces are at
    the north pole. *)
Theorem C80_south_pole_refuted lon : (forall p, rotate (lon, -90) p = p) /\ rotate (lon, -90) pole = pole /\ position lon (-90) = (0, 0, -1).
Proof. exact (conj (south lon) (conj (south lon pole) (south_away lon))). Qed.
Print Assumptions C80_south_pole_refuted.
