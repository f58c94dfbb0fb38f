(** Property theorems about measuring craters (C68, C69, C70, C71). *)
From Coq Require Import Reals NArith.
From Verif Require Import Common RSum Crater_model Measure_model Measure_spec Measure_proofs Measure_score Measure_loop.
Open Scope R_scope.

(** C68: if all elevations and distances are numbers, the floor depth is the mean elevation of
    the faces that record the crater and are within 0.2 of its measured radius, and there is
    none exactly when there is no such face.  Missing: elevations that are NaN (below). *)
Theorem C68_floor_depth_is_mean_partial r fs id s : picks (on_floor r id) fs s ->
  (s = [] -> rust_floor_depth r (ids_of fs) (elev_of fs) (dist_of fs) id = Ok None) /\
  (s <> [] -> exists m, rust_floor_depth r (ids_of fs) (elev_of fs) (dist_of fs) id = Ok (Some m) /\ is_mean (map c_elev s) m).
Proof. exact (floor_mean r fs id s). Qed.
Print Assumptions C68_floor_depth_is_mean_partial.
Example C68_floor_case : picks (on_floor 100 3) faces4 [mk_cface [7; 3]%N (-2) 0; mk_cface [3]%N (-1) 15].
Proof. exact picks_case. Qed.
(** C68: likewise the rim height, of the faces at 0.95 to 1.2 measured radii. *)
Theorem C68_rim_height_is_mean_partial r fs id s : picks (on_rim r id) fs s ->
  (s = [] -> rust_rim_height r (ids_of fs) (elev_of fs) (dist_of fs) id = Ok None) /\
  (s <> [] -> exists m, rust_rim_height r (ids_of fs) (elev_of fs) (dist_of fs) id = Ok (Some m) /\ is_mean (map c_elev s) m).
Proof. exact (rim_mean r fs id s). Qed.
Print Assumptions C68_rim_height_is_mean_partial.
Example C68_rim_case : picks (on_rim 100 3) faces4 [mk_cface [3]%N 4 100].
Proof. exact picks_case_rim. Qed.
(** C68: raising the whole region raises both measurements by the same amount. *)
Theorem C68_raising_the_region r h fs id fl rim :
  rust_floor_depth r (ids_of fs) (elev_of fs) (dist_of fs) id = Ok (Some fl) ->
  rust_rim_height r (ids_of fs) (elev_of fs) (dist_of fs) id = Ok (Some rim) ->
  rust_floor_depth r (ids_of (map (raised h) fs)) (elev_of (map (raised h) fs)) (dist_of (map (raised h) fs)) id = Ok (Some (fl + h)) /\
  rust_rim_height r (ids_of (map (raised h) fs)) (elev_of (map (raised h) fs)) (dist_of (map (raised h) fs)) id = Ok (Some (rim + h)).
Proof. exact (raised_both r h fs id fl rim). Qed.
Print Assumptions C68_raising_the_region.
(** C68 fails with NaN: elevations and distances are filtered separately and no longer belong
    together.  Here the only face on the floor has no elevation, and the elevation h of the
    face on the rim is returned as the floor depth. *)
Theorem C68_nan_elevation_refuted r h : 0 < r ->
  rust_floor_depth r (Some [[1%N]; [1%N]]) [None; Some h] (Some [Some 0; Some r]) 1%N = Ok (Some h).
Proof. exact (misaligned r h). Qed.
Print Assumptions C68_nan_elevation_refuted.
(** C68: measured_depth_to_diameter is (rim height - floor depth) / measured diameter for the
    present elevations, whatever was read before. *)
Theorem C68_depth_is_current deslope r id g c fl rim :
  binding_floor_depth r (g_ids g) (deslope (g_elev g)) (g_dist g) id = Ok fl ->
  binding_rim_height r (g_ids g) (deslope (g_elev g)) (g_dist g) id = Ok rim ->
  snd (read_depth_to_diameter deslope r id (with_cache c g)) = Ok ((rim - fl) / (2 * r)).
Proof. exact (depth_value deslope r id (with_cache c g) fl rim). Qed.
Print Assumptions C68_depth_is_current.
(** C68 fails for measured_rim_height read on its own: after a first read no change of the
    elevations changes it. *)
Theorem C68_rim_height_is_stale_refuted deslope r id g e :
  let '(g1, v1) := read_rim_height deslope r id g in snd (read_rim_height deslope r id (with_elev e g1)) = v1.
Proof. exact (rim_stale deslope r id g e). Qed.
Print Assumptions C68_rim_height_is_stale_refuted.
(** A rim at 10 m worn down to 2 m is still reported at 10 m. *)
Example C68_stale_case : let '(g1, v1) := read_rim_height (fun e => e) 100 3 stale_case in
  v1 = Ok 10 /\ snd (read_rim_height (fun e => e) 100 3 (with_elev [Some 2] g1)) = Ok 10 /\
  snd (read_rim_height (fun e => e) 100 3 (with_elev [Some 2] stale_case)) = Ok 2.
Proof. exact stale_rim. Qed.

(** C69: for every crater of at least 1 m there is a fraction t of the original depth, which
    depends only on its measured size, such that the crater is dropped from the count exactly
    when its depth is at most that fraction. *)
Theorem C69_counted_by_relative_depth r : 1 / 2 <= r -> exists t, 1 / 64 <= t < 1 /\
  forall depth orig, 0 < orig -> (worn (Some depth) orig r 0.3 2 = Ok true <-> depth <= t * orig) /\ (worn (Some depth) orig r 0.3 2 = Ok false <-> t * orig < depth).
Proof. exact (worn_default r). Qed.
Print Assumptions C69_counted_by_relative_depth.
Example C69_case : 1 / 2 <= 500 /\ 0 < 0.2.
Proof. split; Lra.lra. Qed.
(** C69: the degradation state is 0 for the original depth and never larger for a deeper
    crater; strictly smaller once the deeper one has a depth that is not negligible. *)
Theorem C69_original_depth orig r : 1 / 2 <= r -> 0 < orig -> degradation_state (Some orig) orig r = Ok 0.
Proof. exact (pristine orig r). Qed.
Print Assumptions C69_original_depth.
Theorem C69_deeper_is_less_degraded orig r d1 d2 : 1 / 2 <= r -> 0 < orig -> d1 <= d2 ->
  exists k1 k2, degradation_state (Some d1) orig r = Ok k1 /\ degradation_state (Some d2) orig r = Ok k2 /\ k2 <= k1 /\
  (VSMALL * orig < d2 -> d1 < d2 -> k2 < k1).
Proof. exact (degradation_decreases orig r d1 d2). Qed.
Print Assumptions C69_deeper_is_less_degraded.
(** C69: a crater without a face on its floor or on its rim that still records it is dropped. *)
Theorem C69_unresolved_is_dropped deslope r id g depth orig : 1 / 2 <= r -> 0 < orig ->
  (forall e, In (Some e) (deslope (g_elev g)) -> - f64_max < e < f64_max) ->
  rust_floor_depth r (g_ids g) (deslope (g_elev g)) (g_dist g) id = Ok None \/ rust_rim_height r (g_ids g) (deslope (g_elev g)) (g_dist g) id = Ok None ->
  snd (read_depth_to_diameter deslope r id g) = Ok depth ->
  depth < 0 /\ worn (Some depth) orig r 0.3 2 = Ok true.
Proof. exact (unresolved deslope r id g depth orig). Qed.
Print Assumptions C69_unresolved_is_dropped.

(** C70: there is one score per face, each in [0, 1], and only faces with numbers for their
    elevation and slopes that are within 1.5 semi-major axes get one. *)
Theorem C70_scores_in_unit scale ap bp q gm cm hm fs : List.length (score_rim scale ap bp q gm cm hm fs) = List.length fs /\
  (forall x, In (Some x) (score_rim scale ap bp q gm cm hm fs) -> 0 <= x <= 1) /\
  (forall i f x, nth_error fs i = Some f -> nth_error (score_rim scale ap bp q gm cm hm fs) i = Some (Some x) -> scorable ap bp f).
Proof. exact (conj (score_length scale ap bp q gm cm hm fs) (conj (score_unit scale ap bp q gm cm hm fs) (score_scorable scale ap bp q gm cm hm fs))). Qed.
Print Assumptions C70_scores_in_unit.
(** C70: unless the region is flat, as soon as a face can be scored some face has score 1, so
    that a rim can be fitted, and at least three faces per sector (9 to 18 sectors) or all
    faces that can be scored are used.  Missing: flat regions (below). *)
Theorem C70_enough_faces_partial scale ap bp q gm cm hm fs s : 0 < gm -> 0 <= cm -> 0 <= hm ->
  (exists u v, In (Some u) (map s_elev fs) /\ In (Some v) (map s_elev fs) /\ u < v) -> picks (scorable ap bp) fs s ->
  (s <> [] -> In (Some 1) (score_rim scale ap bp q gm cm hm fs)) /\
  exists n, (9 <= n <= 18 /\ Nat.min (3 * n) (List.length s) <= how_many is_num (score_rim scale ap bp q gm cm hm fs))%nat.
Proof. exact (enough_faces scale ap bp q gm cm hm fs s). Qed.
Print Assumptions C70_enough_faces_partial.
Example C70_case : (exists u v, In (Some u) (map s_elev sfaces) /\ In (Some v) (map s_elev sfaces) /\ u < v) /\
  picks (scorable 10 8) sfaces [mk_sface (Some 5) (Some 0.1) (Some (-1)) 0 10 45; mk_sface (Some 1) (Some 0.2) (Some 2) (-5) 5 200].
Proof. exact sfaces_case. Qed.
(** C70: unless it is flat, raising the region changes no score. *)
Theorem C70_raising_the_region_partial scale ap bp q gm cm hm h fs : (exists u v, In (Some u) (map s_elev fs) /\ In (Some v) (map s_elev fs) /\ u < v) ->
  score_rim scale ap bp q gm cm hm (map (lifted h) fs) = score_rim scale ap bp q gm cm hm fs.
Proof. exact (lifted_score scale ap bp q gm cm hm h fs). Qed.
Print Assumptions C70_raising_the_region_partial.
(** C70 fails for a flat region: its elevations are used as they are, and below -1 m no face
    gets a score. *)
Theorem C70_flat_region_refuted h : score_rim 1 1 1 0.95 1 1 1 (flat h) = [if Rlt_dec 0 (1 + h) then Some 1 else None].
Proof. exact (flat_score h). Qed.
Print Assumptions C70_flat_region_refuted.
(** C70: at most the fraction q of the other scores of a sector lies below its threshold, which
    is one of the scores. *)
Theorem C70_quantile_keeps l q t : 0 <= q <= 1 -> nanquantile l q = Some t ->
  In (Some t) l /\ INR (how_many (fun x => Rltb x t) (somes l)) <= q * (INR (List.length (somes l)) - 1).
Proof. exact (quantile_keeps l q t). Qed.
Print Assumptions C70_quantile_keeps.
(** C70 fails: the quantile is said to reproduce numpy.nanquantile, which interpolates; the
    median of 0 and 1 is 0.5 there. *)
Theorem C70_quantile_not_numpy_refuted : nanquantile [Some 0; Some 1] 0.5 = Some 0.
Proof. exact quantile_low. Qed.
Print Assumptions C70_quantile_not_numpy_refuted.

(** C71: the rim is fitted at most nloops times (at least once); the result is the last of a
    sequence of fits each made from the previous one, and either it differs from its
    predecessor by less than the tolerance or all loops were used. *)
Theorem C71_converged_or_exhausted {region : Type} extract fit tol radius nloops e asks res :
  @fit_rim_binding region extract fit tol radius nloops e = (asks, Ok res) ->
  exists n e' g, List.length asks = S n /\ refined extract fit tol radius e n e' /\
    extract (e_loc e') (2 * e_radius e') = Some g /\ fit n g e' = Ok res /\
    (close tol radius e' (snd (fst (fst res))) (snd (fst res)) \/ S n = Nat.max 1 nloops).
Proof. exact (binding_result extract fit tol radius nloops e asks res). Qed.
Print Assumptions C71_converged_or_exhausted.
Theorem C71_loop_bound {region : Type} extract fit tol radius nloops e asks r :
  @fit_rim_binding region extract fit tol radius nloops e = (asks, r) ->
  (1 <= List.length asks <= Nat.max 1 nloops)%nat /\ forall q, In q asks -> snd q = 2 * e_radius e.
Proof. exact (binding_asks extract fit tol radius nloops e asks r). Qed.
Print Assumptions C71_loop_bound.
(** C71 fails: the region is said to surround the best-fit rim, but its radius is always twice
    the first measured radius (previous theorem).  Here the second fit, of a rim three times
    as large, is made from a region of 200 m. *)
Theorem C71_region_not_enlarged_refuted : exists asks r, fit_rim_binding (fun _ _ => Some tt) (fun i _ _ => Ok ((0, 0), 100 * INR (2 + i), 100 * INR (2 + i), 0)) 0.01 100 2 (mk_estimate (0, 0) 100 100 100 0) = (asks, Ok r) /\
  asks = [((0, 0), 200); ((0, 0), 200)] /\ snd (fst (fst r)) = 300.
Proof. exact stale_region. Qed.
Print Assumptions C71_region_not_enlarged_refuted.
(** C71: the fitted axes, location and orientation are recorded on the crater.  Missing: a rim
    smaller than the crater's measured semi-minor axis (below). *)
Theorem C71_fit_is_recorded_partial norm loc a b o v m : 0 < b <= a -> v_minor v = Some m -> m <= a ->
  exists v', record_fit norm (loc, a, b, o) v = Ok v' /\ v_major v' = Some a /\ v_minor v' = Some b /\ v_loc v' = Some (norm loc) /\ v_orient v' = Some (mod360 (o * 180 / PI)).
Proof. exact (record_good norm loc a b o v m). Qed.
Print Assumptions C71_fit_is_recorded_partial.
(** C71 fails: a fitted rim smaller than the crater's measured semi-minor axis is recorded with
    that old axis as its semi-major axis, and the measured radius is too large. *)
Theorem C71_smaller_rim_refuted norm loc a b o v m : 0 < b <= a -> v_minor v = Some m -> a < m ->
  exists v', record_fit norm (loc, a, b, o) v = Ok v' /\ v_major v' = Some m /\ v_major v' <> Some a /\ v_minor v' = Some b /\ exists r, measured_radius v' = Some r /\ sqrt (a * b) < r.
Proof. exact (record_bad norm loc a b o v m). Qed.
Print Assumptions C71_smaller_rim_refuted.
(** A circle of 90 m fitted to a crater of 100 m is recorded as an ellipse of 100 m by 90 m. *)
Example C71_smaller_case : exists v', fit_rim (fun _ _ => Some tt) shrink (fun p => p) 0.01 100 4 cv = Ok v' /\ v_major v' = Some 100 /\ v_minor v' = Some 90.
Proof. exact shrink_case. Qed.
