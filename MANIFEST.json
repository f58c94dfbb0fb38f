{
 "claims": [
  {
   "property": "C01",
   "status": "partial",
   "theorems": [
    "C01_latitude_in_range",
    "C01_normalised_partial",
    "C01_same_point_partial",
    "C01_longitude_range_iff",
    "C01_longitude_range_refuted",
    "C01_idempotent_refuted",
    "C01_same_point_refuted"
   ],
   "note": "Latitude range holds always; the documented longitude range, same-point and idempotence hold for legal latitudes and are refuted beyond the poles."
  },
  {
   "property": "C02",
   "status": "partial",
   "theorems": [
    "C02_generator_as_is",
    "C02_seed_reproducible",
    "C02_state_alone_partial",
    "C02_invalid_rejected",
    "C02_seed_and_state_refuted",
    "C02_assigning_state_refuted",
    "C02_components_share_generator",
    "C02_assigning_no_generator"
   ],
   "note": "Generator used as is, seed alone and state alone reproducible, components share one generator. Refuted: seed plus state always raises although the state is documented to win; assigning rng_state never changes the generator."
  },
  {
   "property": "C03",
   "status": "proved",
   "theorems": [
    "C03_by_name",
    "C03_default",
    "C03_dispatch",
    "C03_isolation"
   ],
   "note": "Dispatch by name, class, instance and default over registries built by any sequence of registrations, and isolation of names and families."
  },
  {
   "property": "C04",
   "status": "partial",
   "theorems": [
    "C04_precedence",
    "C04_rejected_keyword",
    "C04_catalogue_restored_refuted"
   ],
   "note": "Precedence proved for every well-behaved object; when a keyword is rejected the shared catalogue keeps a stray entry (refuted)."
  },
  {
   "property": "C05",
   "status": "partial",
   "theorems": [
    "C05_saved_parameters",
    "C05_only_user_values_refuted",
    "C05_rebuild_partial",
    "C05_rebuild_refuted"
   ],
   "note": "Exact content of the saved configuration proved. Refuted: values from the catalogue are saved as if set by the user; mass and transition_scale_type are not saved, so a custom body cannot be rebuilt. Rebuilding is proved otherwise. Only the target's configuration is modelled."
  },
  {
   "property": "C06",
   "status": "partial",
   "theorems": [
    "C06_saved_intervals",
    "C06_nothing_saved",
    "C06_read_partial",
    "C06_read_same_width_partial",
    "C06_million_refuted"
   ],
   "note": "Saved interval numbers exact for all intervals; reading exact when all intervals have the same width (in particular below a million). Refuted from a million on: files are sorted by name, intervals by number."
  },
  {
   "property": "C07",
   "status": "partial",
   "theorems": [
    "C07_success_removes_exactly",
    "C07_accepted",
    "C07_failure_partial",
    "C07_first_refusal_partial",
    "C07_refusal_refuted",
    "C07_preference_partial",
    "C07_preference_refuted"
   ],
   "note": "Success removes exactly the listed files, failure removes exactly those before the file at which it stopped. Refuted: files accepted before a refusal are already deleted; a failed export leaves the overridden preference."
  },
  {
   "property": "C08",
   "status": "partial",
   "theorems": [
    "C08_atomic_partial",
    "C08_history_partial",
    "C08_save_runs_in_order",
    "C08_error_kind_partial",
    "C08_error_kind_refuted",
    "C08_shared_list_refuted"
   ],
   "note": "Atomic set and add over any history of objects that share no list, and ordered execution. Refuted: the caller's list is stored itself and may be shared; on components without a name the error is an AttributeError."
  },
  {
   "property": "C09",
   "status": "partial",
   "theorems": [
    "C09_run_covers_period",
    "C09_time_runs_complete",
    "C09_resume_partial",
    "C09_resume_refuted"
   ],
   "note": "Runs of new simulations (and continuations) tile the requested period in every mode (time steps, number steps, one step; ages, times, N(D) or numbers). A resumed run with time_interval starts on the request's step grid, possibly before the current time: exact characterisation as partial, double coverage refuted with a witness. Idealised: floats as reals, the age solver returns exact roots."
  },
  {
   "property": "C10",
   "status": "partial",
   "theorems": [
    "C10_bookkeeping_partial",
    "C10_elapsed_refuted",
    "C10_saved_states",
    "C10_rerun_partial",
    "C10_rerun_refuted"
   ],
   "note": "Time, interval and crater-number bookkeeping proved in every mode; elapsed time and idempotent re-runs hold unless a time_interval does not divide the period (refuted with 100/30)."
  },
  {
   "property": "C11",
   "status": "partial",
   "theorems": [
    "C11_accepted_iff",
    "C11_rejected_without_effect",
    "C11_start_too_late",
    "C11_density_with_time_interval",
    "C11_zero_length_refuted",
    "C11_ignored_density_refuted"
   ],
   "note": "Acceptance of time arguments characterised exactly (iff) and rejection shown to be without effect. Refuted: zero-length period fails after setting the time; N_D with time_end is silently ignored."
  },
  {
   "property": "C12",
   "status": "proved",
   "theorems": [
    "C12_merge_exactly_once",
    "C12_each_user_crater_once_per_run"
   ],
   "note": "Proved for every population, user list and window, and over the consecutive periods of a run. The identity of a crater stands for the object (the new hash id of a copied crater is not modelled)."
  },
  {
   "property": "C13",
   "status": "proved",
   "theorems": [
    "C13_times_in_window"
   ],
   "note": "Proved for every production function and grid size >= 2 (the code uses 1000)."
  },
  {
   "property": "C14",
   "status": "proved",
   "theorems": [
    "C14_chronology_laws",
    "C14_number_laws",
    "C14_age_inverse",
    "C14_diameter_inverse",
    "C14_good_for_runs"
   ],
   "note": "Chronology laws, numbers for all three versions, inverse age and diameter (root finder idealised: exact root in the bracket). Also: the crater versions satisfy the hypotheses of C09-C11."
  },
  {
   "property": "C15",
   "status": "partial",
   "theorems": [
    "C15_coefficients_partial",
    "C15_frozen_partial",
    "C15_stale_refuted"
   ],
   "note": "False of the code: Clin and Cexp are cached at first use and survive a change of version. Exact: frozen from the first evaluation; right if nothing is evaluated before the last assignment."
  },
  {
   "property": "C16",
   "status": "partial",
   "theorems": [
    "C16_powerlaw_laws",
    "C16_constructor",
    "C16_chronology_refuted",
    "C16_slope_setter_refuted"
   ],
   "note": "function is as stated; chronology is a constant independent of time, and the slope setter does not normalise the sign."
  },
  {
   "property": "C17",
   "status": "partial",
   "theorems": [
    "C17_transient_round_trip",
    "C17_solver_domain",
    "C17_solver_window",
    "C17_final_round_trip",
    "C17_type_round_trip_refuted",
    "C17_increasing",
    "C17_final_larger"
   ],
   "note": "Diameters are recovered exactly. The morphology type is not preserved just above twice the transition diameter (refuted with witness); exact condition proved. The solver fails outside a stated range."
  },
  {
   "property": "C18",
   "status": "partial",
   "theorems": [
    "C18_morphology_law",
    "C18_invalid_diameter",
    "C18_reported_type_refuted"
   ],
   "note": "Law of the type proved exactly; the type reported by transient_to_final disagrees with the type of the reported diameter in a window (refuted for every parameter set)."
  },
  {
   "property": "C19",
   "status": "proved",
   "theorems": [
    "C19_construction",
    "C19_last_assignment",
    "C19_sound",
    "C19_derived"
   ],
   "note": "Constructor, assignment histories and derived quantities. Attributes inherited from the base class are not modelled."
  },
  {
   "property": "C20",
   "status": "partial",
   "theorems": [
    "C20_density_exact_partial",
    "C20_user_density_refuted",
    "C20_named_target_refuted",
    "C20_named_target_parameters",
    "C20_default_target"
   ],
   "note": "Refuted for every target with a known material; exact density proved. For a target given by name every target keyword is lost."
  },
  {
   "property": "C21",
   "status": "proved",
   "theorems": [
    "C21_inside_face",
    "C21_by_area"
   ],
   "note": "Proved for faces with any number of corners whose triangles have a positive total area."
  },
  {
   "property": "C22",
   "status": "partial",
   "theorems": [
    "C22_range_partial",
    "C22_above_largest_refuted",
    "C22_total",
    "C22_flat_table_refuted",
    "C22_distribution",
    "C22_log_inverse"
   ],
   "note": "Proved: existence, distribution and the log-log inverse. The upper bound holds only up to the noise of 1e-8 that is added upwards (C22_above_largest_refuted); a flat table passes the checks but no draw succeeds (C22_flat_table_refuted)."
  },
  {
   "property": "C23",
   "status": "partial",
   "theorems": [
    "C23_fast",
    "C23_slow",
    "C23_loop_refuted",
    "C23_angle"
   ],
   "note": "Velocities and angles proved. Termination of the rejection loop fails when a sample equals the escape velocity (C23_loop_refuted)."
  },
  {
   "property": "C24",
   "status": "partial",
   "theorems": [
    "C24_fixed_attributes_never_change_partial",
    "C24_fixed_assignment_rejected_partial",
    "C24_subclass_attribute_not_rejected_refuted"
   ],
   "note": "Immutability holds for every assignment history. Assignments to attributes added by a morphology model are dropped silently instead of being rejected (refuted)."
  },
  {
   "property": "C25",
   "status": "partial",
   "theorems": [
    "C25_axes_ordered_after_any_assignments",
    "C25_made_craters_have_ordered_axes",
    "C25_nonpositive_rejected",
    "C25_failed_assignment_has_no_effect",
    "C25_radius_reads_back_partial",
    "C25_radius_axes_partial",
    "C25_smaller_radius_lost_refuted"
   ],
   "note": "Order and rejection proved for all histories; read-back holds exactly when the new radius is not below the old semi-minor axis (refuted otherwise)."
  },
  {
   "property": "C26",
   "status": "partial",
   "theorems": [
    "C26_copy_preserves_everything_partial",
    "C26_plain_arguments_override_partial",
    "C26_name_lost_on_copy_refuted",
    "C26_shrinking_copy_measured_refuted",
    "C26_measured_radius_mixed_refuted",
    "C26_vertical_velocity_erases_velocity_refuted",
    "C26_cleared_measurement_reset_refuted",
    "C26_half_cleared_copy_fails_refuted"
   ],
   "note": "Copy without arguments is exact when measured values are set; several explicit arguments do not override (refuted with witnesses)."
  },
  {
   "property": "C27",
   "status": "partial",
   "theorems": [
    "C27_tuple_columns_round_trip_partial",
    "C27_missing_measured_location_refuted"
   ],
   "note": "Round trip proved for records whose tuples are present in full or absent; a None measured location makes flattening fail."
  },
  {
   "property": "C28",
   "status": "proved",
   "theorems": [
    "C28_formed_once_in_order",
    "C28_terminates"
   ],
   "note": "Processing loop terminates and forms each queued crater once, in order."
  },
  {
   "property": "C29",
   "status": "proved",
   "theorems": [
    "C29_batch"
   ],
   "note": "Batch is a maximal pairwise disjoint non-empty prefix."
  },
  {
   "property": "C30",
   "status": "partial",
   "theorems": [
    "C30_failure_partial",
    "C30_singleton_batches_partial",
    "C30_no_repeat_refuted"
   ],
   "note": "Exact description of formed/queued craters after any failure; refuted in general: craters of an interrupted batch are formed again."
  },
  {
   "property": "C31",
   "status": "partial",
   "theorems": [
    "C31_ejecta_balances_excavation",
    "C31_crater_conserves_volume",
    "C31_crater_returns",
    "C31_blanket_sign",
    "C31_thickness_nonnegative_refuted",
    "C31_zero_volume_refuted"
   ],
   "note": "Volume balance for every mesh and profile; refuted parts: negative thickness when the shape fills, exception at exactly zero excavation."
  },
  {
   "property": "C32",
   "status": "partial",
   "theorems": [
    "C32_profile_defined",
    "C32_floor",
    "C32_wall_rises",
    "C32_rim_continuous",
    "C32_never_below_floor",
    "C32_exterior_raised",
    "C32_exterior_falls",
    "C32_lunar_shapes_admissible",
    "C32_exterior_raised_refuted"
   ],
   "note": "All parts proved on a flat reference; never-below-floor on any reference. Refuted part: outside the rim the profile can be below the reference (small craters)."
  },
  {
   "property": "C33",
   "status": "proved",
   "theorems": [
    "C33_ejecta_profile"
   ],
   "note": "Array entry point, cube law included."
  },
  {
   "property": "C34",
   "status": "proved",
   "theorems": [
    "C34_diffusion_conserves_volume",
    "C34_api_conserves_volume",
    "C34_api_rejects_iff"
   ],
   "note": "Solver and Python entry point. Mesh must have positive areas and positive centre distances."
  },
  {
   "property": "C35",
   "status": "proved",
   "theorems": [
    "C35_no_new_extrema",
    "C35_flat_unchanged",
    "C35_is_finite_volume_scheme",
    "C35_relief_decreases"
   ],
   "note": "Also proves the solver equals the documented finite-volume scheme and that relief strictly decreases."
  },
  {
   "property": "C36",
   "status": "proved",
   "theorems": [
    "C36_slope_collapse",
    "C36_gentle_surface_unchanged",
    "C36_other_angles"
   ],
   "note": "The claim is conditional on stopping before the iteration limit, as stated; proved for every iteration limit and every angle between 0 and 90 degrees, other angles act as the one in that range with the same tangent."
  },
  {
   "property": "C37",
   "status": "proved",
   "theorems": [
    "C37_node_is_weighted_mean",
    "C37_node_between_faces",
    "C37_isolated_node"
   ],
   "note": ""
  },
  {
   "property": "C38",
   "status": "proved",
   "theorems": [
    "C38_distance_is_angle",
    "C38_distance_is_metric",
    "C38_whole_turns"
   ],
   "note": "Also triangle inequality and identity of indiscernibles. Radians; f64 idealised as reals."
  },
  {
   "property": "C39",
   "status": "proved",
   "theorems": [
    "C39_destination_distance"
   ],
   "note": "Poles included."
  },
  {
   "property": "C40",
   "status": "partial",
   "theorems": [
    "C40_add_tag_partial",
    "C40_full_face",
    "C40_keeps_other_tags_refuted",
    "C40_remove_tag"
   ],
   "note": "False in full: a ninth tag on a face whose eight layers are taken silently replaces the smallest tag (exactly characterised). Proved for faces with a free layer; removal is proved in full."
  },
  {
   "property": "C41",
   "status": "partial",
   "theorems": [
    "C41_observed_recorded_partial",
    "C41_observed_recorded_refuted",
    "C41_tally"
   ],
   "note": "Proved by induction over all histories in which no face is covered by more than eight added craters; refuted without that bound. Tally behaviour proved in full."
  },
  {
   "property": "C42",
   "status": "proved",
   "theorems": [
    "C42_removes_only_smaller_and_gone",
    "C42_cuts_the_interior"
   ],
   "note": "Proved for every reachable count and every crater."
  },
  {
   "property": "C43",
   "status": "proved",
   "theorems": [
    "C43_fixed_centre_circle_is_best",
    "C43_fixed_centre_circle_exists"
   ],
   "note": "Proved for all weighted point lists; the fit exists exactly when some weight is positive."
  },
  {
   "property": "C44",
   "status": "partial",
   "theorems": [
    "C44_parameters_describe_conic_partial",
    "C44_orientation_a_quarter_turn_off_refuted",
    "C44_negative_orientation_refuted",
    "C44_other_conics_rejected"
   ],
   "note": "Exact characterisation: right in the listed cases; refuted in the complementary ones, where the orientation is a quarter turn off (x^2/4+y^2=1 reported with its long axis along y), and the orientation can be negative."
  },
  {
   "property": "C45",
   "status": "proved",
   "theorems": [
    "C45_region_contents",
    "C45_no_region",
    "C45_whole_surface",
    "C45_local_indices"
   ],
   "note": "Exact contents of a region in terms of the connectivity arrays and the ball-tree query; emptiness; whole surface; local indices."
  },
  {
   "property": "C46",
   "status": "proved",
   "theorems": [
    "C46_face_array",
    "C46_node_array",
    "C46_face_and_node_array",
    "C46_single_number",
    "C46_other_sizes_refused"
   ],
   "note": "One theorem per size, each also saying what does not change."
  },
  {
   "property": "C47",
   "status": "proved",
   "theorems": [
    "C47_noise_adds_no_volume",
    "C47_reported_volume"
   ],
   "note": "For any noise field and any outcome of the call; tied to the reported volume."
  },
  {
   "property": "C48",
   "status": "partial",
   "theorems": [
    "C48_faces_partitioned_partial",
    "C48_power_of_two_refuted",
    "C48_equal_areas_refuted"
   ],
   "note": "Proved unless the area ratio is an exact power of two; then, and for every mesh of equal faces, an IndexError (refuted)."
  },
  {
   "property": "C49",
   "status": "partial",
   "theorems": [
    "C49_no_double_degradation_partial",
    "C49_full_coverage_refuted"
   ],
   "note": "At most once is proved; full coverage is refuted (gaps between batches)."
  },
  {
   "property": "C50",
   "status": "partial",
   "theorems": [
    "C50_extent_bounds",
    "C50_extent_separates",
    "C50_truncation_refuted"
   ],
   "note": "Bounds and separation proved for any sound root finder; refuted: a truncation factor below 1.0001 is exceeded."
  },
  {
   "property": "C51",
   "status": "proved",
   "theorems": [
    "C51_bearing_meaning",
    "C51_bearing_round_trip",
    "C51_location_round_trip"
   ],
   "note": "Both round trips."
  },
  {
   "property": "C52",
   "status": "partial",
   "theorems": [
    "C52_saved_craters_read_back_partial",
    "C52_integer_time_changes_id_refuted",
    "C52_csv_reload_always_fails_refuted"
   ],
   "note": "Dataset round trip is exact up to the name; CSV reload always raises."
  },
  {
   "property": "C53",
   "status": "proved",
   "theorems": [
    "C53_old_ejecta_inside_erased",
    "C53_subpixel_crater_ignored"
   ],
   "note": "Relational statement over two surfaces differing only inside the crater."
  },
  {
   "property": "C54",
   "status": "partial",
   "theorems": [
    "C54_share_partial",
    "C54_time_in_chosen",
    "C54_constant_rate_refuted",
    "C54_constant_rate_partial",
    "C54_oldest_part_refuted"
   ],
   "note": "False of the code: searchsorted(side='right') - 1 on a cumulative sum whose first entry is 0 shifts the weights, so a part gets a share proportional to N(t_(i+1)) - N(t_0), not N(t_(i+1)) - N(t_i), and the oldest part is never chosen. Exact shares proved."
  },
  {
   "property": "C55",
   "status": "partial",
   "theorems": [
    "C55_normalisation_partial",
    "C55_normalisation_refuted"
   ],
   "note": "False of the code: csfd(1 km) is 1000*10^a0 rather than 1, so numbers are off by 0.817 (Moon) or 0.413 (Mars). Exact factor proved."
  },
  {
   "property": "C56",
   "status": "partial",
   "theorems": [
    "C56_defined",
    "C56_deterministic",
    "C56_positive",
    "C56_decreasing",
    "C56_continuous",
    "C56_zero_endless_refuted"
   ],
   "note": "Table polynomials certified by rational interval arithmetic inside Coq. Fails only at diameter 0, which is accepted: the projectile version never terminates there (the others divide by zero, not modelled)."
  },
  {
   "property": "C57",
   "status": "partial",
   "theorems": [
    "C57_slope_below_partial",
    "C57_kink_refuted"
   ],
   "note": "False of the code: the exponent omits the factors (i+1) of the derivative. Exact slope proved."
  },
  {
   "property": "C58",
   "status": "proved",
   "theorems": [
    "C58_projectile_increasing",
    "C58_projectile_round_trip",
    "C58_projectile_inverse"
   ],
   "note": "The root finder is modelled by its specification: a root in the bracket, error if there is no sign change."
  },
  {
   "property": "C59",
   "status": "partial",
   "theorems": [
    "C59_explicit_target_refuted"
   ],
   "note": "Refuted for every pair of catalogue bodies: the saved radius and material are applied to the new target."
  },
  {
   "property": "C60",
   "status": "proved",
   "theorems": [
    "C60_uniform",
    "C60_direction",
    "C60_bounded"
   ],
   "note": "Distributions are stated by the draws: the set of draws that give a value up to x."
  },
  {
   "property": "C61",
   "status": "partial",
   "theorems": [
    "C61_circle_fit_is_best",
    "C61_circle_is_recovered",
    "C61_circle_misfit",
    "C61_circle_exists_partial",
    "C61_cancelling_weights_refuted"
   ],
   "note": "Best fit, exact recovery and misfit proved; existence refuted when weights cancel (the guard sums the raw weights)."
  },
  {
   "property": "C62",
   "status": "proved",
   "theorems": [
    "C62_fit_is_an_ellipse",
    "C62_ellipse_fit_is_best",
    "C62_ellipse_points_are_on_the_fit",
    "C62_fixed_centre_ellipse_is_best",
    "C62_line_is_rejected"
   ],
   "note": "Proved for free and fixed centres, for every routine listing eigenvectors."
  },
  {
   "property": "C63",
   "status": "partial",
   "theorems": [
    "C63_rim_distance_sign",
    "C63_rim_distance_is_radial",
    "C63_distance_to_fitted_rim_partial",
    "C63_fitted_point_off_the_rim_refuted",
    "C63_misfit_distance_not_zero_refuted"
   ],
   "note": "Sign and radial meaning proved; refuted: the fitted orientation is read back a quarter turn off in half of the cases, and geometric_distances rebinds a, b so that it is not zero on the ellipse."
  },
  {
   "property": "C64",
   "status": "partial",
   "theorems": [
    "C64_change_is_height_over_radius_partial",
    "C64_kilometre_gives_less_than_a_millimetre_refuted"
   ],
   "note": "The height is divided by the radius of the body and never multiplied back: the change is at most 8/3 height/radius metres; refuted for the Moon and the default height."
  },
  {
   "property": "C65",
   "status": "partial",
   "theorems": [
    "C65_subregion_faces_and_edges_partial",
    "C65_subregion_lacks_nodes_refuted"
   ],
   "note": "Faces and edges agree; the nodes of buffer faces are missing (refuted)."
  },
  {
   "property": "C66",
   "status": "partial",
   "theorems": [
    "C66_nodes_follow_faces_partial",
    "C66_border_node_moved_refuted"
   ],
   "note": "Holds for nodes with all faces in the region; border nodes are averaged over the region's faces only (refuted)."
  },
  {
   "property": "C67",
   "status": "partial",
   "theorems": [
    "C67_equal_counts_wrong_nodes_refuted"
   ],
   "note": "Refuted: node averages are written at the indices of the faces."
  },
  {
   "property": "C68",
   "status": "partial",
   "theorems": [
    "C68_floor_depth_is_mean_partial",
    "C68_rim_height_is_mean_partial",
    "C68_raising_the_region",
    "C68_nan_elevation_refuted",
    "C68_depth_is_current",
    "C68_rim_height_is_stale_refuted"
   ],
   "note": "Exact means for regions without NaN; with NaN elevations and distances are misaligned (refuted); measured_rim_height alone is cached and stale (refuted)."
  },
  {
   "property": "C69",
   "status": "proved",
   "theorems": [
    "C69_counted_by_relative_depth",
    "C69_original_depth",
    "C69_deeper_is_less_degraded",
    "C69_unresolved_is_dropped"
   ],
   "note": "Threshold exists for every size; depends on size only."
  },
  {
   "property": "C70",
   "status": "partial",
   "theorems": [
    "C70_scores_in_unit",
    "C70_enough_faces_partial",
    "C70_raising_the_region_partial",
    "C70_flat_region_refuted",
    "C70_quantile_keeps",
    "C70_quantile_not_numpy_refuted"
   ],
   "note": "Flat regions are scored by absolute elevation and the quantile does not interpolate (both refuted); everything else holds."
  },
  {
   "property": "C71",
   "status": "partial",
   "theorems": [
    "C71_converged_or_exhausted",
    "C71_loop_bound",
    "C71_region_not_enlarged_refuted",
    "C71_fit_is_recorded_partial",
    "C71_smaller_rim_refuted"
   ],
   "note": "Loop bound and convergence hold; the region is never enlarged, and a fit smaller than the old semi-minor axis is recorded wrongly (refuted)."
  },
  {
   "property": "C72",
   "status": "partial",
   "theorems": [
    "C72_once_oldest_first",
    "C72_untagged_time",
    "C72_untagged_succeeds",
    "C72_nonnegative_partial",
    "C72_negative_time_refuted",
    "C72_diameter_range",
    "C72_range_not_restored_refuted"
   ],
   "note": "Times in the future and the diameter range that is never restored are refuted; completeness, order, exact times and the range hold."
  },
  {
   "property": "C73",
   "status": "partial",
   "theorems": [
    "C73_order_partial",
    "C73_last_sequence_refuted",
    "C73_dates_in_order",
    "C73_two_sequences",
    "C73_exact_in_order",
    "C73_undated_between",
    "C73_exact_number_kept_partial",
    "C73_exact_time_kept_partial",
    "C73_exact_moved_refuted",
    "C73_zero_division_refuted"
   ],
   "note": "Holds for all draws when the dates agree with the sequence or with at most two sequence numbers; in general only for all but the largest sequence number (refuted there). Exact dates are kept only if alone in their sequence number; a division by zero for ranges reaching zero is refuted."
  },
  {
   "property": "C74",
   "status": "partial",
   "theorems": [
    "C74_crater_limits_read_back",
    "C74_within_surface",
    "C74_projectile_limits_partial",
    "C74_smallest_projectile_refuted",
    "C74_largest_projectile_refuted",
    "C74_crossed_refuted",
    "C74_resumed_limits_refuted"
   ],
   "note": "Crater limits proved for all assignment sequences and both generators; projectile limits proved for generators of projectiles and refuted for generators of craters; crossing limits and resuming refuted."
  },
  {
   "property": "C75",
   "status": "partial",
   "theorems": [
    "C75_latitudes_enclose",
    "C75_latitudes_reached",
    "C75_longitudes_partial",
    "C75_right_longitudes",
    "C75_longitudes_refuted"
   ],
   "note": "Latitudes proved and tight; longitudes proved on the equator and with a pole, and refuted for every other region, with the right width proved."
  },
  {
   "property": "C76",
   "status": "partial",
   "theorems": [
    "C76_closest_resolution",
    "C76_closest_polar",
    "C76_tile",
    "C76_covered_partial",
    "C76_wide_refuted",
    "C76_across_60_refuted",
    "C76_turned_tile_refuted",
    "C76_finest_refuted"
   ],
   "note": "Coverage proved for regions no larger than a tile that do not cross sixty degrees, and for polar maps; refuted for wide regions, across sixty degrees, and for 5 m at the pole."
  },
  {
   "property": "C77",
   "status": "partial",
   "theorems": [
    "C77_grows_with_size",
    "C77_region_size",
    "C77_small_craters_refuted"
   ],
   "note": "Real arithmetic. Growth and region-size laws proved for all inputs; the claim that small craters follow the published function is refuted (uniformly 11-12 % smaller)."
  },
  {
   "property": "C78",
   "status": "partial",
   "theorems": [
    "C78_applied_once",
    "C78_nothing_left",
    "C78_waiting_below_area",
    "C78_amounts",
    "C78_backward_refused",
    "C78_survives_reset_refuted",
    "C78_other_surface_refuted"
   ],
   "note": "quad and the production function are arguments assumed linear, monotone and additive. Applied once, nothing left after apply, bounded by the area, additivity in time, monotone in face size, refusal of backward periods proved for all call sequences; carrying over a reset or a change of surface is refuted."
  },
  {
   "property": "C79",
   "status": "partial",
   "theorems": [
    "C79_sizes",
    "C79_antipode_refuted",
    "C79_wide_refuted",
    "C79_new_factor_refuted",
    "C79_automatic",
    "C79_automatic_factor_refuted"
   ],
   "note": "Real arithmetic; curve_fit and the reach of ejecta are arguments. Sizes proved for regions below a quarter of the circumference; size at the antipode, larger regions, changed and automatic factors refuted."
  },
  {
   "property": "C80",
   "status": "partial",
   "theorems": [
    "C80_local_points",
    "C80_rings",
    "C80_ring_points",
    "C80_ends",
    "C80_endless_refuted",
    "C80_gap_refuted",
    "C80_rotation",
    "C80_south_pole_refuted"
   ],
   "note": "Before rounding and removal of duplicate points. Lattice, rings, spacing, termination and rotation proved for regions below a quarter of the circumference; endless loops, the gap at the diagonals of large regions and the south pole refuted."
  },
  {
   "property": "C81",
   "status": "partial",
   "theorems": [
    "C81_range_partial",
    "C81_near_rim",
    "C81_far",
    "C81_all_far_refuted",
    "C81_proportions",
    "C81_alone_refuted",
    "C81_turns",
    "C81_ray_count_refuted",
    "C81_lengths",
    "C81_across",
    "C81_shapes",
    "C81_thickness",
    "C81_lists_refuted",
    "C81_grids_refuted"
   ],
   "note": "Proved: range, normalisation, near-rim sufficiency, reach, proportions, turns, shapes and thinning. Refuted: not-a-number when all points are beyond the rays; a lone point always gets 1; the divisor at the end of the rays is 1 though three rays reach it; numbers and lists raise AttributeError; two-dimensional arrays raise ValueError in ejecta_distribution."
  },
  {
   "property": "C82",
   "status": "partial",
   "theorems": [
    "C82_once",
    "C82_values",
    "C82_with_raises",
    "C82_with_returns",
    "C82_with_applies",
    "C82_with_leaks_refuted",
    "C82_farthest_refuted",
    "C82_argument_refuted"
   ],
   "note": "Proved: life cycle over all call sequences, values at points without overlap, with statement in each case. Refuted: leaving a with statement without data, or with a dataset that misses a local surface, raises and leaves datasets open; where datasets overlap the order of distances is wrong (the longitude of the point stays in degrees and half a turn is added); the caller's list is replaced."
  },
  {
   "property": "C83",
   "status": "partial",
   "theorems": [
    "C83_new",
    "C83_reset_starts",
    "C83_prompt",
    "C83_resume",
    "C83_first_session",
    "C83_craters_partial",
    "C83_no_craters_refuted",
    "C83_second_session",
    "C83_resume_again_refuted",
    "C83_counters_stay",
    "C83_lost_refuted",
    "C83_crash_partial",
    "C83_crash_skips_refuted",
    "C83_crash_repeats_refuted",
    "C83_crash_unreadable_refuted",
    "C83_reset_crash_refuted",
    "C83_default_refuted",
    "C83_rng_refuted"
   ],
   "note": "Proved for the first session, in all its uses (C83_new, C83_first_session). Refuted beyond it: a resumed simulation never writes its configuration (C83_resume_again_refuted, C83_counters_stay), later sessions can be lost (C83_lost_refuted), a crash can skip or repeat a period or leave an unreadable configuration (C83_crash_*), an empty list of observed craters is not saved, the default without a configuration is not a reset, and the random state is not restored. C83_crash_partial lists all outcomes of a crash in an iteration."
  },
  {
   "property": "C84",
   "status": "partial",
   "theorems": [
    "C84_accepts",
    "C84_given",
    "C84_sampled",
    "C84_fixed",
    "C84_density",
    "C84_mean",
    "C84_default",
    "C84_complete",
    "C84_renewed",
    "C84_copy_partial",
    "C84_copy_refuted",
    "C84_defaults_refuted",
    "C84_mean_ignored_refuted",
    "C84_object",
    "C84_object_given",
    "C84_target_refuted",
    "C84_scaling_partial",
    "C84_scaling_refuted",
    "C84_vertical_partial",
    "C84_vertical_refuted"
   ],
   "note": "Acceptance, given and drawn arguments, densities, catalogue velocities, default population and completeness under every history are proved. Refuted: the documented defaults of sample=False, mean_velocity for asteroids and comets, copies of asteroids and comets (velocity lost), the target setter, Scaling.maker with a named projectile, and vertical velocity for angles above 90 degrees."
  },
  {
   "property": "C85",
   "status": "partial",
   "theorems": [
    "C85_makes",
    "C85_cover",
    "C85_apart",
    "C85_count",
    "C85_sphere",
    "C85_poles",
    "C85_default",
    "C85_accepts",
    "C85_coarse_refuted"
   ],
   "note": "Proved for every pixel size that asks for at least eight faces; refuted for pixels larger than half the surface (mesh generation fails although the setter accepts them); two to seven faces are not covered. Floats are reals."
  },
  {
   "property": "C86",
   "status": "partial",
   "theorems": [
    "C86_area",
    "C86_halves",
    "C86_level",
    "C86_stale_refuted"
   ],
   "note": "Proved for a new surface; refuted after the pixel size was read (cached)."
  },
  {
   "property": "C87",
   "status": "partial",
   "theorems": [
    "C87_identity",
    "C87_grid",
    "C87_exact",
    "C87_reuse",
    "C87_consistent_partial",
    "C87_new",
    "C87_save",
    "C87_reset",
    "C87_decline_refuted",
    "C87_decline_partial",
    "C87_crash_refuted",
    "C87_bare_refuted",
    "C87_region_refuted"
   ],
   "note": "Proved for every history of sessions with kills: the grid on disk is genuine and a new surface has the mesh of its parameters (identifiers are injective for faithful printing and a collision-free hash). Without kills and region saves files and mesh fit, saves merge, resets clear. Refuted: a declined reset still zeroes memory and interval 0; a kill between the new grid and the removal of old data leaves data of the wrong mesh, or none; saving an extracted region writes into the data file of the whole surface."
  },
  {
   "property": "C88",
   "status": "partial",
   "theorems": [
    "C88_far",
    "C88_plane",
    "C88_unique",
    "C88_mean",
    "C88_tilt",
    "C88_planar",
    "C88_desloped",
    "C88_desloped_refuted"
   ],
   "note": "Proved for every exact least-squares solver (one is constructed). Refuted for desloped elevations: they are zero for faces beyond the region radius and everywhere in regions of fewer than five faces."
  },
  {
   "property": "C89",
   "status": "partial",
   "theorems": [
    "C89_defined",
    "C89_outside",
    "C89_level",
    "C89_floor",
    "C89_erased",
    "C89_slope_partial",
    "C89_slope_refuted"
   ],
   "note": "Proved except for slopes: the change is not the same on a slope (refuted with a case in which a crater raises the ground), because the floor is limited by the mean elevation within the rim; the difference is bounded by the height of the slope above its mean."
  },
  {
   "property": "C90",
   "status": "partial",
   "theorems": [
    "C90_table",
    "C90_empty",
    "C90_complete_partial",
    "C90_lost_refuted",
    "C90_stops_partial",
    "C90_cleared_refuted",
    "C90_default_refuted",
    "C90_emplaced",
    "C90_datasets_refuted"
   ],
   "note": "The table theorem holds for every list of craters that have a size, a location and a measured location. Refuted: columns are those of the first crater, so values of later ones are lost; a crater whose measured location was cleared ends the export after the old file is gone; the default argument always raises for observed craters; a dictionary of datasets empties the file."
  },
  {
   "property": "C91",
   "status": "partial",
   "theorems": [
    "C91_lines",
    "C91_read_partial",
    "C91_shape_refuted",
    "C91_fraction_refuted",
    "C91_interval_refuted"
   ],
   "note": "Lines and read-back proved for every list. Refuted: the measured ellipse comes back as a circle; the inside test uses the original location; without an interval the call always raises."
  },
  {
   "property": "C92",
   "status": "partial",
   "theorems": [
    "C92_files",
    "C92_both",
    "C92_none",
    "C92_stops_partial",
    "C92_grown_refuted",
    "C92_blank",
    "C92_number_refuted"
   ],
   "note": "Proved for histories read file by file or with the same craters in every interval. Refuted: files opened together with differing craters cannot be exported from the first interval that lacks one; an empty list is numbered with the last interval of the other kind."
  },
  {
   "property": "C93",
   "status": "partial",
   "theorems": [
    "C93_population",
    "C93_emplaced",
    "C93_succeeds_partial",
    "C93_coarse_faces_refuted",
    "C93_craters_keyword_refuted",
    "C93_face_share",
    "C93_fast_projectiles_refuted"
   ],
   "note": "Proved for every mesh, draw and set of arguments: the period, counts, sizes, places and order of the population, the share of each face, and success. Refuted: a bin of faces larger than the largest crater makes the whole call fail; the documented craters argument is never emplaced; with a generator of projectiles those that make craters larger than a face only in fast impacts are never drawn. The Poisson count, the sizes, the times and the point on a face are arguments (C13, C21, C22, C54 model them)."
  },
  {
   "property": "C94",
   "status": "partial",
   "theorems": [
    "C94_returned",
    "C94_session",
    "C94_own_ejecta",
    "C94_direct_ejecta",
    "C94_succeeds",
    "C94_measure_rim_partial",
    "C94_tallied",
    "C94_returned_emplaced_refuted",
    "C94_empty_list_refuted",
    "C94_listed_once_refuted",
    "C94_recovers_refuted",
    "C94_ejecta_volume_refuted",
    "C94_measure_rim_refuted"
   ],
   "note": "Proved for every session: order and content of what is returned, what is listed as emplaced, ejecta volumes, tallies. Refuted: craters never formed are returned, an empty list raises, a crater is listed twice after a failure, a crater without volume blocks all later calls, form_ejecta uses another crater's volume, measure_rim is lost after 2000 craters."
  },
  {
   "property": "C95",
   "status": "partial",
   "theorems": [
    "C95_confined",
    "C95_nodes_confined_partial",
    "C95_inside",
    "C95_apart",
    "C95_values",
    "C95_tags",
    "C95_overlap",
    "C95_overlap_edges",
    "C95_shared_border_refuted",
    "C95_whole_body_refuted",
    "C95_negative_refuted",
    "C95_surface_refuted"
   ],
   "note": "Proved for every mesh and pair of regions: exact overlap, confinement of faces, values per face, tags, regions inside and outside. Partial: nodes only when the overlap has different numbers of faces and nodes. Refuted: border contact, whole-body local region, argument checks outside, operations of the surface."
  },
  {
   "property": "C96",
   "status": "partial",
   "theorems": [
    "C96_same_answers",
    "C96_before_the_mesh",
    "C96_covers_partial",
    "C96_batch_apart_partial",
    "C96_batch_shares_refuted",
    "C96_queue_view",
    "C96_emplaceable_fails_refuted",
    "C96_smaller_than_face_refuted",
    "C96_replaced_surface_refuted",
    "C96_lost_refuted",
    "C96_still_skipped_refuted"
   ],
   "note": "C96_same_answers: any session with one surface; C96_before_the_mesh: reads before the surface has data; C96_covers_partial and C96_batch_apart_partial: affected faces and nodes cover the crater region when the ejecta reach 1.5 radii. Refuted: shorter ejecta (batches share faces, emplaceable crater fails), craters smaller than the face (test uses 1.5 radii), replaced surface (stale face, extent, emplaceable)."
  },
  {
   "property": "C97",
   "status": "partial",
   "theorems": [
    "C97_vertices",
    "C97_closed",
    "C97_one_polygon",
    "C97_contiguous_partial",
    "C97_far_part_height_refuted",
    "C97_prime_meridian_refuted",
    "C97_pole_refuted"
   ],
   "note": "Proved: the vertices are the points of the ellipse on the great circles, the curve is closed, height and choice of sizes, and, away from the poles, unwrapping and splitting keep every place and leave every part within [-180, 180] without a jump. Refuted: a part beyond the antimeridian loses its height; a polygon around a pole with centre longitude 0 is not unwrapped and cut along the prime meridian; the outline around a pole encloses no area. geod.fwd is any function that solves the direct problem on the sphere; shapely's split and centroid are any functions that cut along a meridian."
  },
  {
   "property": "C98",
   "status": "partial",
   "theorems": [
    "C98_vector",
    "C98_vtk",
    "C98_geotiff",
    "C98_kept_partial",
    "C98_one_interval_partial",
    "C98_one_file",
    "C98_history_refuted",
    "C98_negative_refuted",
    "C98_vtk_counted_back_refuted",
    "C98_unknown_driver_refuted",
    "C98_geotiff_asks_refuted",
    "C98_simulation_partial",
    "C98_counted_back",
    "C98_errors",
    "C98_shapefile_refuted",
    "C98_layer_name_refuted",
    "C98_extensions",
    "C98_same_extension_refuted"
   ],
   "note": "Proved: exporting all intervals writes exactly the files of the saved intervals with exactly their variables and changes nothing else; refused files are kept (all drivers but GeoTIFF); what exporting one interval does to the history, exactly; Simulation.export. Refuted: exporting an earlier interval overwrites it with the surface of now; interval -1 adds a saved interval -1; VTK fails for -2 and below; unknown drivers (also SHP, SQLite and PMTiles) are ignored silently; GeoTIFF files are replaced without asking and do not tell variables apart; shapefile columns get equal names and variables beginning with id are dropped."
  },
  {
   "property": "C99",
   "status": "partial",
   "theorems": [
    "C99_whole",
    "C99_tiles",
    "C99_value",
    "C99_region_partial",
    "C99_covers",
    "C99_region_size_refuted",
    "C99_shared_pixel_refuted",
    "C99_antimeridian_refuted"
   ],
   "note": "Real arithmetic instead of floats. Whether a polygon touches a pixel is a parameter (rasterio); the refutation with boxes uses the real criterion. Refuted: the pixels of a region are larger than the pixel size because the border is added to the extent only; a pixel can show a later face that only touches its edge; pixels touched only by faces crossing the antimeridian are empty."
  },
  {
   "property": "C100",
   "status": "partial",
   "theorems": [
    "C100_place",
    "C100_relative",
    "C100_conflict",
    "C100_beyond_pole",
    "C100_no_reference",
    "C100_moved_refuted",
    "C100_pole_refuted"
   ],
   "note": "Real arithmetic. The projectile is a parameter that keeps and normalises a location it is given (Proj_model, C84). Single distances and bearings only. Refuted: a crater moved by making it from an existing one keeps its old measured location and an unnormalised location; from a pole every bearing leads to the same place."
  },
  {
   "property": "C101",
   "status": "partial",
   "theorems": [
    "C101_mean_rise",
    "C101_never_above_rise",
    "C101_shift_scale",
    "C101_local",
    "C101_plane_partial",
    "C101_plane_exact_only",
    "C101_half",
    "C101_collapse_refuted",
    "C101_collapse_stands",
    "C101_compute_slope_refuted",
    "C101_radial_mean",
    "C101_radial_bound",
    "C101_radial_answers",
    "C101_radial_refused",
    "C101_node_variable_refuted",
    "C101_radial_sign_refuted",
    "C101_radial_half",
    "C101_compiled_slopes",
    "C101_keywords"
   ],
   "note": "Proved: the slope is the edge-length-weighted mean rise, never above the steepest rise, unchanged by raising and scaling with the field, local; on a plane never over-stated; the radial gradient is the weighted mean of projected rises, bounded, and refused without bearings. Refuted: on evenly placed neighbours every plane is reported with half its slope, so a 48 degree incline survives a collapse at 35 degrees; compute_slope always raises TypeError (keyword the binding does not take); a variable of another length given by name is accepted; beyond a pole the radial gradient has the wrong sign."
  },
  {
   "property": "C102",
   "status": "partial",
   "theorems": [
    "C102_shape_partial",
    "C102_one_standard",
    "C102_makes",
    "C102_known_type",
    "C102_copy_partial",
    "C102_copy_refuted",
    "C102_copy_is_standard",
    "C102_none_refuted",
    "C102_unchecked_refuted",
    "C102_type_keyword_refuted",
    "C102_scaling_keyword_refuted",
    "C102_measured_none_refuted",
    "C102_measured_axes"
   ],
   "note": "Shape of a new crater proved exactly (given value, else the published law, written independently in Lunar_spec). Copies are refuted: a copy never takes its shape from the original. An explicit None, morphology_type, scaling and measured_diameter=None are refuted as keywords. The sizes Crater.maker works out are a parameter (Crater_model has them) about which only the names of its results are assumed (plain_core)."
  },
  {
   "property": "C103",
   "status": "partial",
   "theorems": [
    "C103_vertices",
    "C103_positions",
    "C103_flat",
    "C103_mismatch",
    "C103_region_faces",
    "C103_variables_partial",
    "C103_edges_refuted",
    "C103_interval_partial",
    "C103_interval_refuted",
    "C103_rings",
    "C103_ring_height_refuted",
    "C103_points_partial",
    "C103_height",
    "C103_measured_refuted",
    "C103_plain_crater_refuted",
    "C103_styles",
    "C103_file_options_refuted",
    "C103_one_elevation",
    "C103_choices",
    "C103_every_ring"
   ],
   "note": "Vertices, polygons of a region (through the renumbering), rings and points proved. Refuted: rings lie on the reference sphere whatever the ground; variables on edges are dropped; interval with a dataset is a position; points ignore the measured location; the crater file ignores its options; a crater without a morphology stops the drawing."
  },
  {
   "property": "C104",
   "status": "partial",
   "theorems": [
    "C104_ends",
    "C104_sum",
    "C104_linear",
    "C104_bounds",
    "C104_underestimates",
    "C104_last_bin",
    "C104_power_law",
    "C104_power_true",
    "C104_falling_partial",
    "C104_falling_refuted",
    "C104_limit_refuted",
    "C104_negative_refuted",
    "C104_beyond",
    "C104_arrays",
    "C104_saturation",
    "C104_equilibrium",
    "C104_integers_refuted"
   ],
   "note": "Refuted parts: the number can grow with the diameter for steep R-plots, craters beyond the limit are counted, a negative diameter never ends, arrays of integers and lists are refused by the saturation curves. Proved: termination and uniqueness, the sum itself, linearity, sign, bounds for falling densities, one-sided error for convex ones, exact factor for power laws, arrays."
  },
  {
   "property": "C105",
   "status": "partial",
   "theorems": [
    "C105_built",
    "C105_determined",
    "C105_reset",
    "C105_reused",
    "C105_regrid",
    "C105_user_file_refuted",
    "C105_later",
    "C105_resized_refuted",
    "C105_retry_refuted",
    "C105_outside",
    "C105_outside_km_partial",
    "C105_outside_refuted",
    "C105_inside_partial",
    "C105_inside_refuted",
    "C105_units_partial",
    "C105_units_refuted",
    "C105_pixel_size",
    "C105_single_file_refuted",
    "C105_poles_refuted",
    "C105_whole_partial",
    "C105_continued",
    "C105_arguments",
    "C105_flat",
    "C105_mean_infinite"
   ],
   "note": "Composition, determinacy, reset and reuse are proved for all meshes, regions, files and directories. Refuted: superdomain_dem_file is ignored when the surface is built on construction (it is honoured only when the superdomain is set later); rebuilding with another size in a used directory raises ValueError; after a failed attempt every other one raises UnboundLocalError and prompts stay off; missing data in kilometre files become elevations (-9999 km outside, minus infinity inside); units other than exactly KILOMETER are read differently inside and outside; a single path or text is not accepted; the default file ends at 60 degrees latitude. The partial theorems cover the remaining cases."
  },
  {
   "property": "C106",
   "status": "partial",
   "theorems": [
    "C106_reads",
    "C106_kinds",
    "C106_missing",
    "C106_always",
    "C106_read_back",
    "C106_other_regions",
    "C106_dataset_partial",
    "C106_dataset_edges_refuted",
    "C106_edits_refuted",
    "C106_edits_global",
    "C106_saved",
    "C106_saved_empty",
    "C106_mesh_partial",
    "C106_mesh_edges_refuted",
    "C106_connectivity",
    "C106_scalars"
   ],
   "note": "Attributes, read-back, other regions, histories and saved intervals are proved in full; kinds of elements cannot be confused on the library's meshes. Refuted parts: the dataset of a region keeps all edges of the surface in edge variables, writing into what a region returns is silently lost (while on the whole surface it is kept), and the border faces of a region's own mesh lack edges."
  },
  {
   "property": "C107",
   "status": "partial",
   "theorems": [
    "C107_accurate",
    "C107_unit",
    "C107_monotone",
    "C107_digits",
    "C107_sign",
    "C107_none",
    "C107_carry_refuted",
    "C107_unknown_refuted"
   ],
   "note": "Accuracy, unit, monotonicity, digits and sign are proved in full. Refuted parts: the unit is chosen before rounding (1000.0 m just below a kilometre), and an unknown quantity ends in UnboundLocalError."
  },
  {
   "property": "C108",
   "status": "partial",
   "theorems": [
    "C108_parts",
    "C108_saved",
    "C108_unsaved",
    "C108_from_the_end_refuted",
    "C108_from_the_end",
    "C108_number",
    "C108_heading_refuted",
    "C108_metres_refuted",
    "C108_summary_partial",
    "C108_summary_refuted",
    "C108_walk",
    "C108_shown_partial",
    "C108_shown_refuted",
    "C108_open_at_end_refuted",
    "C108_caption_refuted",
    "C108_files",
    "C108_from_the_end_read",
    "C108_default_diameter",
    "C108_open"
   ],
   "note": "Proved: the parts of a label, their order and rounding; labels of saved and of unsaved intervals after any session; N(D) for whole and fractional D in units of D_conversion_factor; the walk of the viewer. Refuted: labels of intervals counted from the end are empty; fractional D are printed rounded, so different numbers carry the same heading; N_diam_val is in metres when D_conversion_factor is 1 though documented in km; the summary always says per 10^6 km^2; the left arrow at the first interval shows the last one, the right arrow from -1 the first one; the chosen label is lost with the first key. The shown interval is characterised exactly (C108_shown_partial)."
  },
  {
   "property": "C109",
   "status": "partial",
   "theorems": [
    "C109_run",
    "C109_sample_partial",
    "C109_sample_refuted",
    "C109_default_refuted",
    "C109_unreachable",
    "C109_conflicts",
    "C109_times",
    "C109_age_and_start_refuted",
    "C109_members"
   ],
   "note": "Proved for run; for sample and quasimc_merge the density used is characterised exactly (the number times N_conversion_factor, so right only for factor 1 or number 0). Refuted: sample and quasimc_merge take another period than run, with the default units and power law every N_D is a ValueError; age and time_start together are accepted by sample. Conflicts, unreachable densities, periods given as times and the membership of craters are proved."
  },
  {
   "property": "C110",
   "status": "partial",
   "theorems": [
    "C110_named",
    "C110_default_partial",
    "C110_default_refuted",
    "C110_version_partial",
    "C110_version_refuted",
    "C110_unknown_version_refuted",
    "C110_version_alone_refuted",
    "C110_other_bodies_refuted",
    "C110_unknown",
    "C110_power",
    "C110_object",
    "C110_resumed_partial",
    "C110_resumed_refuted",
    "C110_settles",
    "C110_assigned_refuted",
    "C110_morphology_refuted",
    "C110_bodies",
    "C110_assigned",
    "C110_generator",
    "C110_simulation"
   ],
   "note": "False as stated: without a name every body gets the lunar law (production/__init__.py:157 skips the choice when production is None, so the first registered model is made with version None); versions are replaced unless spelled 'projectile' (160-177); a version without a name is a TypeError; the version, coefficient and slope are not saved, so that a resumed simulation may go on with another law. Exact descriptions and the positive cases are proved."
  },
  {
   "property": "C111",
   "status": "partial",
   "theorems": [
    "C111_kept",
    "C111_unresumed_partial",
    "C111_once_partial",
    "C111_given_refuted",
    "C111_twice_refuted",
    "C111_counting_refuted",
    "C111_counting",
    "C111_projectile_partial",
    "C111_generic_refuted",
    "C111_uncatalogued_refuted",
    "C111_scaling",
    "C111_density_refuted"
   ],
   "note": "proved for the options stored after the base class (do_subpixel_degradation, do_slope_collapse, gridlevel, pix, local_radius, local_location) by induction over histories, for the parameters of the scaling and for asteroids and comets; refuted for the options stored before or past the setter, do_counting, generic projectiles and the density of the target"
  },
  {
   "property": "C112",
   "status": "partial",
   "theorems": [
    "C112_reads",
    "C112_own_fields",
    "C112_on_demand",
    "C112_assign",
    "C112_unknown_assign_refuted",
    "C112_copy_refuted",
    "C112_dir_refuted",
    "C112_as_dict",
    "C112_as_dict_refuted",
    "C112_surface_reads",
    "C112_added_partial",
    "C112_added_refuted",
    "C112_unloaded_refuted",
    "C112_surface_copy_refuted"
   ],
   "note": "Reads, assignments of known fields, as_dict and reads of surface variables are proved for every object and name; own names do not collide. Refuted: assigning an unknown name silently does nothing, copy and pickle recurse for ever on craters and surfaces, dir(crater) raises AttributeError, as_dict grows the caller's list and a later call loses the regions, an added variable with a name of the class is unreachable, and a surface without data raises TypeError for unknown names."
  },
  {
   "property": "C113",
   "status": "partial",
   "theorems": [
    "C113_current",
    "C113_saved_partial",
    "C113_last_refuted",
    "C113_save",
    "C113_saved_files_partial",
    "C113_unsaved",
    "C113_styles",
    "C113_other_style_refuted",
    "C113_no_minimum_refuted",
    "C113_files_partial",
    "C113_counting_files_refuted",
    "C113_filename_refuted",
    "C113_craters_partial",
    "C113_crater_plot_partial",
    "C113_earlier_craters_refuted",
    "C113_stale_craters_refuted",
    "C113_layers",
    "C113_linewidth_refuted",
    "C113_scale",
    "C113_scale_refuted",
    "C113_close_refuted"
   ],
   "note": "The current state, earlier intervals, interval -1, unsaved intervals, the two styles, the layers of outlines and the scale bar are proved for every history and argument. Refuted: the last interval is shown as it is in memory; plots with craters fail for every earlier interval with emplaced craters and show the craters of now for the last interval that had any; the crater plot's file does not tell the style; filename and (on global surfaces) close_when_done are ignored; minimum_plot_width=None and tiny local regions fail; an unknown style raises UnboundLocalError; a line width reaches only the first layer. Rasters and colours are not modelled."
  },
  {
   "property": "C114",
   "status": "partial",
   "theorems": [
    "C114_run",
    "C114_run_others",
    "C114_run_end",
    "C114_one_interval",
    "C114_nothing_invented",
    "C114_resume_partial",
    "C114_unseen_refuted",
    "C114_order_refuted",
    "C114_twice_refuted",
    "C114_read",
    "C114_before_run_refuted",
    "C114_save_refuted"
   ],
   "note": "Files and list contents of a run, one-interval accumulation and soundness proved for every session. Refuted: saving does not empty the list, craters emplaced before a run of a new simulation are in no file, the emplaced craters are not restored when nothing is observed in the last interval, their order is lost, and a crater emplaced twice is skipped when the file is read. Restoring is proved for runs whose last interval has emplaced and observed craters (partial)."
  },
  {
   "property": "C115",
   "status": "partial",
   "theorems": [
    "C115_new",
    "C115_separate",
    "C115_given_exact",
    "C115_given_refuted",
    "C115_scaling_refuted",
    "C115_counting_refuted",
    "C115_production_refuted",
    "C115_effects",
    "C115_assign_refuted",
    "C115_assign_effects_refuted",
    "C115_do_counting",
    "C115_switch_refuted",
    "C115_alone_partial",
    "C115_alone_refuted"
   ],
   "note": "Proved for simulations whose components are named or left out; for given objects an exact condition is proved. Refuted: a surface, projectile, counting or morphology that was made for something else is accepted unchanged; a given scaling keeps the transition diameters of its old target and is taken from the simulation it came from; a production function keeps making craters of the first simulation it was used in; assigning any component leaves the other parts with the old one; assigning a counting object switches counting on, assigning None makes forming craters fail; a morphology made alone is scaled for the Moon and counts although no counting object is given."
  },
  {
   "property": "C116",
   "status": "partial",
   "theorems": [
    "C116_calls_partial",
    "C116_alike",
    "C116_options_refuted",
    "C116_results",
    "C116_raised",
    "C116_clash",
    "C116_morphology",
    "C116_shared_refuted"
   ],
   "note": "C116_calls_partial gives the exact calls of a tally, C116_alike the case where all craters are treated alike, C116_results what is left, C116_raised the state after an exception. C116_options_refuted: fit_center and fit_ellipse are taken out of the arguments in the loop, so only the first crater gets them. C116_shared_refuted: assigning a morphology (as a resumed simulation does) makes two objects of a crater that is in both lists. The measurements themselves are parameters here; Measure_model has them."
  },
  {
   "property": "C117",
   "status": "partial",
   "theorems": [
    "C117_row_partial",
    "C117_blank",
    "C117_location_refuted",
    "C117_name_refuted",
    "C117_location_column_refuted",
    "C117_too_long_refuted",
    "C117_table",
    "C117_table_fails",
    "C117_file_refuted"
   ],
   "note": "Partial: C117_row_partial needs distinct columns, none named after a whole pair, and lines no longer than the header. Refuted parts: a line with one coordinate is read without a location (C117_location_refuted), numeric names become numbers (C117_name_refuted), a column named location raises TypeError or KeyError (C117_location_column_refuted), further fields are ignored if one is blank (C117_too_long_refuted), an unknown extension gives UnboundLocalError and an upper-case SCC extension ValueError (C117_file_refuted). The csv reader's splitting into fields and float()/int() of texts are parameters."
  },
  {
   "property": "C118",
   "status": "partial",
   "theorems": [
    "C118_value_partial",
    "C118_stable",
    "C118_read_back",
    "C118_numpy_text_refuted",
    "C118_text_refuted",
    "C118_assigned",
    "C118_none_refuted",
    "C118_lost_refuted"
   ],
   "note": "Partial: C118_value_partial leaves out numpy texts, numpy truth values and objects of other kinds. Refuted parts: saving raises exactly if a numpy text is in a value (C118_numpy_text_refuted), the file is then lost although the value is assigned (C118_lost_refuted), numpy truth values and other objects become texts (C118_text_refuted), the assignment of None leaves the old value in the file (C118_none_refuted). The YAML library is idealised as a faithful store of plain data that goes by exact types; keys are texts."
  },
  {
   "property": "C119",
   "status": "partial",
   "theorems": [
    "C119_place_partial",
    "C119_components",
    "C119_moved_refuted",
    "C119_path_object_refuted",
    "C119_made_refuted",
    "C119_resumed",
    "C119_type_refuted"
   ],
   "note": "Partial: C119_place_partial is for the working directory in which the simulation was made. Refuted parts: the exact condition under which files go elsewhere after a change of the working directory (C119_moved_refuted, C119_path_object_refuted), the directory of a Path object is not made (C119_made_refuted), other types are ignored (C119_type_refuted). Symbolic links are not modelled."
  },
  {
   "property": "C120",
   "status": "partial",
   "theorems": [
    "C120_removed",
    "C120_state_gone",
    "C120_outside",
    "C120_exports_refuted",
    "C120_foreign_refuted",
    "C120_clash_refuted"
   ],
   "note": "Partial: what is removed is characterised exactly (C120_removed), so the saved state is gone (C120_state_gone) and files elsewhere stay (C120_outside). Refuted parts: exported files stay (C120_exports_refuted), files of the user in directories with the names of components go (C120_foreign_refuted), a file with such a name ends the cleaning half-way (C120_clash_refuted)."
  },
  {
   "property": "C121",
   "status": "partial",
   "theorems": [
    "C121_distances_partial",
    "C121_two_refuted",
    "C121_empty_refuted",
    "C121_bearings_partial",
    "C121_dict_refuted",
    "C121_locations",
    "C121_unequal",
    "C121_round_trip_refuted",
    "C121_reference",
    "C121_structured_refuted",
    "C121_malformed"
   ],
   "note": "Real arithmetic, latitudes at most 270 degrees for distances. Refuted: a list or tuple of exactly two locations has no distances (it is taken for one location), so that two locations computed from distances and bearings cannot be measured again; empty arrays raise IndexError except for bearings; dicts have distances but no bearings; structured arrays are always refused and a record with lat first is read as longitude first."
  },
  {
   "property": "C122",
   "status": "partial",
   "theorems": [
    "C122_answers",
    "C122_no_effect",
    "C122_statistics",
    "C122_region",
    "C122_target_refuted",
    "C122_regrid_refuted"
   ],
   "note": "Proved for a surface whose target and mesh do not change, for every history of questions. Refuted, with the exact rule, after another target is assigned (kept values stay those of the old radius) and after another mesh is generated (the whole area, smallest length, coordinates and edges stay those of the old mesh if they were asked for before)."
  },
  {
   "property": "C123",
   "status": "partial",
   "theorems": [
    "C123_crater_partial",
    "C123_crater_refuted",
    "C123_ejecta",
    "C123_distribution_partial",
    "C123_distribution_refuted",
    "C123_intensity",
    "C123_ragged"
   ],
   "note": "Proved for the thickness of ejecta in every form, and for the others where the exact conditions hold. Refuted: the profile refuses whole numbers when no reference elevations are given; the distribution refuses arrays that are not a single row, because a shaped thickness is multiplied by a flat intensity; lists and plain numbers are refused by the distribution and the intensity after a seed was drawn."
  },
  {
   "property": "C124",
   "status": "partial",
   "theorems": [
    "C124_nearest_partial",
    "C124_itself",
    "C124_several_refuted",
    "C124_regrid_refuted"
   ],
   "note": "Proved for a single location that is not structured data on a mesh that does not change, for every history. Refuted: several locations are refused in every form; after another mesh is generated the old tree keeps answering if it had been needed before, with positions the new mesh may not have. The query of the ball tree is an argument assumed to find a nearest place."
  },
  {
   "property": "C125",
   "status": "partial",
   "theorems": [
    "C125_global_partial",
    "C125_global_refuted",
    "C125_local_partial",
    "C125_local_refuted",
    "C125_kept",
    "C125_assigned_before",
    "C125_target_refuted"
   ],
   "note": "Proved: the expression at the head of the description states the ellipsoid for a body, and the ellipsoid, the place and both axes for a region; it is kept unchanged through questions, and a target assigned before the first question counts. Refuted: the description of a body closes before its coordinate system and axes, that of a region before its remark, and a target assigned after the first question does not change the description. How pyproj reads the text is outside the model."
  },
  {
   "property": "C126",
   "status": "partial",
   "theorems": [
    "C126_series_partial",
    "C126_first_failure",
    "C126_none_refuted",
    "C126_unknown_format",
    "C126_whole_surface",
    "C126_region_refuted"
   ],
   "note": "Proved for one or more craters, for failing outlines, for unknown formats and for whole surfaces. Refuted: no craters at all is a ValueError, and the polygon of a region is never written, because the table has one row of values and an index of two. The outline of one crater is a parameter (its shape is the subject of C97)."
  },
  {
   "property": "C127",
   "status": "partial",
   "theorems": [
    "C127_before_partial",
    "C127_first_question",
    "C127_late_refuted",
    "C127_switched",
    "C127_none_refuted",
    "C127_given",
    "C127_list_kept"
   ],
   "note": "Proved while the simulation was not asked or populated, after a first question with craters present, after switching, and for assignments. Refuted: when no crater was there at the first question, craters given later are never merged; assigning None to the switch is a TypeError. The treatment of an assigned list is a parameter (Quasi_model models it)."
  },
  {
   "property": "C128",
   "status": "partial",
   "theorems": [
    "C128_units",
    "C128_assigned",
    "C128_later_partial",
    "C128_metres_refuted",
    "C128_construct_refuted"
   ],
   "note": "Proved: the reported units agree with the factors in every history, the values accepted, and the times of craters given after construction with diameters in kilometres. Refuted: with diameters in metres they are still read in kilometres, and craters given at construction are dated in the default units whatever units are given with them. Densities with an uncertainty or a sequence are in Quasi_model."
  }
 ]
}