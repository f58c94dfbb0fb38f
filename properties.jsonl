{"id": "C01", "title": "Normalised locations are in range and denote the same point", "statement": "Passing any finite (longitude, latitude) pair to the location normaliser returns a longitude in [-180,180) and a latitude in [-90,90] that denote the same point of the sphere, and normalising twice is the same as normalising once.", "quantifier": "every rational longitude/latitude pair", "why_tests_cant": "The inputs form an infinite two-dimensional set and the interesting failures are at pole crossings and wrap-around boundaries.", "anchors": ["cratermaker/utils/general_utils.py: normalize_coords, validate_and_normalize_location"]}
{"id": "C02", "title": "Random number generator initialisation precedence and reproducibility", "statement": "A generator passed by the user is used as is; a seed alone always gives the same stream; a saved state, when given, decides the stream whatever else is given; assigning rng_state on an object makes the object continue from that state.", "quantifier": "every combination of rng / rng_seed / rng_state arguments, every seed, every state", "why_tests_cant": "Needs every combination of the three optional arguments and every generator state; a test sees only some streams.", "anchors": ["cratermaker/core/base.py: _rng_init, rng_seed, rng_state, rng"]}
{"id": "C03", "title": "Component factory dispatch", "statement": "The component factory returns a given instance unchanged, builds exactly the registered class for a registered name or class, uses the first registered component when nothing is given, and otherwise raises (KeyError for an unregistered name, TypeError for anything else); registering a component never changes what other names resolve to.", "quantifier": "every registry built by any sequence of registrations and every argument", "why_tests_cant": "Registries are open: any number of third-party components can be registered in any order.", "anchors": ["cratermaker/core/base.py: ComponentBase.maker, register, available"]}
{"id": "C04", "title": "Property assignment precedence", "statement": "When properties come from keyword arguments, a catalogue and a configuration file at once, an explicit non-None keyword wins over the catalogue which wins over the file; names that match no attribute are reported back unchanged and never assigned; the catalogue is left as it was.", "quantifier": "every triple of finite maps (file, catalogue entry, keywords) and every attribute set", "why_tests_cant": "The precedence must hold for every overlap pattern of three dictionaries.", "anchors": ["cratermaker/utils/general_utils.py: _set_properties, _create_catalogue"]}
{"id": "C05", "title": "Saved configuration contains exactly the user-set parameters and rebuilds the object", "statement": "The configuration written for a target lists every parameter the user has assigned with a non-None value, with its current value, and nothing else; making a target from it reproduces the same attributes.", "quantifier": "every name, every combination of keywords and every sequence of parameter assignments", "why_tests_cant": "Quantifies over all assignment histories.", "anchors": ["cratermaker/core/base.py: _to_config", "cratermaker/utils/general_utils.py: Parameter", "cratermaker/core/simulation.py: Simulation.__init__, to_config"]}
{"id": "C06", "title": "Reading a saved interval returns that interval's file", "statement": "After saving any set of intervals, asking for interval n returns the contents of the file saved for n (or nothing if n was not saved), and the list of saved intervals is exactly the set saved, in increasing order.", "quantifier": "every finite set of saved interval numbers", "why_tests_cant": "File ordering bugs only appear for particular sets of interval numbers (e.g. crossing a power of ten).", "anchors": ["cratermaker/core/base.py: output_filename, get_saved_interval_numbers, read_saved_output"]}
{"id": "C07", "title": "Overwrite prompt is honoured", "statement": "When the user declines the overwrite prompt nothing is deleted and the operation reports failure; answering 'all' or disabling prompts deletes exactly the listed files; the stored ask_overwrite preference never changes.", "quantifier": "every list of files and every sequence of prompt answers", "why_tests_cant": "The answers form an unbounded sequence; the interesting case is a refusal after earlier acceptances.", "anchors": ["cratermaker/core/base.py: _overwrite_check, reset"]}
{"id": "C08", "title": "Save actions are validated atomically", "statement": "Setting the list of save actions either installs the whole validated list or raises and leaves the previous list; adding an action appends exactly one; running save performs the listed actions in order, and none when skipping is requested.", "quantifier": "every list of actions, valid or not, and every sequence of add/set operations", "why_tests_cant": "Atomicity is about every position at which an invalid action may sit in the list.", "anchors": ["cratermaker/core/base.py: save_actions, add_save_action, save", "cratermaker/core/simulation.py: save_actions"]}
{"id": "C09", "title": "A run visits contiguous time intervals covering the requested period", "statement": "A simulation run processes ninterval steps; consecutive steps share an end point, the first begins at time_start, the last ends at time_end, and no time is covered twice or skipped.", "quantifier": "every start, end and interval specification accepted by run", "why_tests_cant": "Depends on arithmetic of arbitrary start/end/interval values, including non-dividing ones.", "anchors": ["cratermaker/core/simulation.py: run, _validate_run_args"]}
{"id": "C10", "title": "Run bookkeeping equals simulated time", "statement": "After a completed run the recorded current time equals time_end, the elapsed time equals time_start - time_end and the interval counter equals the number of intervals processed; running again after completion changes nothing.", "quantifier": "every accepted (time_start, time_end, time_interval / ninterval)", "why_tests_cant": "Requires all divisor relations between the interval length and the period.", "anchors": ["cratermaker/core/simulation.py: run, _validate_run_args, time_variables, IntervalState"]}
{"id": "C11", "title": "Run argument validation", "statement": "run accepts exactly the consistent argument sets: at most one of ninterval and time_interval, positive, not longer than the period, start not after end, and rejects every other combination with an error before changing any state.", "quantifier": "every combination of optional run arguments", "why_tests_cant": "Combinatorial set of optional arguments with numeric boundary conditions.", "anchors": ["cratermaker/core/simulation.py: _validate_run_args"]}
{"id": "C12", "title": "Quasi-Monte-Carlo craters are merged exactly once", "statement": "When user-specified craters are merged into a generated population for a time window, every user crater whose time is in the window appears exactly once in the result, no user crater outside the window appears, the result is in order of decreasing time (oldest first), and its size is that of the generated population plus the number of user craters that replaced nothing.", "quantifier": "every generated population, every list of user craters, every window", "why_tests_cant": "Quantifies over all populations and all orderings of sizes and times.", "anchors": ["cratermaker/components/production/__init__.py: quasimc_merge"]}
{"id": "C13", "title": "Sampled formation times lie in the requested window", "statement": "The formation times drawn for a sample lie between time_end and time_start, there is one per crater, and they are returned oldest first.", "quantifier": "every uniform random draw, every monotone chronology, every window", "why_tests_cant": "Random draws range over a continuum.", "anchors": ["cratermaker/components/production/__init__.py: compute_time, sample"]}
{"id": "C14", "title": "Neukum chronology is additive and monotone", "statement": "The cumulative number of craters produced between two times is non-negative, additive over adjacent intervals, increasing with age and zero for an empty interval; an age computed from a number is the inverse of the chronology.", "quantifier": "every pair/triple of times and every positive coefficient pair", "why_tests_cant": "Real-analytic statement for all ages.", "anchors": ["cratermaker/components/production/neukum.py: chronology, function"]}
{"id": "C15", "title": "Neukum coefficients follow the selected version", "statement": "After selecting a production function version all coefficients used are those of that version, whatever version was selected or used before.", "quantifier": "every sequence of version assignments and coefficient reads", "why_tests_cant": "A history property: the failure needs a read between two assignments.", "anchors": ["cratermaker/components/production/neukum.py: version, Clin, Cexp, sfd_coef, sfd_range"]}
{"id": "C16", "title": "Power-law production is a power law in size and linear in time", "statement": "The number of craters larger than D produced between two times is N1*D^slope times the duration, decreasing in D, additive in time and zero for an empty interval; the chronology value depends on time accordingly.", "quantifier": "every positive diameter, every pair of times, every negative slope", "why_tests_cant": "Real-analytic statement for all arguments.", "anchors": ["cratermaker/components/production/powerlaw.py: function, chronology, csfd, slope, N1_coef"]}
{"id": "C17", "title": "Final and transient crater sizes are mutually inverse", "statement": "Converting a transient diameter to a final diameter and morphology type and converting those back returns the transient diameter, whatever the random draws; without Monte Carlo variation, converting a final diameter to a transient one and back returns the same diameter and type; both maps are strictly increasing, a final crater is larger than its transient crater, and the conversion succeeds on a stated range of sizes.", "quantifier": "every positive diameter, every scaling parameter set reachable by construction and every random draw", "why_tests_cant": "Continuum of sizes; inversion by root finding.", "anchors": ["cratermaker/components/scaling/montecarlo.py: final_to_transient, transient_to_final, _f2t_simple, _f2t_complex"]}
{"id": "C18", "title": "Morphology type is decided by the transition diameters", "statement": "The morphology type is a function of the diameter, the transition diameter and one random draw: without Monte Carlo variation it is simple below half the transition diameter, complex above twice it and transitional between; with it, the probabilities are piecewise linear in the diameter. Non-positive diameters are rejected. The type reported with a final diameter is the type of that diameter.", "quantifier": "every diameter, transition diameter and random draw", "why_tests_cant": "Boundary behaviour at both thresholds for all real values.", "anchors": ["cratermaker/components/scaling/montecarlo.py: get_morphology_type, transient_to_final"]}
{"id": "C19", "title": "Targets are complete, valid and mutually consistent", "statement": "A target made from a name and keywords has each attribute equal to the keyword if given and otherwise to the catalogue value, or is rejected with ValueError (invalid values, both radius and diameter, or an unknown body without enough keywords). After any sequence of assignments each attribute is that of the last accepted assignment, a rejected assignment changes nothing, and size and mass stay positive, so that gravity, escape velocity, area and volume computed from them satisfy g*R^2 = G*M, v^2 = 2*G*M/R, V = A*D/6 and A = C*D.", "quantifier": "every name, every combination of keywords and every sequence of assignments", "why_tests_cant": "A history property over a mutable object with derived quantities and optional arguments.", "anchors": ["cratermaker/components/target/__init__.py: Target.__init__, maker, radius, mass, density, gravity, escape_velocity"]}
{"id": "C20", "title": "Setting the target material does not change a user's target density", "statement": "Selecting a scaling material keeps the density the user gave to the target.", "quantifier": "every user density and every material", "why_tests_cant": "Interaction between two components for all values.", "anchors": ["cratermaker/components/scaling/montecarlo.py: material, recompute"]}
{"id": "C21", "title": "Random point on a face lies inside the face", "statement": "The random location drawn on a face of any number of corners is a convex combination of the face's corners, and each triangle of the face is used with a probability proportional to its area.", "quantifier": "every face and every triple of uniform draws", "why_tests_cant": "Continuum of draws and all face shapes.", "anchors": ["cratermaker/utils/montecarlo_utils.py: _get_one_random_location, get_random_location_on_face"]}
{"id": "C22", "title": "Sampled sizes stay within the requested range and follow the table", "statement": "Every valid table of a cumulative distribution gives a size for every draw; the size lies between the smallest and the largest tabulated size, and the fraction of draws at least as large as a row is the row's share of the total.", "quantifier": "every cumulative table and every uniform draw", "why_tests_cant": "Continuum of draws and all tables.", "anchors": ["cratermaker/utils/montecarlo_utils.py: get_random_size"]}
{"id": "C23", "title": "Impact velocities respect the escape velocity", "statement": "When the mean velocity exceeds the escape velocity every sampled impact velocity is at least the escape velocity; otherwise every returned velocity is below it and sampling terminates. Impact angles are at least 0 and below 90 degrees and follow the sin^2 law.", "quantifier": "every mean/escape velocity pair and every random draw", "why_tests_cant": "Continuum of draws.", "anchors": ["cratermaker/utils/montecarlo_utils.py: get_random_velocity, get_random_impact_angle"]}
{"id": "C24", "title": "Fixed crater attributes are immutable", "statement": "No assignment on a crater changes any of its intrinsic attributes (size, location, time, projectile); the attempt is rejected, and reads after any sequence of operations give the original values.", "quantifier": "every sequence of attribute assignments", "why_tests_cant": "History property.", "anchors": ["cratermaker/components/crater/__init__.py: Crater.__setattr__, CraterFixed"]}
{"id": "C25", "title": "Measured crater axes stay ordered and read back", "statement": "After any sequence of assignments to the measured axes the measured semi-major axis is not smaller than the semi-minor axis; a non-positive value is rejected without effect; a measured radius or diameter just assigned reads back.", "quantifier": "every sequence of assignments of measured radius, diameter, semi-major and semi-minor axes", "why_tests_cant": "History property; failures need a particular order of shrinking and growing.", "anchors": ["cratermaker/components/crater/__init__.py: measured_semimajor_axis, measured_semiminor_axis, measured_radius, measured_diameter"]}
{"id": "C26", "title": "Copying a crater preserves it", "statement": "Making a crater from an existing one without other arguments preserves all its attributes including its id and name; arguments given explicitly override the copied values.", "quantifier": "every crater and every subset of explicit arguments", "why_tests_cant": "Combinatorial set of optional arguments.", "anchors": ["cratermaker/components/crater/__init__.py: Crater.maker"]}
{"id": "C27", "title": "Crater tuple attributes round-trip through flat columns", "statement": "Flattening location, measured location, production time and production N(D) into scalar columns and rebuilding recovers the original tuples.", "quantifier": "every crater record", "why_tests_cant": "All combinations of present/absent attributes.", "anchors": ["cratermaker/components/crater/__init__.py: _convert_tuple_vars"]}
{"id": "C28", "title": "Queued craters are formed exactly once in order", "statement": "Emplacing a list of craters forms each emplaceable crater exactly once, in the order given, whatever batches are chosen; the queue is empty afterwards and processing terminates.", "quantifier": "every list of craters and every overlap relation", "why_tests_cant": "All queue contents and overlap patterns; termination.", "anchors": ["cratermaker/components/morphology/__init__.py: emplace, _enqueue_crater, _process_queue, CraterQueueManager"]}
{"id": "C29", "title": "Batches contain only non-overlapping craters", "statement": "Every batch taken from the queue is the longest prefix whose craters have pairwise disjoint affected faces and nodes, and is never empty when the queue is not.", "quantifier": "every queue and every assignment of affected faces and nodes", "why_tests_cant": "All overlap patterns.", "anchors": ["cratermaker/components/morphology/__init__.py: CraterQueueManager.peek_next_batch, pop_batch"]}
{"id": "C30", "title": "Failure while forming a crater does not repeat finished craters", "statement": "If forming a crater raises, a later emplacement does not form again craters that had already been formed.", "quantifier": "every queue and every failure point", "why_tests_cant": "Crash-point property.", "anchors": ["cratermaker/components/morphology/__init__.py: _process_queue, CraterQueueManager.pop_batch"]}
{"id": "C31", "title": "Ejecta volume balances excavated volume", "statement": "The total volume added as ejecta equals the volume removed when the crater was excavated.", "quantifier": "every mesh, every elevation change, every non-zero ejecta profile", "why_tests_cant": "All meshes and profiles.", "anchors": ["cratermaker/components/morphology/__init__.py: form_crater, form_ejecta"]}
{"id": "C32", "title": "Crater profile shape", "statement": "The model profile has the rim height at the rim, the floor depth at the floor edge, rises monotonically from floor to rim, is continuous at the rim once ejecta is added and never goes below the floor depth relative to the reference surface.", "quantifier": "every radius and every admissible set of profile parameters", "why_tests_cant": "Real-analytic statement over all radii and parameters.", "anchors": ["crates/cratermaker-components/src/morphology/basicmoon.rs: crater_profile, crater_profile_function"]}
{"id": "C33", "title": "Ejecta profile shape", "statement": "Ejecta thickness is zero inside the rim, equals the rim ejecta thickness at the rim, is non-negative and decreases with distance.", "quantifier": "every distance, crater radius and rim thickness", "why_tests_cant": "Continuum.", "anchors": ["crates/cratermaker-components/src/morphology/basicmoon.rs: ejecta_profile_function"]}
{"id": "C34", "title": "Topographic diffusion conserves volume", "statement": "Applying diffusion to any region changes no volume: the area-weighted sum of elevation changes is zero.", "quantifier": "every mesh connectivity, areas, edge lengths, diffusivities and elevations, any number of sub-steps", "why_tests_cant": "All meshes and fields.", "anchors": ["crates/cratermaker-components/src/surface/mod.rs: apply_diffusion, compute_dt_max, extract_edge_faces", "cratermaker/components/surface/__init__.py: LocalSurface.apply_diffusion"]}
{"id": "C35", "title": "Topographic diffusion creates no new extrema", "statement": "Diffusion never raises a face above the previous maximum nor lowers one below the previous minimum; a flat surface is unchanged; zero diffusivity changes nothing.", "quantifier": "every mesh with positive areas/lengths and non-negative diffusivities", "why_tests_cant": "Stability for all meshes, diffusivities and step counts.", "anchors": ["crates/cratermaker-components/src/surface/mod.rs: apply_diffusion, compute_dt_max"]}
{"id": "C36", "title": "Slope collapse", "statement": "Slope collapse conserves volume, creates no new extrema, terminates, and if it stops before its iteration limit no slope exceeds the critical slope.", "quantifier": "every mesh, elevation field and critical slope", "why_tests_cant": "Loop postcondition for all inputs.", "anchors": ["crates/cratermaker-components/src/surface/mod.rs: slope_collapse"]}
{"id": "C37", "title": "Node elevations are averages of adjacent faces", "statement": "The elevation interpolated at a node lies between the minimum and maximum of the adjacent faces, equals their common value if they agree, and is their area-weighted mean.", "quantifier": "every mesh and elevation field", "why_tests_cant": "All meshes.", "anchors": ["crates/cratermaker-components/src/surface/mod.rs: interpolate_node_elevation_from_faces"]}
{"id": "C38", "title": "Great-circle distance is a symmetric bounded distance", "statement": "The distance between two locations is symmetric, zero for the same location, between 0 and half the circumference, independent of adding full turns to longitude, and equals the radius times the angle between the two directions.", "quantifier": "every pair of locations", "why_tests_cant": "Trigonometric identity over the whole sphere.", "anchors": ["crates/cratermaker-components/src/surface/mod.rs: compute_one_distance, positive_mod", "cratermaker/components/surface/__init__.py: compute_distances"]}
{"id": "C39", "title": "Location from distance and bearing is at that distance", "statement": "The location computed from a start, a distance and a bearing lies at exactly that great-circle distance from the start.", "quantifier": "every start (off the poles), every bearing, every distance up to half the circumference", "why_tests_cant": "Trigonometric identity over the whole sphere.", "anchors": ["crates/cratermaker-components/src/surface/mod.rs: compute_one_location_from_distance_bearing, compute_one_distance"]}
{"id": "C40", "title": "Tagging faces preserves existing tags", "statement": "Adding a tag to a region makes the tag present on every face of the region and leaves every other tag on every face; removing a tag removes exactly that tag from exactly that region.", "quantifier": "every tag table and every region", "why_tests_cant": "Depends on the occupancy pattern of all tag layers.", "anchors": ["cratermaker/components/surface/__init__.py: add_tag, remove_tag, sort_tags"]}
{"id": "C41", "title": "Observed craters are exactly those still recorded on the surface", "statement": "After any sequence of additions, removals and tallies every observed crater still has at least one face carrying its id.", "quantifier": "every history of add/remove/tally operations", "why_tests_cant": "History invariant.", "anchors": ["cratermaker/components/counting/__init__.py: add, remove, tally"]}
{"id": "C42", "title": "Cookie cutting removes only smaller craters inside the rim", "statement": "Adding a crater removes from the count only craters of smaller diameter that have lost every recorded face, and never removes a larger one.", "quantifier": "every surface tag state and every crater", "why_tests_cant": "All overlap patterns.", "anchors": ["cratermaker/components/counting/__init__.py: add"]}
{"id": "C43", "title": "Least-squares circle radius", "statement": "With a fixed centre the fitted rim radius is the weighted mean distance, minimises the weighted squared misfit, and lies between the smallest and largest rim-point distance.", "quantifier": "every non-empty set of weighted rim points", "why_tests_cant": "Optimality over a continuum.", "anchors": ["crates/cratermaker-components/src/counting/mod.rs: fit_one_circle_fixed_center"]}
{"id": "C44", "title": "Fitted ellipse parameters describe the fitted conic", "statement": "The centre, axes and orientation derived from conic coefficients describe the same ellipse, with the major axis not shorter than the minor one.", "quantifier": "every conic that is an ellipse", "why_tests_cant": "Continuum of conics with case splits.", "anchors": ["crates/cratermaker-components/src/counting/mod.rs: ellipse_coefficients_to_parameters"]}
{"id": "C45", "title": "Local regions are closed under connectivity", "statement": "A region extracted around a location contains every face within the radius, every edge and node of those faces and every face touching them, and nothing else; a radius of half the circumference or more gives the whole surface; local connectivity indices refer to the same global elements.", "quantifier": "every mesh connectivity and every selection of faces", "why_tests_cant": "All meshes.", "anchors": ["cratermaker/components/surface/__init__.py: extract_region, _remap_connectivity_to_local"]}
{"id": "C46", "title": "Elevation updates go to the right elements", "statement": "In a region with different numbers of faces and nodes (every region of a mesh whose faces meet three at a node), an elevation array sized for faces updates faces and re-interpolates the region's nodes, one sized for nodes updates nodes, one sized for both updates both, a single number updates everything, any other size is rejected without change; elements outside the region and other variables never change.", "quantifier": "every region with different numbers of faces and nodes, every array, adding or overwriting", "why_tests_cant": "All sizes and values.", "anchors": ["cratermaker/components/surface/__init__.py: update_elevation, add_data, interpolate_node_elevation_from_faces"]}
{"id": "C47", "title": "Noise adds no volume", "statement": "Applying noise to a region leaves its total volume unchanged.", "quantifier": "every mesh and noise field", "why_tests_cant": "All meshes and noise fields.", "anchors": ["cratermaker/components/surface/__init__.py: apply_noise"]}
{"id": "C48", "title": "Faces are partitioned into factor-of-two area bins", "statement": "Every face is in exactly one bin, bins are non-empty, and areas within a bin differ by less than a factor of two.", "quantifier": "every non-empty list of positive face areas", "why_tests_cant": "Boundary behaviour at exact powers of two.", "anchors": ["cratermaker/components/surface/__init__.py: _compute_face_bins"]}
{"id": "C49", "title": "Background degradation covers the simulated time once", "statement": "While a list of dated craters is emplaced with subpixel degradation on, every instant between the first and the last crater receives the background degradation exactly once.", "quantifier": "every crater list, overlap pattern and cadence", "why_tests_cant": "Depends on how overlaps cut the list into batches; a test fixes one cut.", "anchors": ["cratermaker/components/morphology/__init__.py: emplace, _process_queue", "cratermaker/components/morphology/basicmoon.py: compute_subpixel_degradation"]}
{"id": "C50", "title": "Extent of a crater's ejecta", "statement": "The computed extent of an ejecta blanket lies between the crater radius and the truncation limit, the blanket is thinner than the minimum thickness everywhere beyond it and thicker everywhere within it.", "quantifier": "every crater, minimum thickness, truncation setting and radius", "why_tests_cant": "Holds for a continuum of radii and parameters.", "anchors": ["cratermaker/components/morphology/basicmoon.py: rmax"]}
{"id": "C51", "title": "Bearing and destination are inverse", "statement": "The bearing from one location to another is the clockwise angle from north in [0, 360); travelling on a bearing and asking for the bearing of the place reached gives it back; travelling the computed distance on the computed bearing reaches the place.", "quantifier": "every pair of locations with the start off the poles, every bearing, every distance below half the circumference", "why_tests_cant": "Trigonometric identity over the whole sphere, including dateline and quadrant cases.", "anchors": ["crates/cratermaker-components/src/surface/mod.rs: compute_one_bearing, compute_bearings, compute_location_from_distance_bearing"]}
{"id": "C52", "title": "Craters saved to a file are read back unchanged", "statement": "Reading back the craters written by a save gives the same craters: every attribute, the id and the name.", "quantifier": "every crater that calls and assignments can produce, saved in any file", "why_tests_cant": "Depends on every combination of optional attributes and on the other craters of the file.", "anchors": ["cratermaker/components/crater/__init__.py: Crater.from_xarray, from_csv_file, maker, as_dict", "cratermaker/components/counting/__init__.py: to_csv_file, to_xarray"]}
{"id": "C53", "title": "A new crater erases the ejecta that lay inside it", "statement": "After a crater forms, the surface does not depend on the ejecta thickness recorded inside the crater before; a crater no larger than the face at its centre changes nothing.", "quantifier": "every mesh, crater shape and earlier ejecta blanket", "why_tests_cant": "All earlier histories of the ejecta layer.", "anchors": ["cratermaker/components/morphology/__init__.py: form_crater", "cratermaker/components/morphology/basicmoon.py: form_ejecta"]}
{"id": "C54", "title": "Sampled formation times follow the chronology", "statement": "The chance that a sampled crater is given a time in a part of the requested window is the fraction of the craters that the production function predicts for that part; with a constant impact rate, parts of equal length are equally likely, and no part of the window is excluded.", "quantifier": "every increasing production function, every window, every part of the time grid, every uniform draw", "why_tests_cant": "A statement about a distribution over a continuum of draws; a sample can only suggest it.", "anchors": ["cratermaker/components/production/__init__.py: compute_time, sample"]}
{"id": "C55", "title": "The number of 1 km craters agrees with the chronology", "statement": "The number of craters larger than 1 km per square metre that the Neukum production function predicts for an age is the value of the published 1 km chronology at that age.", "quantifier": "every age, every version with crater counts", "why_tests_cant": "A statement about a real function at all ages.", "anchors": ["cratermaker/components/production/neukum.py: function, chronology, csfd"]}
{"id": "C56", "title": "Production size distributions are positive and strictly decreasing", "statement": "For every version of the Neukum production function the cumulative number is defined for every diameter the argument check accepts, positive, continuous in the diameter across the ends of the tabulated range, and strictly decreasing with diameter over all sizes, so that sampling never rejects it.", "quantifier": "every version, every pair of positive diameters", "why_tests_cant": "Monotonicity over a continuum, including extrapolated sizes; a grid of sample points cannot settle it.", "anchors": ["cratermaker/components/production/neukum.py: csfd, sfd_tables, sfd_range", "cratermaker/components/counting/__init__.py: R_to_CSFD"]}
{"id": "C57", "title": "Extrapolated size distributions continue the table", "statement": "Below the smallest tabulated diameter the cumulative number continues as a power law with the slope that the table has at its end.", "quantifier": "every version, every diameter below the table", "why_tests_cant": "A statement about derivatives at all sizes.", "anchors": ["cratermaker/components/production/neukum.py: _extrapolate_sfd, _dNdD"]}
{"id": "C58", "title": "Projectile and transient sizes are mutually inverse", "statement": "For fixed impact conditions a larger projectile makes a strictly larger transient crater, never smaller than the projectile itself; the projectile size computed for a transient crater makes exactly that crater; and computing the projectile of a crater made by a projectile returns that projectile, unless it is more than 100 000 times smaller than the crater, which is an error.", "quantifier": "every positive size and every positive combination of target and projectile properties", "why_tests_cant": "Continuum of sizes and material parameters; inversion by root finding.", "anchors": ["cratermaker/components/scaling/montecarlo.py: projectile_to_transient, transient_to_projectile"]}
{"id": "C59", "title": "An explicit component argument replaces the stored configuration", "statement": "When a simulation is opened in a directory with a saved configuration and a different target is given as argument, the result is that target, with none of the parameters saved for the old one.", "quantifier": "every pair of bodies", "why_tests_cant": "Every pair of saved and requested components.", "anchors": ["cratermaker/core/simulation.py: Simulation.__init__ (config_override)"]}
{"id": "C60", "title": "Random locations are uniform on the sphere", "statement": "Random locations have longitudes in [-180, 180) and latitudes in [-90, 90] and are uniform on the sphere; impact directions are uniform in [0, 360); bounded normal samples lie between their bounds.", "quantifier": "every pair of uniform draws", "why_tests_cant": "Continuum of draws; a distribution cannot be established by samples.", "anchors": ["cratermaker/utils/montecarlo_utils.py: get_random_location, get_random_impact_direction, bounded_norm"]}
{"id": "C61", "title": "Circle fits with free centre", "statement": "Whenever the rim points that have a positive score are not on a line, the circle fit succeeds; the circle has a positive radius, no other circle has a smaller weighted squared misfit, a true circle is recovered exactly, and the reported misfit is the weighted root mean square distance to the circle.", "quantifier": "every list of rim points and scores, including missing and negative scores", "why_tests_cant": "Optimality and exact recovery over a continuum of points and weights.", "anchors": ["crates/cratermaker-components/src/counting/mod.rs: fit_one_circle"]}
{"id": "C62", "title": "Ellipse fits", "statement": "Every fitted conic is an ellipse with positive ordered axes, no conic (with the given centre, if it is fixed) is better in the weighted least-squares sense with the same normalisation, rim points on an ellipse are all on the fitted one, and points on a line give an error.", "quantifier": "every list of rim points and scores, and every eigenvector routine that returns eigenvectors", "why_tests_cant": "Optimality over all conics; depends on the algebra of the reduced eigenproblem.", "anchors": ["crates/cratermaker-components/src/counting/mod.rs: fit_one_ellipse, fit_one_ellipse_fixed_center"]}
{"id": "C63", "title": "Distances to a fitted rim", "statement": "The signed distance to a crater rim is negative inside, zero on and positive outside the measured ellipse, is measured along the ray from the centre, and vanishes on the ellipse that was fitted; the distances behind the reported misfit vanish on the fitted ellipse.", "quantifier": "every point, every crater and every fit", "why_tests_cant": "Ranges over all ellipses and orientations; the fault shows for half of them.", "anchors": ["crates/cratermaker-components/src/counting/mod.rs: radial_distance_to_crater_rim, fit_one_ellipse, geometric_distances"]}
{"id": "C64", "title": "Noise has the requested height", "statement": "Noise applied with a given height changes elevations by an amount comparable to that height in metres.", "quantifier": "every region, noise field, height and body", "why_tests_cant": "All noise fields.", "anchors": ["cratermaker/components/surface/__init__.py: apply_noise", "crates/cratermaker-components/src/surface/mod.rs: turbulence_noise"]}
{"id": "C65", "title": "A subregion is the region of the smaller radius", "statement": "Extracting a subregion of a region gives the same faces, edges and nodes as extracting a region with the smaller radius around the same location.", "quantifier": "every mesh, location and pair of radii", "why_tests_cant": "All meshes and radii.", "anchors": ["cratermaker/components/surface/__init__.py: extract_subregion, extract_region"]}
{"id": "C66", "title": "Nodes have the mean elevation of their faces after a face update", "statement": "After the faces of a region are updated every node of the region has the area-weighted mean elevation of all its faces.", "quantifier": "every mesh, region and update", "why_tests_cant": "All regions, including their borders.", "anchors": ["cratermaker/components/surface/__init__.py: update_elevation, interpolate_node_elevation_from_faces"]}
{"id": "C67", "title": "Equal numbers of faces and nodes do not confuse updates", "statement": "Elevation updates reach the faces and nodes of the region, and only those, also when the region has as many nodes as faces.", "quantifier": "every region", "why_tests_cant": "A coincidence of sizes.", "anchors": ["cratermaker/components/surface/__init__.py: add_data, update_elevation"]}
{"id": "C68", "title": "Measured rim height and floor depth", "statement": "The measured floor depth is the mean elevation of the faces that record the crater and lie within 0.2 measured radii, the measured rim height that of the recording faces between 0.95 and 1.2 radii; faces without an elevation do not count; raising the terrain raises both; the values reflect the current surface.", "quantifier": "every region, tag table, elevation field and sequence of reads", "why_tests_cant": "All surfaces, NaN patterns and read/modify histories.", "anchors": ["crates/cratermaker-components/src/counting/mod.rs: measure_floor_depth, measure_rim_height", "cratermaker/components/morphology/__init__.py: measured_rim_height, measured_floor_depth, measured_depth_to_diameter"]}
{"id": "C69", "title": "Craters are counted by their depth relative to the original", "statement": "With the depth-based counting model a crater is dropped from the count exactly when its depth has fallen to a size-dependent fraction of the original depth; deeper craters are less degraded; unresolved craters are dropped.", "quantifier": "every crater of at least 1 m, depth and original depth", "why_tests_cant": "Real-valued sizes and depths; monotonicity of a piecewise function.", "anchors": ["cratermaker/components/counting/depthcount.py: measure_degradation_state, visibility_function", "cratermaker/components/counting/__init__.py: tally"]}
{"id": "C70", "title": "Rim scores", "statement": "Every face near a crater gets a rim score in [0,1] or none; unless no face can be scored some face has score 1 and enough faces per sector remain; raising the terrain changes no score; the threshold is the requested quantile as numpy.nanquantile gives it.", "quantifier": "every set of faces, weights and quantile", "why_tests_cant": "All elevation fields, including flat ones and those with NaN.", "anchors": ["crates/cratermaker-components/src/counting/mod.rs: score_rim, nanquantile"]}
{"id": "C71", "title": "Rim fitting ends and its result is recorded", "statement": "Rim fitting ends after at most the given number of loops with a rim that has converged unless the loops are used up, measured on a region around the current rim, and the fitted axes, location and orientation become the measured ones of the crater.", "quantifier": "every surface, fit result, tolerance and loop count", "why_tests_cant": "All sequences of intermediate fits.", "anchors": ["crates/cratermaker-py/src/counting_bindings.rs: fit_rim", "cratermaker/components/counting/__init__.py: fit_rim", "cratermaker/components/crater/__init__.py: measured_semimajor_axis, measured_semiminor_axis setters"]}
{"id": "C72", "title": "Times of quasi-Monte-Carlo craters", "statement": "Assigning quasimc_craters keeps every crater that has production metadata exactly once, gives each a time that is its given time or the age of its N(D) when these have no uncertainty and a draw around them otherwise, never in the future, sorts them oldest first, and limits the range of random diameters to below the smallest of them while they are set.", "quantifier": "every list of craters, production function, and outcome of the random draws", "why_tests_cant": "All draws and all combinations of metadata; a negative time needs an unlikely draw.", "anchors": ["cratermaker/components/production/__init__.py: _process_quasimc_craters, quasimc_craters, diameter_range"]}
{"id": "C73", "title": "Sequence order of quasi-Monte-Carlo craters", "statement": "Craters with a smaller production_sequence are never younger than craters with a larger one, whatever is drawn; dates that agree with the sequence are accepted, and exact dates among them are kept.", "quantifier": "every list of craters with any sequence numbers and dates, every chronology, and every outcome of the draws", "why_tests_cant": "The bounds come from an iteration over all sequence numbers; all dates, numbers of sequences and draws matter.", "anchors": ["cratermaker/components/production/__init__.py: _process_quasimc_craters, _get_sequence_extents, _sequence_is_consistent, _draw_quasimc_time"]}
{"id": "C74", "title": "Crater and projectile size limits", "statement": "smallest_crater and largest_crater (and smallest_projectile and largest_projectile) of a simulation read back what was last assigned, raised to the smallest face size or lowered to the size of the target, are independent of one another, never cross, and survive saving and resuming.", "quantifier": "every sequence of assignments, both kinds of production function, every scaling relation that is increasing and invertible", "why_tests_cant": "All orders and values of assignments; the four limits share one stored pair.", "anchors": ["cratermaker/core/simulation.py: _get_diameter_limit, smallest_crater, largest_crater, smallest_projectile, largest_projectile, __init__"]}
{"id": "C75", "title": "Extents of a region", "statement": "The longitudes and latitudes returned by get_location_extents enclose every point within the radius of the location.", "quantifier": "every location, radius, target size and point", "why_tests_cant": "All points of all regions; the error is small near the equator and for small regions.", "anchors": ["cratermaker/components/surface/__init__.py: get_location_extents"]}
{"id": "C76", "title": "Elevation files cover the region", "statement": "get_lola_dem_file_list returns files of the closest available resolution that together cover every point of the requested range of longitudes and latitudes.", "quantifier": "every pixel size, range of latitudes and longitudes, and point in them", "why_tests_cant": "All ranges relative to tile boundaries, sixty degrees and the poles.", "anchors": ["cratermaker/components/surface/__init__.py: get_lola_dem_file_list, get_lola_cylindrical_files_from_pds, _get_lola_cylindrical_url_from_pds, get_lola_polar_files_from_pds"]}
{"id": "C77", "title": "Degradation caused by one crater", "statement": "The degradation a crater causes is positive, grows with its diameter like a power law with an exponent between 1.2 and 2, falls with the size of the degraded region to the power 10/3, and equals the published function for small craters.", "quantifier": "every diameter and region size", "why_tests_cant": "Growth between all pairs of diameters; the deviation from the published function is uniform, so no pair of sample values shows which is right.", "anchors": ["cratermaker/components/morphology/basicmoon.py: degradation_function"]}
{"id": "C78", "title": "Degradation by craters too small to resolve", "statement": "Whatever calls to compute and apply the subpixel degradation are made, every face receives the degradation of all computed periods exactly once, never holds more unapplied degradation than its area, and nothing is carried over to another or a reset surface.", "quantifier": "every sequence of calls, production function, mesh and periods", "why_tests_cant": "All histories of calls and where in them the automatic application falls.", "anchors": ["cratermaker/components/morphology/basicmoon.py: compute_subpixel_degradation, apply_subpixel_degradation, _subpixel_degradation", "cratermaker/core/simulation.py: reset"]}
{"id": "C79", "title": "Face sizes of a local high resolution surface", "statement": "Faces have the requested size in the local region, do not get smaller with the distance from it, and at the antipode have the requested multiple of the local size; a changed or automatic factor means the same.", "quantifier": "every target size, face size, local radius, factor and distance, every history of assignments, every reach of ejecta", "why_tests_cant": "All parameter combinations the setters accept, and the order of reading and assigning.", "anchors": ["cratermaker/components/surface/hireslocal.py: superdomain_function, superdomain_function_slope, superdomain_scale_factor, set_superdomain"]}
{"id": "C80", "title": "Points of a local high resolution surface", "statement": "Generating the mesh ends for all accepted parameters and gives points that cover the local region at the requested spacing and the rest of the body at the local face size, each once, centred on the requested location.", "quantifier": "every accepted parameter combination, every location and point of the body", "why_tests_cant": "All points of all regions; endless loops and gaps appear only for particular large regions.", "anchors": ["cratermaker/components/surface/hireslocal.py: _generate_face_distribution, _rotate_point_cloud"]}
{"id": "C81", "title": "Ray intensities are normalised, start at the rim and only thin the ejecta", "statement": "For every set of distances and bearings around a crater, the ray intensities are numbers from 0 to 1, are 0 inside the crater and beyond the reach of the rays, reach exactly 1 somewhere outside, do not change when a bearing is turned by full turns, and keep the same proportions between two points for the same seed whatever other points are asked for. The ray-modulated ejecta thickness is the plain thickness times the intensity and has the shape of the input.", "quantifier": "every crater diameter, every seed (every shuffle of the rays and every set of random numbers), every list or array of distances and bearings", "why_tests_cant": "the pattern is random, the number of points and their positions are unbounded, and the normalisation depends on all points at once", "anchors": ["crates/cratermaker-components/src/morphology/basicmoon.rs:ray_intensity", "crates/cratermaker-components/src/morphology/basicmoon.rs:ray_intensity_point", "crates/cratermaker-components/src/morphology/basicmoon.rs:ray_intensity_func", "crates/cratermaker-components/src/morphology/basicmoon.rs:ejecta_ray_func", "cratermaker/components/morphology/basicmoon.py:BasicMoon.ray_intensity", "cratermaker/components/morphology/basicmoon.py:BasicMoon.ejecta_distribution"]}
{"id": "C82", "title": "A data composer applies its elevation data exactly once and closes every dataset", "statement": "Whatever calls are made on a data composer in whatever order, the elevations change at most once, every dataset handed over is closed once it is finished or cancelled, and later calls are refused. Leaving a with statement applies the data, or cancels and passes the exception on. Each face and node gets the value, in metres, of the nearest pixel of all datasets, and is left alone where there are no data.", "quantifier": "every sequence of add_data, finish and cancel calls and exceptions, every number and kind of datasets, every mesh", "why_tests_cant": "the call sequences, the exceptions and the overlaps of datasets are unbounded, and datasets that stay open are not visible in a test's result", "anchors": ["cratermaker/components/surface/__init__.py:DataComposer.add_data", "cratermaker/components/surface/__init__.py:DataComposer.cancel", "cratermaker/components/surface/__init__.py:DataComposer.finish", "cratermaker/components/surface/__init__.py:DataComposer.__exit__"]}
{"id": "C83", "title": "A simulation can be stopped and resumed", "statement": "A simulation that is reset starts from nothing and leaves nothing of the old run. A simulation that is resumed has the interval, time, elapsed time, surface and observed craters it had when it was last saved, however often it has been resumed before, wherever the previous program was stopped, and its counters describe its surface.", "quantifier": "every content of the simulation directory, every sequence of runs and resets, every number of sessions and every crash point", "why_tests_cant": "Histories of sessions and crash points are unbounded; the failures need two or more sessions or a stop between two writes.", "anchors": ["cratermaker/core/simulation.py: Simulation.__init__, run, save, to_config, reset, __setattr__", "cratermaker/components/surface/__init__.py: _load_from_files, reset", "cratermaker/components/counting/__init__.py: Counting.__init__, save"]}
{"id": "C84", "title": "A projectile has every attribute, the given ones as given and the rest drawn or defaulted as documented", "statement": "Projectile.maker accepts exactly the documented combinations of arguments; every given argument appears in the projectile; those not given are drawn from the distributions when sampling and are the documented defaults otherwise; the mean velocity is that of the population's catalogue for the target; the population defaults to one that knows the target; any sequence of makers, renewals, copies and setters leaves a complete projectile with no negative attribute; a copy equals its original; changing the target, or naming target and projectile to Scaling.maker, gives the velocities of that target.", "quantifier": "all populations, argument combinations, targets (in a catalogue or not), random draws and sequences of operations", "why_tests_cant": "the argument combinations, targets and histories of copies and setters are unbounded; tests try a few populations on the Moon", "anchors": ["cratermaker/components/projectile/__init__.py:Projectile.__init__", "cratermaker/components/projectile/__init__.py:Projectile.maker", "cratermaker/components/projectile/__init__.py:Projectile.new_projectile", "cratermaker/components/projectile/__init__.py:Projectile._copy", "cratermaker/components/projectile/asteroids.py", "cratermaker/components/projectile/comets.py", "cratermaker/components/projectile/generic.py", "cratermaker/components/scaling/__init__.py:Scaling.maker"]}
{"id": "C85", "title": "A mesh of arbitrary resolution covers the body evenly", "statement": "A surface of arbitrary resolution made with any positive pixel size has mesh points that cover the whole sphere without holes (no place is farther than 1.8 pixel sizes from a mesh point), that are never closer together than 0.09 pixel sizes, that lie on the sphere to within 0.139 pixel sizes, that include both poles, and that number one for each square pixel of the surface, to within half the square root of that number; without a pixel size there are a million of them.", "quantifier": "every pixel size and every radius of the body; every point of the sphere; every pair of mesh points", "why_tests_cant": "The numbers of rings and of points in each ring come from roundings that depend on the pixel size; a hole or a pair of coincident points appears only for particular sizes, and the sphere has infinitely many places to check.", "anchors": ["cratermaker/components/surface/arbitrary_resolution.py:ArbitraryResolutionSurface._distribute_points", "cratermaker/components/surface/arbitrary_resolution.py:ArbitraryResolutionSurface._generate_face_distribution", "cratermaker/components/surface/arbitrary_resolution.py:ArbitraryResolutionSurface.pix"]}
{"id": "C86", "title": "The pixel size of an icosphere follows its level", "statement": "The pixel size that an icosphere surface reports is the square root of the area of the body over the number of faces of its current level; each level halves it to within seven percent; the level is the integer part of the non-negative value that was set.", "quantifier": "every radius, every level and every history of reading the pixel size and setting the level", "why_tests_cant": "The pixel size is cached, so whether it follows the level depends on the order in which the two were read and set.", "anchors": ["cratermaker/components/surface/icosphere.py:IcosphereSurface.gridlevel", "cratermaker/components/surface/icosphere.py:IcosphereSurface.pix"]}
{"id": "C87", "title": "The grid file and the data files of a surface belong together", "statement": "A surface made in a directory has the mesh its parameters describe, whatever an earlier session left there and wherever that session was killed: the mesh on disk is reused only if target, radius, mesh type and all mesh parameters are the same. Making the surface again with the same parameters and without reset changes no file and takes the last saved data. Every saved array has one value for each face or node of the mesh on disk; a save of one interval changes no other interval and keeps arrays it does not replace; a reset leaves zero elevations and removes the other intervals, and if the user declines it nothing is changed.", "quantifier": "all parameters, all sequences of making, adding data, saving, resetting and saving regions, all answers to prompts, all points at which a session is killed", "why_tests_cant": "Tests make one surface and save it once; the property is about what every later session finds after every earlier history and every point of failure.", "anchors": ["cratermaker/components/surface/__init__.py: Surface._load_from_files, Surface._regrid_if_needed, Surface._is_same_grid, Surface._id, Surface._save_data, Surface.reset, Surface.save, LocalSurface.save"]}
{"id": "C88", "title": "The reference surface of a region is its plane of best fit", "statement": "The reference surface of a region has one value for each face and node. Within the reference radius it is the plane with the smallest sum of squared differences from the elevations there, whichever way it is solved for; beyond it, and if there are too few points, it is the terrain itself. It has the mean elevation of the terrain within the radius, follows the terrain if this is raised by a plane, and equals the terrain where this is a plane. Desloped elevations sum to zero, are unchanged by a tilt of the terrain, and represent the relief of every face of the region.", "quantifier": "all regions, elevations, radii and planes; every exact solver of least squares", "why_tests_cant": "A test fits one plane to one set of points; optimality, independence of the solver and equivariance range over all terrains.", "anchors": ["cratermaker/components/surface/__init__.py: LocalSurface.get_reference_surface, LocalSurface.compute_desloped_face_elevation"]}
{"id": "C89", "title": "A crater has the same form wherever it is emplaced", "statement": "The change of elevation made by a crater has one value for each face and node of its region. Beyond the rim it depends on the distance only; it does not depend on the absolute elevation or the slope of the terrain; no point within the rim ends lower than the earlier mean elevation there plus the floor depth; and a resolved crater erases the earlier relief within its rim: the new elevations depend on the old ones only through their plane of best fit.", "quantifier": "all terrains, all craters with a floor inside and below the rim, all planes added to the terrain", "why_tests_cant": "Tests emplace craters on one synthetic surface; the claim compares all pairs of terrains.", "anchors": ["cratermaker/components/morphology/basicmoon.py: BasicMoonMorphology.crater_shape", "crates/cratermaker-components/src/morphology/basicmoon.rs: crater_profile", "cratermaker/components/surface/__init__.py: LocalSurface.get_reference_surface"]}
{"id": "C90", "title": "An exported crater table shows every value of every crater", "statement": "to_csv_file writes one header and one row for each crater in the order given; each cell is the crater's own value in that column or blank, no column appears twice, and every value a crater has appears somewhere in its row. Every kind of argument the call accepts (nothing, a list, a dictionary) is exported, and an export that fails leaves the previous file as it was.", "quantifier": "all lists of craters with any attributes set or cleared, both kinds of crater, all intervals, all kinds of argument, any previous file", "why_tests_cant": "Which columns exist depends on which attributes each crater happens to have and on the order of the craters; the number of combinations is unbounded, and a loss is only visible by comparing the row with the crater.", "anchors": ["cratermaker/components/counting/__init__.py:Counting.to_csv_file", "cratermaker/components/counting/__init__.py:Counting._validate_export_args", "cratermaker/components/crater/__init__.py:Crater.as_dict", "cratermaker/components/crater/__init__.py:_convert_tuple_vars"]}
{"id": "C91", "title": "A crater list written for crater statistics can be read back", "statement": "to_scc_file writes one line for each crater, in order, with its measured diameter, its measured location and the fraction of its area inside the region; from_scc_file reads the list back as craters with the same measured size, shape and location.", "quantifier": "all lists of craters with measured axes and location, all regions, intervals, distance and overlap functions and scaling laws that give non-negative sizes", "why_tests_cant": "The round trip goes through the crater constructor with arbitrary scaling laws and arbitrary measured shapes and places; examples with circular craters inside the region do not show the difference.", "anchors": ["cratermaker/components/counting/__init__.py:Counting.to_scc_file", "cratermaker/components/crater/__init__.py:Crater.from_scc_file", "cratermaker/components/crater/__init__.py:Crater.maker"]}
{"id": "C92", "title": "An export writes one file for each saved interval", "statement": "Counting.export writes, for each requested kind of crater and each saved interval, exactly one file with the number of that interval and the craters saved in it, however the saved files are opened and whichever craters each interval has; nothing is written for a kind of which nothing was saved, or only under the interval asked for.", "quantifier": "all saved histories (any number of intervals, any craters in each), both ways of opening several files, both drivers, all kinds and requested intervals", "why_tests_cant": "Craters appear and disappear over arbitrarily many intervals; whether the joined dataset can be converted depends on the whole history.", "anchors": ["cratermaker/components/counting/__init__.py:Counting.export", "cratermaker/core/base.py:ComponentBase.read_saved_output", "cratermaker/core/base.py:ComponentBase._output_file_processor", "cratermaker/components/crater/__init__.py:Crater.from_xarray"]}
{"id": "C93", "title": "Populating a surface draws the same period and density on every face", "statement": "Simulation.populate draws craters for exactly the period asked for. On every part of the surface the number of impacts is drawn for the same production density times the area of that part, starting at the size of its smallest face (or the user's smallest size when that is larger); within a part a face is picked in proportion to its area. Every impact gives one crater, placed on a face of its part and dated within the period, and all of them, oldest first, are emplaced by one call; craters passed with the craters argument are emplaced along with them; projectiles able to make a crater larger than a face are drawn.", "quantifier": "for every mesh with positive face areas, every production function, generator type, size range, set of period arguments and every outcome of the random draws", "why_tests_cant": "the shares and the period must agree in every bin of every mesh and for every random draw; a test sees one seed on one mesh and cannot tell a biased share from chance", "anchors": ["cratermaker/core/simulation.py: Simulation.populate, Simulation._get_diameter_limit", "cratermaker/components/production/__init__.py: Production.sample, Production._validate_sample_args", "cratermaker/components/surface/__init__.py: Surface._compute_face_bins, face_bin_area, face_bin_min_sizes"]}
{"id": "C94", "title": "Emplacing craters over a session returns and lists what was put on the surface", "statement": "Emplacing None, a crater, a list or a tuple of craters returns the craters that were emplaced, in the order given, and lists each of them once among the emplaced craters; each crater's ejecta blanket carries the volume that crater removed, whatever calls were made before and whichever of them failed; options such as measure_rim apply to the counting that decides which craters remain; a failed call does not affect later ones.", "quantifier": "every session of emplace, form_crater and form_ejecta calls, every kind of argument and every failure point", "why_tests_cant": "It is about the state left on the morphology object between calls and after exceptions, for every history.", "anchors": ["cratermaker/components/morphology/basicmoon.py: BasicMoonMorphology.emplace, form_crater, form_ejecta", "cratermaker/components/morphology/__init__.py: emplace, form_crater, form_ejecta, _process_queue", "cratermaker/core/simulation.py: Simulation.emplace"]}
{"id": "C95", "title": "Operations on a region of a high resolution local surface stay inside the local region", "statement": "Diffusion, slope collapse, noise and tags applied to a region of a high resolution local surface change exactly the faces that belong both to the region and to the local region, with the values given for those faces; elsewhere nothing changes; a region inside the local region behaves as on any surface, and arguments are checked in the same way; operations of the surface follow the same rule.", "quantifier": "every mesh, local region, region, field and value", "why_tests_cant": "All relative positions of the two regions, including those that touch in their borders only.", "anchors": ["cratermaker/components/surface/hireslocal.py: LocalHiResLocalSurface.apply_diffusion, slope_collapse, apply_noise, add_tag, local_overlap, face_mask", "cratermaker/components/surface/__init__.py: LocalSurface.apply_diffusion, slope_collapse, apply_noise, Surface._full"]}
{"id": "C96", "title": "A crater's place on the mesh does not depend on when it is asked for", "statement": "The face under a crater, the extent of its ejecta, its crater and ejecta regions, whether it is emplaceable, the faces and nodes it affects and the part of the surface it is formed on are functions of the crater and of the surface alone: reading them in any order and any number of times, dropping the large data in between, queueing or forming the crater never changes an answer; the affected faces and nodes cover the crater region, so craters batched together share none of it; and craters smaller than the face they lie on, or not resolved by the surface, are skipped.", "quantifier": "every crater, every surface mesh, every extent of the ejecta, every sequence of reads, drops, queue inspections, formations and replacements of the surface", "why_tests_cant": "the answers are cached at first use, so errors only show for particular orders of calls; there are infinitely many orders, and the covering of the regions depends on every mesh and radius", "anchors": ["cratermaker/components/morphology/__init__.py: MorphologyCrater.face_index, ejecta_rmax, ejecta_region, crater_region, affected_face_indices, affected_node_indices, emplaceable, remove_complex_data, Morphology.form_crater", "cratermaker/components/morphology/basicmoon.py: overlap_function"]}
{"id": "C97", "title": "The outline of a crater is its ellipse on the sphere, fit for a longitude-latitude map", "statement": "Crater.to_geoseries draws, with the number of vertices asked for, the closed curve of the points whose distance from the centre, along the great circle at each bearing, is the polar radius of the ellipse with the crater's semi-axes (measured or original, as asked) turned by its orientation, at the height of the highest face of the crater. With the antimeridian split, every part has longitudes between -180 and 180, no part jumps across the map, no vertex changes place and every part keeps the height.", "quantifier": "every crater (any place, semi-axes and orientation), number of vertices, choice of measured or original sizes, and every solver of the direct geodesic problem and polygon cutter", "why_tests_cant": "The unwrapping depends on the signs and the spread of all vertex longitudes, which depends on the place, size and orientation of the crater: a test sees a few craters, not every crater near the antimeridian or a pole.", "anchors": ["cratermaker/components/crater/__init__.py:Crater.to_geoseries"]}
{"id": "C98", "title": "Exporting a surface writes the saved intervals and changes nothing that is saved", "statement": "Surface.export writes, with a known driver, one file for each saved interval (or for the interval asked for, also counted from the end) showing the variables saved in it: one column for each face variable and layer, a mesh, or a raster of the variable asked for. No other exported file, no saved interval and nothing of the surface changes; an existing file is replaced only if the user agrees; a driver that is not known is reported. Simulation.export does the same for the current interval or an earlier one.", "quantifier": "every saved history, data set, driver, variable name, interval (none, number, counted from the end), set of existing files and answers of the user", "why_tests_cant": "Which files survive depends on the saved history, the interval asked for, the variables of the surface and the user's answers together; the project's test counts file names only and so does not see what is in them.", "anchors": ["cratermaker/components/surface/__init__.py:LocalSurface.export", "cratermaker/components/surface/__init__.py:LocalSurface.to_vector_file", "cratermaker/components/surface/__init__.py:LocalSurface.to_vtk_file", "cratermaker/components/surface/__init__.py:LocalSurface.to_geotiff_file", "cratermaker/core/simulation.py:Simulation.export"]}
{"id": "C99", "title": "The raster of a face variable shows the faces where they are", "statement": "The raster made of a face variable covers its extent with pixels laid side by side, every point of the extent being in exactly one. For a whole surface it has at least as many pixels as the surface has faces and they are no larger at the equator than the mean face, whatever the radius; for a local region they are square and have the pixel size of the region. A pixel shows the value of a face that touches it and has a finite value, and is empty only where there is none.", "quantifier": "every number of faces, radius, region radius, pixel size, set of face polygons and values", "why_tests_cant": "Which face a pixel shows depends on all the faces touching it and their order.", "anchors": ["cratermaker/components/surface/__init__.py:LocalSurface.to_raster", "cratermaker/components/surface/__init__.py:LocalSurface.get_raster_dims"]}
{"id": "C100", "title": "A crater is put where it was asked to be", "statement": "A crater can be given its place as a location, a longitude and a latitude, the location of its projectile, or a distance and a bearing from a reference point. The crater that is made is at that place; relative to a reference point it is at the given distance on the great circle that leaves with the given bearing. Giving the place in two ways is an error unless the check is switched off; without a place, a crater made from another stays where that one is. Its measured location is the same place.", "quantifier": "every combination of the ways of giving a place, every surface radius, reference point, distance and bearing, existing crater or none, check on or off", "why_tests_cant": "The place is decided by many optional arguments together, and the geometry must hold for every point, distance and bearing on the sphere.", "anchors": ["cratermaker/components/morphology/__init__.py:MorphologyCrater.maker", "cratermaker/components/crater/__init__.py:Crater.maker", "cratermaker/components/surface/__init__.py:LocalSurface.compute_location_from_distance_bearing", "cratermaker/components/surface/hireslocal.py:HiResLocalSurface.compute_location_from_distance_bearing"]}
{"id": "C101", "title": "The slope a surface reports is the steepness of its topography", "statement": "compute_slope returns for every face the angle of the topography there; flat ground has slope zero, raising the whole surface changes nothing, and a uniform incline of a given angle is reported with that angle, so that slope_collapse at an angle leaves no ground steeper than it. compute_radial_gradient returns for each face how fast a field rises in the direction away from the region's centre, for a field of the faces only.", "quantifier": "all meshes, all fields on their faces, all faces, all regions and centres", "why_tests_cant": "tests look at a few crater profiles on one grid; the claim is about every mesh and every field", "anchors": ["cratermaker/components/surface/__init__.py: LocalSurface.compute_slope, compute_radial_gradient, slope_collapse", "crates/cratermaker-components/src/surface/mod.rs: compute_one_face_gradient, compute_face_slope_squared, compute_slope, compute_radial_gradient", "crates/cratermaker-py/src/surface_bindings.rs: compute_slope, compute_radial_gradient"]}
{"id": "C102", "title": "The shape given to a lunar crater is the shape it has and keeps", "statement": "Making a crater with the lunar morphology, any of rim_height, rim_width, floor_depth, floor_diameter, peak_height and ejrim given as a keyword is that attribute of the crater, and any not given is the published value for the crater's type and diameter; a copy of the crater has the same shape; every keyword that names an attribute of a crater is accepted.", "quantifier": "every set of keywords, every crater copied, every morphology type and diameter", "why_tests_cant": "The keywords pass through three makers and two constructors, each of which may drop, override or duplicate them; a test tries a few keyword sets, not every combination and not every previous crater.", "anchors": ["cratermaker/components/morphology/basicmoon.py:BasicMoonCrater.maker", "cratermaker/components/morphology/__init__.py:MorphologyCrater.maker", "cratermaker/components/crater/__init__.py:Crater.__init__", "cratermaker/components/crater/__init__.py:Crater._scrub_measured_input_size", "cratermaker/components/crater/__init__.py:Crater.maker"]}
{"id": "C103", "title": "Three-dimensional models of the surface and of its craters stand where they are", "statement": "In the exported three-dimensional mesh every vertex is straight above or below its node, at the node's elevation, as elevation_to_cartesian gives it; every face of the surface, or of the region exported, is a polygon with its own corners; every variable is attached to the faces, the nodes or the whole; an interval asked for is the one shown. Craters drawn as rings have one closed line each, whose points are those of the outline, on the ground; drawn as points they stand above the ground at the crater by the radius of what is drawn; the file has what was asked for.", "quantifier": "every mesh, region, elevation, list of craters, style, scale factor and dataset", "why_tests_cant": "Vertex numbering runs over all craters and rings, and regions renumber their nodes; a test compares a few points of a few meshes, and draws at zero elevation.", "anchors": ["cratermaker/components/surface/__init__.py:LocalSurface.elevation_to_cartesian", "cratermaker/components/surface/__init__.py:Surface._compute_elevation_to_cartesian", "cratermaker/components/surface/__init__.py:LocalSurface.to_vtk_mesh", "cratermaker/components/counting/__init__.py:Counting.to_vtk_mesh", "cratermaker/components/counting/__init__.py:Counting.to_vtk_file"]}
{"id": "C104", "title": "Curves that crater counts are compared with", "statement": "Converting an R-plot into the cumulative number of craters larger than a diameter ends for every diameter and gives the integral of the density up to the limit, approximated bin by bin: never negative, never growing with the diameter, linear in the R-plot, and the true number up to a factor that does not depend on the diameter for power laws. Geometric saturation is 1.54 craters per square of the diameter and equilibrium the given fraction of it, for numbers and arrays alike.", "quantifier": "every R-plot function, every limit, every diameter or array of diameters, every fraction", "why_tests_cant": "the statement ranges over all functions and all diameters; the loop's length depends on them, and errors of the binning only appear for particular shapes and near the limit", "anchors": ["cratermaker/components/counting/__init__.py: R_to_CSFD", "cratermaker/components/counting/__init__.py: csfd_geometric_saturation", "cratermaker/components/counting/__init__.py: csfd_equilibrium"]}
{"id": "C105", "title": "A surface made from elevation files has their elevations", "statement": "A datasurface has, on every face and node of its local region, the elevation of the local elevation files, and everywhere else the elevation of the file of the whole body, each applied once, in metres, with missing data replaced by the average of the data. The file given as superdomain_dem_file is the one used. Any number of resets, and making the surface again with the same parameters, give the same elevations; with other parameters the surface is made anew, also in a directory that has been used. A failed attempt can be repeated.", "quantifier": "all meshes, regions, elevation files (values, marks of missing data, units), user arguments, contents of the output directory, and sequences of failed and repeated attempts", "why_tests_cant": "the elevations depend on files that are downloaded, on the partition of an arbitrary mesh into inside and outside, on what an earlier run left in the directory, and on the point at which an attempt failed", "anchors": ["cratermaker/components/surface/datasurface.py: DataSurface.__init__, reset, _regrid_if_needed, _add_local_dem_elevation, _add_global_dem_elevation, _get_local_dem_data, dem_file_list, superdomain_dem_file", "cratermaker/components/surface/hireslocal.py: HiResLocalSurface._load_from_files, set_superdomain", "cratermaker/components/surface/__init__.py: Surface._load_from_files, Surface._save_data, LocalSurface.update_elevation"]}
{"id": "C106", "title": "A region shows the surface's data of its own elements", "statement": "Whatever a region of a surface is asked for (an attribute such as region.face_elevation, its dataset, its own mesh, or a saved interval), it answers with the surface's values for exactly its own faces, nodes or edges, in its own order. Data written through a region are read back from it unchanged, appear in every other region that has the same elements and change nothing elsewhere. A saved interval read through a region is what the region showed when it was saved.", "quantifier": "every mesh, every region of it, every dataset, and every history of writes through any regions and of saves", "why_tests_cant": "A test reads a few variables of one region on one mesh; the claim is about every combination of overlapping regions, variables and histories of writes, and kinds of elements are recognised by their number, so a coincidence on an untested mesh would silently show values of the wrong elements.", "anchors": ["cratermaker/components/surface/__init__.py: LocalSurface.__getattr__", "cratermaker/components/surface/__init__.py: LocalSurface.uxds", "cratermaker/components/surface/__init__.py: LocalSurface.uxgrid", "cratermaker/components/surface/__init__.py: LocalSurface.add_data", "cratermaker/components/surface/__init__.py: LocalSurface.read_saved_output", "cratermaker/components/surface/__init__.py: LocalSurface._remap_connectivity_to_local"]}
{"id": "C107", "title": "A printed quantity is the quantity, in the fitting unit", "statement": "Lengths, areas, volumes, velocities, times and pressures that are printed (by format_large_units, in the text of craters, surfaces, targets and runs) agree with the value to within one part in two thousand in the printed unit. The unit is the largest of which there is at least one, a larger value never prints as less, and the opposite value prints with the opposite sign. A missing value prints as not available; an unknown quantity is refused as a wrong argument.", "quantifier": "every real value and every quantity", "why_tests_cant": "A test prints a few values; the claim is about every value, in particular those at the thresholds between units and numbers of digits, where rounding and the choice of the unit meet.", "anchors": ["cratermaker/utils/general_utils.py: format_large_units"]}
{"id": "C108", "title": "Labels tell the state that is shown, and the viewer shows the interval it is at", "statement": "A plot label contains exactly the parts asked for and available, in the order interval, time, age, N(D), with times rounded to a whole million years; the label of a saved interval is the label the simulation had when that interval was last saved; N(D) is the number of craters larger than D the production function forms in the elapsed periods, on the area its unit tells; the summary of a simulation prints N(1) in the unit it names; in the 3D viewer the arrow keys move one interval at a time, stop at the first and last interval, and the interval, with the chosen label, at that place is shown.", "quantifier": "all combinations of label arguments, all states, all sequences of changes and saves, all production functions and periods, all sequences of arrow keys", "why_tests_cant": "The label of an old interval must be right after any history of later changes and saves, N(D) for any sequence of periods, and the viewer for any sequence of keys; tests can try only a few.", "anchors": ["cratermaker/core/simulation.py: Simulation.labelmaker, Simulation.pyvista_plotter, Simulation.time_variables, Simulation.__str__", "cratermaker/core/base.py: ComponentBase.get_time_variables, read_saved_output", "cratermaker/components/production/__init__.py: D_conversion_factor, N_conversion_factor, N_unit"]}
{"id": "C109", "title": "A crater density N(D) names the same period everywhere", "statement": "Given N_D (and N_D_end) in the units of the conversion factors, running a simulation, sampling the production function and merging quasi-Monte-Carlo craters use the period that starts when a surface has that density and ends when it has the density N_D_end (or now); densities given together with times or numbers for the same end are refused, as are densities that no valid time reaches; given as times the period is the one given.", "quantifier": "all production functions with a root finder that answers correctly, all conversion factors, sizes, numbers, times and areas", "why_tests_cant": "The meaning of a density must agree between three entry points for every production function, unit system and density; a test fixes one of each.", "anchors": ["cratermaker/components/production/__init__.py: Production._validate_sample_args, sample, quasimc_merge", "cratermaker/core/simulation.py: Simulation._validate_run_args, run, quasimc_merge"]}
{"id": "C110", "title": "The production function is the one of the body, or the one asked for", "statement": "When nothing else is asked for, the production function is the one documented for the target body (Neukum's lunar, Martian or projectile version for the terrestrial bodies, a power law for the others); a model, version, coefficient or slope named by the caller is used, or an error is raised; and a resumed simulation goes on with the production function it was saved with.", "quantifier": "every body, spelling of the model and of the version, combination of keywords, production object, and every history of version assignments and resumptions", "why_tests_cant": "tests fix a model and a body; the choice depends on the spelling of several texts, on the order of registration, on which parameters are recorded at construction, and on histories of saves and resumptions of any length", "anchors": ["cratermaker/components/production/__init__.py:Production.maker", "cratermaker/components/production/neukum.py:NeukumProduction.__init__", "cratermaker/components/production/powerlaw.py:PowerLawProduction.__init__", "cratermaker/core/base.py:ComponentBase.maker", "cratermaker/core/simulation.py:Simulation.__init__", "cratermaker/core/simulation.py:Simulation.to_config", "cratermaker/components/morphology/__init__.py:Morphology.production"]}
{"id": "C111", "title": "A resumed Simulation has the options of its components", "statement": "When a Simulation is saved and resumed without component arguments, its components have the options they had: the value last assigned, or else the value given when the Simulation was made (refuted for ejecta_truncation, dorays, monte_carlo_scaling and sample, which return to their defaults at the first resumption if they were given and at the second if they were assigned; for do_counting; for the density of the target; and for generic projectiles, with which a Simulation cannot be resumed at all, even one made for Phobos with no other argument).", "quantifier": "every option and its type of value, every default and argument, every sequence of assignments and resumptions; every population, target, set of projectile arguments and draws; every target and set of scaling arguments", "why_tests_cant": "Needs every history of assignments and resumptions and every value; a test resumes a Simulation once with a few options", "anchors": ["cratermaker/core/base.py:CratermakerBase.__init__", "cratermaker/core/base.py:_to_config", "cratermaker/core/simulation.py:Simulation.__init__", "cratermaker/components/morphology/basicmoon.py:BasicMoonMorphology.__init__", "cratermaker/components/scaling/montecarlo.py:MonteCarloScaling.__init__", "cratermaker/components/projectile/__init__.py:Projectile.__init__", "cratermaker/utils/general_utils.py:Parameter"]}
{"id": "C112", "title": "Craters and surfaces can be used like other Python objects", "statement": "Reading an attribute of a crater gives what the class defines, else its fixed field, else its variable field, else AttributeError; fixed fields cannot be assigned, variable fields can, and an assignment is either stored or refused. A crater or a surface can be listed with dir, copied with the copy module and unpickled. as_dict gives every entry that is not ignored and leaves the caller's arguments alone. An attribute of a surface gives the variable of that name, also for variables the user added.", "quantifier": "every crater and surface, attribute name, value, dictionary of fields, list or tuple of ignored names and sequence of calls", "why_tests_cant": "attribute lookup must be right for every name and every state of the object, also one whose constructor has not run, and as_dict for every history of calls with the same list", "anchors": ["cratermaker/components/crater/__init__.py: Crater.__getattr__, Crater.__setattr__, Crater.__dir__, Crater.as_dict", "cratermaker/components/morphology/__init__.py: MorphologyCrater.as_dict", "cratermaker/components/surface/__init__.py: Surface.__getattr__, Surface.uxds"]}
{"id": "C113", "title": "A plot shows the interval it is asked for, and its file tells which", "statement": "Plotting without an interval saves the current state and shows it; plotting an interval shows the surface and the craters as they were when that interval was saved, and fails if it was not saved. The map style colours a variable, the hillshade style shows relief; anything else is refused. The image file has the name asked for, or one that tells the style, the variable and the interval. Craters are outlined in the colours and the line style asked for. The scale bar is as long as it says and lies in the image, and the least width and the closing of the figure follow the arguments.", "quantifier": "every history of changes and saves, interval number (also negative), style, variable, list of craters, colour, line width, region size and set of arguments", "why_tests_cant": "what a plot shows depends on the whole history of changes and saves before it and on which kinds of files each interval has", "anchors": ["cratermaker/components/surface/__init__.py: LocalSurface.plot, Surface.plot", "cratermaker/components/surface/hireslocal.py: HiResLocalSurface.plot", "cratermaker/components/counting/__init__.py: Counting.plot, Counting.save", "cratermaker/core/simulation.py: Simulation.plot", "cratermaker/core/base.py: get_saved_interval_numbers, read_saved_output"]}
{"id": "C114", "title": "The saved emplaced craters of an interval are those emplaced in it", "statement": "Each interval of a run has a file of emplaced craters that lists exactly the craters emplaced in that interval, and a file of observed craters that lists those observed at its end. Every crater that is emplaced is in the file of one interval. Saving empties the list of emplaced craters. A resumed simulation has the emplaced craters of the last saved interval, in the order of emplacement; none is listed that was not emplaced since the last reset.", "quantifier": "every session of emplacing, running, saving, resuming and resetting, with any number of intervals and craters", "why_tests_cant": "It is about what earlier calls leave in the list and on disk, for every history; a test sees one session.", "anchors": ["cratermaker/components/counting/__init__.py: Counting.__init__, reset, save, to_xarray, emplaced", "cratermaker/core/simulation.py: Simulation.run, emplace, save, reset", "cratermaker/components/crater/__init__.py: Crater.from_xarray", "cratermaker/core/base.py: read_saved_output"]}
{"id": "C115", "title": "The parts of a simulation belong together", "statement": "All components of a Simulation refer to the same target, projectile, scaling, surface, counting, morphology and production objects, whether they are named, given as objects or assigned later; making a simulation does not change the components of another one. Craters are formed on the surface that is saved, listed and counted in the counting object that is saved, and sized for the target of the simulation. A morphology is for the body of its surface, and counts craters exactly when it is told to or has been given a counting object.", "quantifier": "every combination of named and given components, every set of objects made before, every assignment", "why_tests_cant": "It is about object identity over every combination of seven arguments and every earlier history of objects; a test fixes one.", "anchors": ["cratermaker/core/simulation.py: Simulation.__init__, component setters", "cratermaker/components/morphology/__init__.py: Morphology.__init__, counting, surface, form_crater", "cratermaker/components/scaling/__init__.py: Scaling.maker, target, projectile", "cratermaker/components/counting/__init__.py: Counting.maker, morphology", "cratermaker/core/base.py: ComponentBase.maker"]}
{"id": "C116", "title": "The options of a tally reach every crater it measures", "statement": "A tally measures every observed crater that is on the surface exactly once, each with the options that the user gave. A crater stays exactly when its measured degradation is below its visibility; craters that are not on the surface are left as they are. If a measurement raises, nothing is removed. A crater listed as emplaced and as observed shows the same measurements in both lists. (False of the code for fit_center and fit_ellipse, which reach only the crater with the smallest id, and for the lists after a morphology has been assigned.)", "quantifier": "all keyword arguments, all sets of ids on the surface, all states of the two crater lists, and all measurements (which may raise)", "why_tests_cant": "the options are lost only from the second crater on and depend on which ids are left on the surface; tests use one crater", "anchors": ["cratermaker/components/counting/__init__.py: Counting.tally, Counting.remove, Counting.fit_rim, Counting.morphology"]}
{"id": "C117", "title": "Craters read from a table are those written in it", "statement": "Crater.from_file of a csv table makes one crater per line, in order, with the arguments that the cells of the line stand for: the two coordinates are the location, columns of numbers are numbers, names are texts. Blank cells, cells left out at the end of a line and columns left out mean the same, and the order of the columns does not matter. A line that cannot be read, or that does not fit the header, is refused, and then no crater is returned. (False of the code for a line with only one coordinate, for names that look like numbers, for lines longer than the header that have a blank further field, and for a column named location.)", "quantifier": "all headers, all lines of any number and length, all meanings of texts as numbers, all makers of craters (which may raise)", "why_tests_cant": "It is about every combination of columns, blank cells and line lengths of files that users write by hand; a test reads one file.", "anchors": ["cratermaker/components/crater/__init__.py: Crater.from_file, from_csv_file, _convert_tuple_vars"]}
{"id": "C118", "title": "Values in the configuration file are read back as they were", "statement": "A parameter that is kept in cratermaker.yaml is written as the number, text, list or dictionary that it is, whatever library it comes from, and read back as that value; what was read is written back as it was. After every assignment of a parameter the file shows the present value of all parameters. Values that cannot be written are left out. (False of the code for numpy truth values, which become texts, for numpy texts, which raise and leave the file cut off, and for assignments of None, which are not written.)", "quantifier": "all values, nested to any depth, all sequences of assignments, whatever the setters keep of them", "why_tests_cant": "Values are nested without bound and come from several libraries, and the file depends on the whole history of assignments; a test writes one value.", "anchors": ["cratermaker/core/base.py: _convert_for_yaml, _to_config, CratermakerBase.save_actions, ask_overwrite", "cratermaker/core/simulation.py: Simulation.__setattr__, to_config"]}
{"id": "C119", "title": "All files of a simulation are in the directory it was given", "statement": "A simulation keeps its files in the directory that the user names, or in the working directory if none is named, for as long as it exists; each component writes in a directory of its own there, and the directory exists as soon as the simulation does. A resumed simulation stays in the directory it is given, whatever its file says. A value that is not a path is refused. (False of the code when the working directory changes, for Path objects, which are not made, and for values of other types, which are ignored.)", "quantifier": "all paths, relative or absolute, with any steps up, all working directories then and later, all stored configurations", "why_tests_cant": "It is about every combination of path and working directory, at every later moment; a test runs in one directory.", "anchors": ["cratermaker/core/base.py: _simdir_init, CratermakerBase.simdir, output_dir, export_dir, plot_dir, common_args", "cratermaker/core/simulation.py: Simulation.__init__"]}
{"id": "C120", "title": "cleanup removes what a simulation wrote and nothing else", "statement": "cleanup(simdir) removes the configuration file, the saved data, the plots and the exported files of the simulation in that directory, and leaves every other file, in that directory or elsewhere, as it is. (False of the code for exported files, which stay, and for files of the user in directories named target, scaling, production, morphology or projectile, which are removed.)", "quantifier": "all file systems, all directories and working directories", "why_tests_cant": "It is about every file that may be there, in and out of the directory; a test looks at a few.", "anchors": ["cratermaker/utils/general_utils.py: cleanup", "cratermaker/constants.py: _COMPONENT_NAMES, _CONFIG_FILE_NAME"]}
{"id": "C121", "title": "Distances, bearings and locations of several places are those of each place", "statement": "Asked for the distances or bearings of one or several places, however they are written (a pair, a list or tuple of pairs, an array with two columns, a dict, a structured array), a surface answers with one number per place, in order: the great-circle distance from the reference point, and the bearing clockwise from north in [0, 360). Asked for the locations at some distances and bearings it answers with one location for each, whose distances, asked for again, are those given. Without a reference point a local region uses its centre and a whole surface raises ValueError.", "quantifier": "every surface radius, reference point, number of places including none and two, and way of writing them", "why_tests_cant": "Tests use one or three places; the answer depends on how many there are and on the Python type that holds them.", "anchors": ["cratermaker/components/surface/__init__.py: LocalSurface.compute_distances, compute_bearings, compute_location_from_distance_bearing", "cratermaker/utils/general_utils.py: validate_and_normalize_location", "crates/cratermaker-components/src/surface/mod.rs: compute_distances, compute_bearings"]}
{"id": "C122", "title": "The sizes a surface reports are those of its mesh on its target", "statement": "The areas and sizes of the faces of a surface, their mean, standard deviation, least and greatest, its whole area, its smallest length, its Cartesian coordinates, the lengths of its edges and the distances between the faces on either side of an edge are those of its mesh scaled to the radius of its target, whatever was asked of the surface before. Asking changes no later answer. Regions report the values of their edges. The same holds after another target is assigned or another mesh is generated.", "quantifier": "every mesh, every radius, every history of questions, every question, every later assignment of a target or generation of a mesh", "why_tests_cant": "the values are computed on demand and kept, so an answer may depend on which questions were asked before and on what changed in between; tests ask in one order", "anchors": ["cratermaker/components/surface/__init__.py: Surface._compute_face_size, face_area, face_size, pix_mean, pix_std, pix_min, pix_max, area, smallest_length, face_x, node_x, edge_face_distance, edge_length, target, _generate_grid, LocalSurface.edge_length", "crates/cratermaker-components/src/surface/mod.rs: compute_edge_distances"]}
{"id": "C123", "title": "A crater can be evaluated at distances given in any form", "statement": "The profile of a crater, the thickness of its ejecta, the intensity of its rays and the distribution of its ejecta can be evaluated at distances given as a number, a list or an array of any shape and kind of number. The result has the shape of the distances and its values belong to the distances in order: the profile is taken over the reference elevations in order, or over zero; the thickness is zero inside the rim and falls with the cube of the distance outside; the distribution is the thickness times the intensity at each distance and bearing.", "quantifier": "every crater, every form, shape and kind of distances, reference elevations and bearings, every ray pattern", "why_tests_cant": "the forms, shapes and kinds of numbers that can be combined are unlimited, and tests pass one-dimensional arrays of floats", "anchors": ["cratermaker/components/morphology/basicmoon.py: BasicMoonMorphology.crater_profile, ejecta_profile, ejecta_distribution, ray_intensity", "crates/cratermaker-py/src/morphology_bindings.rs: crater_profile, ejecta_profile, ray_intensity"]}
{"id": "C124", "title": "The nearest face or node is found", "statement": "The face or node a surface finds for a location is one of its mesh, and none of the mesh is nearer to the location on the sphere, whatever was looked for before and in whatever form the location is given; for the place of a face or node itself it is that face or node. The same holds for several locations at once and after another mesh is generated.", "quantifier": "every mesh, every location in every form, every history of searches and extracted regions, every later mesh, every search tree that finds a nearest place", "why_tests_cant": "the search tree is built once and kept, so the answer depends on what was asked before the mesh changed, and meshes and locations are unlimited", "anchors": ["cratermaker/components/surface/__init__.py: Surface.find_nearest_face, find_nearest_node, face_tree, node_tree, extract_region, _load_from_files"]}
{"id": "C125", "title": "Coordinate reference systems describe the body and the place", "statement": "The description of the coordinate reference system that a surface or a region about a place gives, and that exported rasters and vector files carry, is one well-formed expression which states the ellipsoid of the body, with its name and radius, the place a region is centred on, and the axes. A surface gives the same description however often it is asked, and after another target is assigned it gives the description of that target.", "quantifier": "every name of a body without quotes, every radius, every place, every history of questions and assignments of targets", "why_tests_cant": "the description is assembled from texts for every name, radius and place, and the parser that reads it silently ignores what follows the first closed expression; what is kept depends on the history", "anchors": ["cratermaker/components/surface/__init__.py:Surface.get_crs", "cratermaker/components/surface/__init__.py:Surface.crs", "cratermaker/components/surface/__init__.py:LocalSurface.crs"]}
{"id": "C126", "title": "Outlines of several craters and the polygon of a region", "statement": "The series of outlines of craters, those given or else the observed ones, holds exactly one outline for each crater in their order, is empty when there are none, and fails with the error of the first crater that has no outline. Exporting the polygon of a region about a place writes one file with the extension of the chosen format that holds the area and the outline of the region; for a whole surface nothing is written, and a format that is not in the table is a ValueError.", "quantifier": "every list of craters given or observed, every way their outlines come out, every region, every format name", "why_tests_cant": "the claim ranges over all lists of craters including the empty one, all positions of a failing crater and all format names in any letter case", "anchors": ["cratermaker/components/counting/__init__.py:Counting.to_geoseries", "cratermaker/components/surface/__init__.py:LocalSurface.export_region_polygon", "cratermaker/constants.py:VECTOR_DRIVER_TO_EXTENSION_MAP"]}
{"id": "C127", "title": "Quasi-Monte Carlo craters given to a simulation are used", "statement": "Whenever a simulation is populated, the quasi-Monte Carlo craters given to it last whose times lie in the period are merged, whether they were given before or after earlier populations. Switching their use on or off holds until it is switched again, and None gives the decision back to the simulation. An assignment that fails changes nothing.", "quantifier": "every list of craters, every history of populations, questions, assignments of craters and of the switch, every period", "why_tests_cant": "whether the craters are used is decided at the first question and remembered, so the outcome depends on the whole history", "anchors": ["cratermaker/core/simulation.py:Simulation.do_quasimc", "cratermaker/core/simulation.py:Simulation.populate", "cratermaker/core/simulation.py:Simulation.quasimc_craters", "cratermaker/components/production/__init__.py:Production.quasimc_craters"]}
{"id": "C128", "title": "Densities are read in the units chosen", "statement": "The units of N(D) that a production function reports always agree with its conversion factors, which accept the documented values alone. Quasi-Monte Carlo craters that are dated by a density get the time of that density read in the units chosen, both for the area and for the diameter, whether the craters are given at construction or assigned later.", "quantifier": "every production function and chronology, every list of craters with densities, every choice of units at construction, every history of accepted and refused assignments", "why_tests_cant": "the times depend on when the craters were given relative to the units, for any production function and any history of assignments", "anchors": ["cratermaker/components/production/__init__.py:Production.__init__", "cratermaker/components/production/__init__.py:Production.N_conversion_factor", "cratermaker/components/production/__init__.py:Production.D_conversion_factor", "cratermaker/components/production/__init__.py:Production._process_quasimc_craters"]}
