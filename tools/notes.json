{
"C01": {
"note": "Latitude range holds always; the documented longitude range, same-point and idempotence hold for legal latitudes and are refuted beyond the poles."
},
"C02": {
"note": "Generator used as is, seed alone and state alone reproducible, components share one generator. Refuted: seed plus state always raises although the state is documented to win; assigning rng_state never changes the generator."
},
"C03": {
"note": "Dispatch by name, class, instance and default over registries built by any sequence of registrations, and isolation of names and families."
},
"C04": {
"note": "Precedence proved for every well-behaved object; when a keyword is rejected the shared catalogue keeps a stray entry (refuted)."
},
"C05": {
"note": "Exact content of the saved configuration proved. Refuted: values from the catalogue are saved as if set by the user; mass and transition_scale_type are not saved, so a custom body cannot be rebuilt. Rebuilding is proved otherwise. Only the target's configuration is modelled."
},
"C06": {
"note": "Saved interval numbers exact for all intervals; reading exact when all intervals have the same width (in particular below a million). Refuted from a million on: files are sorted by name, intervals by number."
},
"C07": {
"note": "Success removes exactly the listed files, failure removes exactly those before the file at which it stopped. Refuted: files accepted before a refusal are already deleted; a failed export leaves the overridden preference."
},
"C08": {
"note": "Atomic set and add over any history of objects that share no list, and ordered execution. Refuted: the caller's list is stored itself and may be shared; on components without a name the error is an AttributeError."
},
"C09": {
"note": "Runs of new simulations (and continuations) tile the requested period in every mode (time steps, number steps, one step; ages, times, N(D) or numbers). A resumed run with time_interval starts on the request's step grid, possibly before the current time: exact characterisation as partial, double coverage refuted with a witness. Idealised: floats as reals, the age solver returns exact roots."
},
"C10": {
"note": "Time, interval and crater-number bookkeeping proved in every mode; elapsed time and idempotent re-runs hold unless a time_interval does not divide the period (refuted with 100/30)."
},
"C100": {
"note": "Real arithmetic. The projectile is a parameter that keeps and normalises a location it is given (Proj_model, C84). Single distances and bearings only. Refuted: a crater moved by making it from an existing one keeps its old measured location and an unnormalised location; from a pole every bearing leads to the same place."
},
"C101": {
"note": "Proved: the slope is the edge-length-weighted mean rise, never above the steepest rise, unchanged by raising and scaling with the field, local; on a plane never over-stated; the radial gradient is the weighted mean of projected rises, bounded, and refused without bearings. Refuted: on evenly placed neighbours every plane is reported with half its slope, so a 48 degree incline survives a collapse at 35 degrees; compute_slope always raises TypeError (keyword the binding does not take); a variable of another length given by name is accepted; beyond a pole the radial gradient has the wrong sign."
},
"C102": {
"note": "Shape of a new crater proved exactly (given value, else the published law, written independently in Lunar_spec). Copies are refuted: a copy never takes its shape from the original. An explicit None, morphology_type, scaling and measured_diameter=None are refuted as keywords. The sizes Crater.maker works out are a parameter (Crater_model has them) about which only the names of its results are assumed (plain_core)."
},
"C103": {
"note": "Vertices, polygons of a region (through the renumbering), rings and points proved. Refuted: rings lie on the reference sphere whatever the ground; variables on edges are dropped; interval with a dataset is a position; points ignore the measured location; the crater file ignores its options; a crater without a morphology stops the drawing."
},
"C104": {
"note": "Refuted parts: the number can grow with the diameter for steep R-plots, craters beyond the limit are counted, a negative diameter never ends, arrays of integers and lists are refused by the saturation curves. Proved: termination and uniqueness, the sum itself, linearity, sign, bounds for falling densities, one-sided error for convex ones, exact factor for power laws, arrays."
},
"C105": {
"note": "Composition, determinacy, reset and reuse are proved for all meshes, regions, files and directories. Refuted: superdomain_dem_file is ignored when the surface is built on construction (it is honoured only when the superdomain is set later); rebuilding with another size in a used directory raises ValueError; after a failed attempt every other one raises UnboundLocalError and prompts stay off; missing data in kilometre files become elevations (-9999 km outside, minus infinity inside); units other than exactly KILOMETER are read differently inside and outside; a single path or text is not accepted; the default file ends at 60 degrees latitude. The partial theorems cover the remaining cases."
},
"C106": {
"note": "Attributes, read-back, other regions, histories and saved intervals are proved in full; kinds of elements cannot be confused on the library's meshes. Refuted parts: the dataset of a region keeps all edges of the surface in edge variables, writing into what a region returns is silently lost (while on the whole surface it is kept), and the border faces of a region's own mesh lack edges."
},
"C107": {
"note": "Accuracy, unit, monotonicity, digits and sign are proved in full. Refuted parts: the unit is chosen before rounding (1000.0 m just below a kilometre), and an unknown quantity ends in UnboundLocalError."
},
"C108": {
"note": "Proved: the parts of a label, their order and rounding; labels of saved and of unsaved intervals after any session; N(D) for whole and fractional D in units of D_conversion_factor; the walk of the viewer. Refuted: labels of intervals counted from the end are empty; fractional D are printed rounded, so different numbers carry the same heading; N_diam_val is in metres when D_conversion_factor is 1 though documented in km; the summary always says per 10^6 km^2; the left arrow at the first interval shows the last one, the right arrow from -1 the first one; the chosen label is lost with the first key. The shown interval is characterised exactly (C108_shown_partial)."
},
"C109": {
"note": "Proved for run; for sample and quasimc_merge the density used is characterised exactly (the number times N_conversion_factor, so right only for factor 1 or number 0). Refuted: sample and quasimc_merge take another period than run, with the default units and power law every N_D is a ValueError; age and time_start together are accepted by sample. Conflicts, unreachable densities, periods given as times and the membership of craters are proved."
},
"C11": {
"note": "Acceptance of time arguments characterised exactly (iff) and rejection shown to be without effect. Refuted: zero-length period fails after setting the time; N_D with time_end is silently ignored."
},
"C110": {
"note": "False as stated: without a name every body gets the lunar law (production/__init__.py:157 skips the choice when production is None, so the first registered model is made with version None); versions are replaced unless spelled 'projectile' (160-177); a version without a name is a TypeError; the version, coefficient and slope are not saved, so that a resumed simulation may go on with another law. Exact descriptions and the positive cases are proved."
},
"C111": {
"note": "proved for the options stored after the base class (do_subpixel_degradation, do_slope_collapse, gridlevel, pix, local_radius, local_location) by induction over histories, for the parameters of the scaling and for asteroids and comets; refuted for the options stored before or past the setter, do_counting, generic projectiles and the density of the target"
},
"C112": {
"note": "Reads, assignments of known fields, as_dict and reads of surface variables are proved for every object and name; own names do not collide. Refuted: assigning an unknown name silently does nothing, copy and pickle recurse for ever on craters and surfaces, dir(crater) raises AttributeError, as_dict grows the caller's list and a later call loses the regions, an added variable with a name of the class is unreachable, and a surface without data raises TypeError for unknown names."
},
"C113": {
"note": "The current state, earlier intervals, interval -1, unsaved intervals, the two styles, the layers of outlines and the scale bar are proved for every history and argument. Refuted: the last interval is shown as it is in memory; plots with craters fail for every earlier interval with emplaced craters and show the craters of now for the last interval that had any; the crater plot's file does not tell the style; filename and (on global surfaces) close_when_done are ignored; minimum_plot_width=None and tiny local regions fail; an unknown style raises UnboundLocalError; a line width reaches only the first layer. Rasters and colours are not modelled."
},
"C114": {
"note": "Files and list contents of a run, one-interval accumulation and soundness proved for every session. Refuted: saving does not empty the list, craters emplaced before a run of a new simulation are in no file, the emplaced craters are not restored when nothing is observed in the last interval, their order is lost, and a crater emplaced twice is skipped when the file is read. Restoring is proved for runs whose last interval has emplaced and observed craters (partial)."
},
"C115": {
"note": "Proved for simulations whose components are named or left out; for given objects an exact condition is proved. Refuted: a surface, projectile, counting or morphology that was made for something else is accepted unchanged; a given scaling keeps the transition diameters of its old target and is taken from the simulation it came from; a production function keeps making craters of the first simulation it was used in; assigning any component leaves the other parts with the old one; assigning a counting object switches counting on, assigning None makes forming craters fail; a morphology made alone is scaled for the Moon and counts although no counting object is given."
},
"C116": {
"note": "C116_calls_partial gives the exact calls of a tally, C116_alike the case where all craters are treated alike, C116_results what is left, C116_raised the state after an exception. C116_options_refuted: fit_center and fit_ellipse are taken out of the arguments in the loop, so only the first crater gets them. C116_shared_refuted: assigning a morphology (as a resumed simulation does) makes two objects of a crater that is in both lists. The measurements themselves are parameters here; Measure_model has them."
},
"C117": {
"note": "Partial: C117_row_partial needs distinct columns, none named after a whole pair, and lines no longer than the header. Refuted parts: a line with one coordinate is read without a location (C117_location_refuted), numeric names become numbers (C117_name_refuted), a column named location raises TypeError or KeyError (C117_location_column_refuted), further fields are ignored if one is blank (C117_too_long_refuted), an unknown extension gives UnboundLocalError and an upper-case SCC extension ValueError (C117_file_refuted). The csv reader's splitting into fields and float()/int() of texts are parameters."
},
"C118": {
"note": "Partial: C118_value_partial leaves out numpy texts, numpy truth values and objects of other kinds. Refuted parts: saving raises exactly if a numpy text is in a value (C118_numpy_text_refuted), the file is then lost although the value is assigned (C118_lost_refuted), numpy truth values and other objects become texts (C118_text_refuted), the assignment of None leaves the old value in the file (C118_none_refuted). The YAML library is idealised as a faithful store of plain data that goes by exact types; keys are texts."
},
"C119": {
"note": "Partial: C119_place_partial is for the working directory in which the simulation was made. Refuted parts: the exact condition under which files go elsewhere after a change of the working directory (C119_moved_refuted, C119_path_object_refuted), the directory of a Path object is not made (C119_made_refuted), other types are ignored (C119_type_refuted). Symbolic links are not modelled."
},
"C12": {
"note": "Proved for every population, user list and window, and over the consecutive periods of a run. The identity of a crater stands for the object (the new hash id of a copied crater is not modelled)."
},
"C120": {
"note": "Partial: what is removed is characterised exactly (C120_removed), so the saved state is gone (C120_state_gone) and files elsewhere stay (C120_outside). Refuted parts: exported files stay (C120_exports_refuted), files of the user in directories with the names of components go (C120_foreign_refuted), a file with such a name ends the cleaning half-way (C120_clash_refuted)."
},
"C121": {
"note": "Real arithmetic, latitudes at most 270 degrees for distances. Refuted: a list or tuple of exactly two locations has no distances (it is taken for one location), so that two locations computed from distances and bearings cannot be measured again; empty arrays raise IndexError except for bearings; dicts have distances but no bearings; structured arrays are always refused and a record with lat first is read as longitude first."
},
"C122": {
"note": "Proved for a surface whose target and mesh do not change, for every history of questions. Refuted, with the exact rule, after another target is assigned (kept values stay those of the old radius) and after another mesh is generated (the whole area, smallest length, coordinates and edges stay those of the old mesh if they were asked for before)."
},
"C123": {
"note": "Proved for the thickness of ejecta in every form, and for the others where the exact conditions hold. Refuted: the profile refuses whole numbers when no reference elevations are given; the distribution refuses arrays that are not a single row, because a shaped thickness is multiplied by a flat intensity; lists and plain numbers are refused by the distribution and the intensity after a seed was drawn."
},
"C124": {
"note": "Proved for a single location that is not structured data on a mesh that does not change, for every history. Refuted: several locations are refused in every form; after another mesh is generated the old tree keeps answering if it had been needed before, with positions the new mesh may not have. The query of the ball tree is an argument assumed to find a nearest place."
},
"C125": {
"note": "Proved: the expression at the head of the description states the ellipsoid for a body, and the ellipsoid, the place and both axes for a region; it is kept unchanged through questions, and a target assigned before the first question counts. Refuted: the description of a body closes before its coordinate system and axes, that of a region before its remark, and a target assigned after the first question does not change the description. How pyproj reads the text is outside the model."
},
"C126": {
"note": "Proved for one or more craters, for failing outlines, for unknown formats and for whole surfaces. Refuted: no craters at all is a ValueError, and the polygon of a region is never written, because the table has one row of values and an index of two. The outline of one crater is a parameter (its shape is the subject of C97)."
},
"C127": {
"note": "Proved while the simulation was not asked or populated, after a first question with craters present, after switching, and for assignments. Refuted: when no crater was there at the first question, craters given later are never merged; assigning None to the switch is a TypeError. The treatment of an assigned list is a parameter (Quasi_model models it)."
},
"C128": {
"note": "Proved: the reported units agree with the factors in every history, the values accepted, and the times of craters given after construction with diameters in kilometres. Refuted: with diameters in metres they are still read in kilometres, and craters given at construction are dated in the default units whatever units are given with them. Densities with an uncertainty or a sequence are in Quasi_model."
},
"C13": {
"note": "Proved for every production function and grid size >= 2 (the code uses 1000)."
},
"C14": {
"note": "Chronology laws, numbers for all three versions, inverse age and diameter (root finder idealised: exact root in the bracket). Also: the crater versions satisfy the hypotheses of C09-C11."
},
"C15": {
"note": "False of the code: Clin and Cexp are cached at first use and survive a change of version. Exact: frozen from the first evaluation; right if nothing is evaluated before the last assignment."
},
"C16": {
"note": "function is as stated; chronology is a constant independent of time, and the slope setter does not normalise the sign."
},
"C17": {
"note": "Diameters are recovered exactly. The morphology type is not preserved just above twice the transition diameter (refuted with witness); exact condition proved. The solver fails outside a stated range."
},
"C18": {
"note": "Law of the type proved exactly; the type reported by transient_to_final disagrees with the type of the reported diameter in a window (refuted for every parameter set)."
},
"C19": {
"note": "Constructor, assignment histories and derived quantities. Attributes inherited from the base class are not modelled."
},
"C20": {
"note": "Refuted for every target with a known material; exact density proved. For a target given by name every target keyword is lost."
},
"C21": {
"note": "Proved for faces with any number of corners whose triangles have a positive total area."
},
"C22": {
"note": "Proved: existence, distribution and the log-log inverse. The upper bound holds only up to the noise of 1e-8 that is added upwards (C22_above_largest_refuted); a flat table passes the checks but no draw succeeds (C22_flat_table_refuted)."
},
"C23": {
"note": "Velocities and angles proved. Termination of the rejection loop fails when a sample equals the escape velocity (C23_loop_refuted)."
},
"C24": {
"note": "Immutability holds for every assignment history. Assignments to attributes added by a morphology model are dropped silently instead of being rejected (refuted)."
},
"C25": {
"note": "Order and rejection proved for all histories; read-back holds exactly when the new radius is not below the old semi-minor axis (refuted otherwise)."
},
"C26": {
"note": "Copy without arguments is exact when measured values are set; several explicit arguments do not override (refuted with witnesses)."
},
"C27": {
"note": "Round trip proved for records whose tuples are present in full or absent; a None measured location makes flattening fail."
},
"C28": {
"note": "Processing loop terminates and forms each queued crater once, in order."
},
"C29": {
"note": "Batch is a maximal pairwise disjoint non-empty prefix."
},
"C30": {
"note": "Exact description of formed/queued craters after any failure; refuted in general: craters of an interrupted batch are formed again."
},
"C31": {
"note": "Volume balance for every mesh and profile; refuted parts: negative thickness when the shape fills, exception at exactly zero excavation."
},
"C32": {
"note": "All parts proved on a flat reference; never-below-floor on any reference. Refuted part: outside the rim the profile can be below the reference (small craters)."
},
"C33": {
"note": "Array entry point, cube law included."
},
"C34": {
"note": "Solver and Python entry point. Mesh must have positive areas and positive centre distances."
},
"C35": {
"note": "Also proves the solver equals the documented finite-volume scheme and that relief strictly decreases."
},
"C36": {
"note": "The claim is conditional on stopping before the iteration limit, as stated; proved for every iteration limit and every angle between 0 and 90 degrees, other angles act as the one in that range with the same tangent."
},
"C37": {
"note": ""
},
"C38": {
"note": "Also triangle inequality and identity of indiscernibles. Radians; f64 idealised as reals."
},
"C39": {
"note": "Poles included."
},
"C40": {
"note": "False in full: a ninth tag on a face whose eight layers are taken silently replaces the smallest tag (exactly characterised). Proved for faces with a free layer; removal is proved in full."
},
"C41": {
"note": "Proved by induction over all histories in which no face is covered by more than eight added craters; refuted without that bound. Tally behaviour proved in full."
},
"C42": {
"note": "Proved for every reachable count and every crater."
},
"C43": {
"note": "Proved for all weighted point lists; the fit exists exactly when some weight is positive."
},
"C44": {
"note": "Exact characterisation: right in the listed cases; refuted in the complementary ones, where the orientation is a quarter turn off (x^2/4+y^2=1 reported with its long axis along y), and the orientation can be negative."
},
"C45": {
"note": "Exact contents of a region in terms of the connectivity arrays and the ball-tree query; emptiness; whole surface; local indices."
},
"C46": {
"note": "One theorem per size, each also saying what does not change."
},
"C47": {
"note": "For any noise field and any outcome of the call; tied to the reported volume."
},
"C48": {
"note": "Proved unless the area ratio is an exact power of two; then, and for every mesh of equal faces, an IndexError (refuted)."
},
"C49": {
"note": "At most once is proved; full coverage is refuted (gaps between batches)."
},
"C50": {
"note": "Bounds and separation proved for any sound root finder; refuted: a truncation factor below 1.0001 is exceeded."
},
"C51": {
"note": "Both round trips."
},
"C52": {
"note": "Dataset round trip is exact up to the name; CSV reload always raises."
},
"C53": {
"note": "Relational statement over two surfaces differing only inside the crater."
},
"C54": {
"note": "False of the code: searchsorted(side='right') - 1 on a cumulative sum whose first entry is 0 shifts the weights, so a part gets a share proportional to N(t_(i+1)) - N(t_0), not N(t_(i+1)) - N(t_i), and the oldest part is never chosen. Exact shares proved."
},
"C55": {
"note": "False of the code: csfd(1 km) is 1000*10^a0 rather than 1, so numbers are off by 0.817 (Moon) or 0.413 (Mars). Exact factor proved."
},
"C56": {
"note": "Table polynomials certified by rational interval arithmetic inside Coq. Fails only at diameter 0, which is accepted: the projectile version never terminates there (the others divide by zero, not modelled)."
},
"C57": {
"note": "False of the code: the exponent omits the factors (i+1) of the derivative. Exact slope proved."
},
"C58": {
"note": "The root finder is modelled by its specification: a root in the bracket, error if there is no sign change."
},
"C59": {
"note": "Refuted for every pair of catalogue bodies: the saved radius and material are applied to the new target."
},
"C60": {
"note": "Distributions are stated by the draws: the set of draws that give a value up to x."
},
"C61": {
"note": "Best fit, exact recovery and misfit proved; existence refuted when weights cancel (the guard sums the raw weights)."
},
"C62": {
"note": "Proved for free and fixed centres, for every routine listing eigenvectors."
},
"C63": {
"note": "Sign and radial meaning proved; refuted: the fitted orientation is read back a quarter turn off in half of the cases, and geometric_distances rebinds a, b so that it is not zero on the ellipse."
},
"C64": {
"note": "The height is divided by the radius of the body and never multiplied back: the change is at most 8/3 height/radius metres; refuted for the Moon and the default height."
},
"C65": {
"note": "Faces and edges agree; the nodes of buffer faces are missing (refuted)."
},
"C66": {
"note": "Holds for nodes with all faces in the region; border nodes are averaged over the region's faces only (refuted)."
},
"C67": {
"note": "Refuted: node averages are written at the indices of the faces."
},
"C68": {
"note": "Exact means for regions without NaN; with NaN elevations and distances are misaligned (refuted); measured_rim_height alone is cached and stale (refuted)."
},
"C69": {
"note": "Threshold exists for every size; depends on size only."
},
"C70": {
"note": "Flat regions are scored by absolute elevation and the quantile does not interpolate (both refuted); everything else holds."
},
"C71": {
"note": "Loop bound and convergence hold; the region is never enlarged, and a fit smaller than the old semi-minor axis is recorded wrongly (refuted)."
},
"C72": {
"note": "Times in the future and the diameter range that is never restored are refuted; completeness, order, exact times and the range hold."
},
"C73": {
"note": "Holds for all draws when the dates agree with the sequence or with at most two sequence numbers; in general only for all but the largest sequence number (refuted there). Exact dates are kept only if alone in their sequence number; a division by zero for ranges reaching zero is refuted."
},
"C74": {
"note": "Crater limits proved for all assignment sequences and both generators; projectile limits proved for generators of projectiles and refuted for generators of craters; crossing limits and resuming refuted."
},
"C75": {
"note": "Latitudes proved and tight; longitudes proved on the equator and with a pole, and refuted for every other region, with the right width proved."
},
"C76": {
"note": "Coverage proved for regions no larger than a tile that do not cross sixty degrees, and for polar maps; refuted for wide regions, across sixty degrees, and for 5 m at the pole."
},
"C77": {
"note": "Real arithmetic. Growth and region-size laws proved for all inputs; the claim that small craters follow the published function is refuted (uniformly 11-12 % smaller)."
},
"C78": {
"note": "quad and the production function are arguments assumed linear, monotone and additive. Applied once, nothing left after apply, bounded by the area, additivity in time, monotone in face size, refusal of backward periods proved for all call sequences; carrying over a reset or a change of surface is refuted."
},
"C79": {
"note": "Real arithmetic; curve_fit and the reach of ejecta are arguments. Sizes proved for regions below a quarter of the circumference; size at the antipode, larger regions, changed and automatic factors refuted."
},
"C80": {
"note": "Before rounding and removal of duplicate points. Lattice, rings, spacing, termination and rotation proved for regions below a quarter of the circumference; endless loops, the gap at the diagonals of large regions and the south pole refuted."
},
"C81": {
"note": "Proved: range, normalisation, near-rim sufficiency, reach, proportions, turns, shapes and thinning. Refuted: not-a-number when all points are beyond the rays; a lone point always gets 1; the divisor at the end of the rays is 1 though three rays reach it; numbers and lists raise AttributeError; two-dimensional arrays raise ValueError in ejecta_distribution."
},
"C82": {
"note": "Proved: life cycle over all call sequences, values at points without overlap, with statement in each case. Refuted: leaving a with statement without data, or with a dataset that misses a local surface, raises and leaves datasets open; where datasets overlap the order of distances is wrong (the longitude of the point stays in degrees and half a turn is added); the caller's list is replaced."
},
"C83": {
"note": "Proved for the first session, in all its uses (C83_new, C83_first_session). Refuted beyond it: a resumed simulation never writes its configuration (C83_resume_again_refuted, C83_counters_stay), later sessions can be lost (C83_lost_refuted), a crash can skip or repeat a period or leave an unreadable configuration (C83_crash_*), an empty list of observed craters is not saved, the default without a configuration is not a reset, and the random state is not restored. C83_crash_partial lists all outcomes of a crash in an iteration."
},
"C84": {
"note": "Acceptance, given and drawn arguments, densities, catalogue velocities, default population and completeness under every history are proved. Refuted: the documented defaults of sample=False, mean_velocity for asteroids and comets, copies of asteroids and comets (velocity lost), the target setter, Scaling.maker with a named projectile, and vertical velocity for angles above 90 degrees."
},
"C85": {
"note": "Proved for every pixel size that asks for at least eight faces; refuted for pixels larger than half the surface (mesh generation fails although the setter accepts them); two to seven faces are not covered. Floats are reals."
},
"C86": {
"note": "Proved for a new surface; refuted after the pixel size was read (cached)."
},
"C87": {
"note": "Proved for every history of sessions with kills: the grid on disk is genuine and a new surface has the mesh of its parameters (identifiers are injective for faithful printing and a collision-free hash). Without kills and region saves files and mesh fit, saves merge, resets clear. Refuted: a declined reset still zeroes memory and interval 0; a kill between the new grid and the removal of old data leaves data of the wrong mesh, or none; saving an extracted region writes into the data file of the whole surface."
},
"C88": {
"note": "Proved for every exact least-squares solver (one is constructed). Refuted for desloped elevations: they are zero for faces beyond the region radius and everywhere in regions of fewer than five faces."
},
"C89": {
"note": "Proved except for slopes: the change is not the same on a slope (refuted with a case in which a crater raises the ground), because the floor is limited by the mean elevation within the rim; the difference is bounded by the height of the slope above its mean."
},
"C90": {
"note": "The table theorem holds for every list of craters that have a size, a location and a measured location. Refuted: columns are those of the first crater, so values of later ones are lost; a crater whose measured location was cleared ends the export after the old file is gone; the default argument always raises for observed craters; a dictionary of datasets empties the file."
},
"C91": {
"note": "Lines and read-back proved for every list. Refuted: the measured ellipse comes back as a circle; the inside test uses the original location; without an interval the call always raises."
},
"C92": {
"note": "Proved for histories read file by file or with the same craters in every interval. Refuted: files opened together with differing craters cannot be exported from the first interval that lacks one; an empty list is numbered with the last interval of the other kind."
},
"C93": {
"note": "Proved for every mesh, draw and set of arguments: the period, counts, sizes, places and order of the population, the share of each face, and success. Refuted: a bin of faces larger than the largest crater makes the whole call fail; the documented craters argument is never emplaced; with a generator of projectiles those that make craters larger than a face only in fast impacts are never drawn. The Poisson count, the sizes, the times and the point on a face are arguments (C13, C21, C22, C54 model them)."
},
"C94": {
"note": "Proved for every session: order and content of what is returned, what is listed as emplaced, ejecta volumes, tallies. Refuted: craters never formed are returned, an empty list raises, a crater is listed twice after a failure, a crater without volume blocks all later calls, form_ejecta uses another crater's volume, measure_rim is lost after 2000 craters."
},
"C95": {
"note": "Proved for every mesh and pair of regions: exact overlap, confinement of faces, values per face, tags, regions inside and outside. Partial: nodes only when the overlap has different numbers of faces and nodes. Refuted: border contact, whole-body local region, argument checks outside, operations of the surface."
},
"C96": {
"note": "C96_same_answers: any session with one surface; C96_before_the_mesh: reads before the surface has data; C96_covers_partial and C96_batch_apart_partial: affected faces and nodes cover the crater region when the ejecta reach 1.5 radii. Refuted: shorter ejecta (batches share faces, emplaceable crater fails), craters smaller than the face (test uses 1.5 radii), replaced surface (stale face, extent, emplaceable)."
},
"C97": {
"note": "Proved: the vertices are the points of the ellipse on the great circles, the curve is closed, height and choice of sizes, and, away from the poles, unwrapping and splitting keep every place and leave every part within [-180, 180] without a jump. Refuted: a part beyond the antimeridian loses its height; a polygon around a pole with centre longitude 0 is not unwrapped and cut along the prime meridian; the outline around a pole encloses no area. geod.fwd is any function that solves the direct problem on the sphere; shapely's split and centroid are any functions that cut along a meridian."
},
"C98": {
"note": "Proved: exporting all intervals writes exactly the files of the saved intervals with exactly their variables and changes nothing else; refused files are kept (all drivers but GeoTIFF); what exporting one interval does to the history, exactly; Simulation.export. Refuted: exporting an earlier interval overwrites it with the surface of now; interval -1 adds a saved interval -1; VTK fails for -2 and below; unknown drivers (also SHP, SQLite and PMTiles) are ignored silently; GeoTIFF files are replaced without asking and do not tell variables apart; shapefile columns get equal names and variables beginning with id are dropped."
},
"C99": {
"note": "Real arithmetic instead of floats. Whether a polygon touches a pixel is a parameter (rasterio); the refutation with boxes uses the real criterion. Refuted: the pixels of a region are larger than the pixel size because the border is added to the extent only; a pixel can show a later face that only touches its edge; pixels touched only by faces crossing the antimeridian are empty."
}
}