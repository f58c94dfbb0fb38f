# Formal model of cratermaker in Rocq

The code under study is `/repo` (Python in `cratermaker/`, Rust in `crates/`).
Nothing in `/repo` is run here.  The model is a hand-written, shallow Gallina
transcription of the functions named below.  Each definition cites the file and
lines it transcribes and lists its simplifications.

## 1. Layout

`rocq/theories/` holds, per topic `X`:

* `X_model.v` - definitions only, each citing the source lines it models;
* `X_spec.v` - small, independent vocabulary used to state the properties
  (omitted where the standard library vocabulary is enough);
* `X_proofs.v` - lemmas;
* `X_props.v` - the property theorems only, each closed by `exact`, each followed
  by `Print Assumptions` and by an `Example` showing that a concrete case meets
  the hypotheses.

Theorem names start with the property id.  A suffix `_refuted` means that the
property as the user would expect it is false of the code, and the theorem proves
a concrete counterexample in the model.  A suffix `_partial` means that the
theorem proves the strongest part found; what is missing is said beside it.

## 2. Modelling conventions

* Exceptions are values: `result A := Ok a | Err e`.
* Floating point is idealised.  Where the property is about order or rational
  arithmetic the model uses `Z` or `Q`; where it is about real analysis
  (powers, exponentials, trigonometry, square roots) it uses the standard library
  `R`.  Rounding, overflow and NaN are outside the model unless a definition says
  that NaN is modelled (as `None`).
* Random draws, prompts, file systems and third-party libraries are arguments
  (oracles) universally quantified in the theorems.
* Mutable objects become records; a method becomes a function to the new record.

## 3. Properties and plan

| id | modelled | proof |
|----|----------|-------|
| C01 | `normalize_coords` over `Q` | case analysis on the pole branches, floor lemmas; counterexamples for latitudes beyond the poles |
| C02 | `_rng_init`, `rng_state` setter over an abstract generator | case analysis; counterexample for assignment |
| C03 | registry as association list, `maker` dispatch | induction over registrations |
| C04 | `_set_properties` over finite maps | characterise the final value of each attribute by lookup |
| C05 | parameter store with `_user_defined` | invariant over assignment sequences |
| C06 | decimal file names, lexicographic sort, index lookup | order embedding of 6-digit decimals; counterexample beyond |
| C07 | prompt loop as a fold over answers | induction; counterexample for late refusal |
| C08 | save-action list operations | induction over operation sequences |
| C09 C10 C11 | `_validate_run_args`, `run` loop over `Q` | induction over the loop index; counterexample when the interval does not divide |
| C12 | `quasimc_merge` on lists | permutation and sortedness by induction |
| C13 | `compute_time` with a monotone chronology | order reasoning |
| C14 C16 | chronology formulas over `R` | monotonicity of `exp`, `Rpower` |
| C15 | version/coefficient cache as a state machine | counterexample history; partial for fresh objects |
| C17 C18 | scaling formulas over `R` | algebra of `Rpower` |
| C19 C20 | target record with setters | invariant over assignment sequences |
| C21 C22 C23 | sampling formulas over `R` with arbitrary draws | convexity, interpolation bounds |
| C24-C27 | crater record, measured-axis state machine, tuple flattening, copy path of `maker` | invariants over operation sequences |
| C28 C29 C30 | queue manager and processing loop | induction with fuel, shown sufficient; crash counterexample |
| C49 | queue processing with degradation intervals | induction over batches; counterexample for gaps |
| C31 | `form_ejecta` rescaling | sums over face lists |
| C32 C33 | Rust profile functions over `R` | polynomial inequalities |
| C34 C35 C36 | Rust diffusion over an edge list | sums by induction over edges; convex combinations |
| C37 | Rust node interpolation | weighted means |
| C38 C39 | Rust haversine and destination formulas | trigonometric identities |
| C40 C41 C42 | tag layers and counting operations | per-face multiset reasoning; counterexamples when layers are full |
| C43 C44 | Rust rim fitting formulas | least-squares algebra; counterexample for orientation |
| C45 C46 C47 C48 | region extraction, elevation updates, noise, bins | list/set reasoning |
| C50 | `rmax` with the root finder as an argument | monotonicity of the ejecta law |
| C51 | bearing and destination formulas over `R` | orthonormal frame identities |
| C52 | from_xarray / from_csv as calls of the modelled maker with the saved columns as arguments | invariant of made craters + symbolic execution of maker; counterexamples for name, integer time, CSV |
| C53 | form_crater on two surfaces that differ in the ejecta thickness inside the crater | relational symbolic execution |
| C12 | merge loop over sorted populations (Times_model) | permutation invariants of the replacement loop; over a run by induction on the tiling of periods |
| C13 | time grid, inverse-cdf choice and sort (Times_model) | bounds on the grid; permutation and order of the sort |
| C54 | same model | exact set of draws for each part; refuted for a constant rate |
| C14, C55-C57 | Neukum csfd, chronology and the inverse functions (Prod_model) | real analysis; slopes of the table polynomials bounded by a verified rational interval checker (Prod_poly); bin sum by induction |
| C15 | version setter and cached coefficients as a state machine | invariant over histories; refuted by a two-step history |
| C16 | power-law class | algebra of Rpower; refutations |
| C58 | pi-group scaling over `R` (Scaling_model) | monotonicity of a sum of powers, exact domain of the bracketing solver |
| C59 | resumption with a saved target configuration (Conf_model) | corollary of the exact description of the constructor |
| C02 | `_rng_init`, the rng, rng_state and rng_seed setters and component construction over a heap of generators (Base_*) | cases on the arguments; induction over assignments and over chains of components |
| C03 | registries as dictionaries per family, `ComponentBase.maker` (Base_*) | induction over the registrations |
| C06 | file names with padded decimals, glob, split, int, name sort and number sort as in base.py (Files_*) | digit lemmas, uniqueness of sorted permutations, induction over the saves |
| C07 | `_overwrite_check` over a file system, a list of answers and a failure oracle; the preference during exports (Base_*) | induction over the listed files |
| C08 | save action setter, adder and runner over a heap of lists (Base_*) | invariant (no sharing) and refinement to a list per object, by induction over operations |
| C60 | random locations, directions, bounded normal samples | closed form of the inverse distribution |
| C61 | fit_one_circle with exact 3x3 inverse, weights as option R | normal equations, orthogonality of residuals, determinant zero iff collinear |
| C62 | fit_one_ellipse(_fixed_center) with the eigenvector routine as an argument | reduced quadratic form, reverse Cauchy-Schwarz for the constraint 4ac-b^2 |
| C63 | radial_distance_to_crater_rim, geometric_distances | polar form of the ellipse; angle bookkeeping modulo half turns; witnesses |
| C64 | turbulence octaves, apply_noise | bound by induction over the octaves |
| C65 | extract_subregion against extract_region | lists equal by membership; strip of four faces as witness |
| C66 | update_elevation, interpolation on a region | from the C46 face case; strip as witness |
| C67 | add_data size test | witness |
| C68 | floor/rim masks and NaN filters, cached reads | means over the selected faces by induction; witnesses |
| C69 | degradation state, visibility threshold | monotone real functions, root of the threshold |
| C70 | score_rim passes, nanquantile | invariants of each pass over the faces; counting lemma on sorted lists |
| C71 | fitting loop with abstract fit and extraction, setters | induction on the loop; exact setter result |
| C72 | Model of _process_quasimc_craters with the draws, chronology and age as arguments. | Permutation and sortedness of the result; case analysis of the untagged draws; fold for the diameter range; witnesses. |
| C73 | Same model: grouping, averages, the ten refinement passes, bounded draws, consistency check. | Extents form a descending chain (induction over the sequence numbers) when the one-sigma ranges are ordered; three passes suffice for two numbers; draws stay in the extents; witnesses for the rest. |
| C74 | Limits_model: the diameter range of the production object, the four getters and setters, _get_diameter_limit with the scaling as an argument, construction and the stored parameters | refinement of a pair of limits, by induction over assignments; witnesses for the projectile limits of crater generators, crossing and resuming |
| C75 | Dem_model: location_extents; great-circle distance from Trig_model | spherical geometry: latitude by the cosine of the angle, longitude by the tangent meridian, strictness by concavity of the sine |
| C76 | Dem_model: tiles, global and polar files, choice of resolution | floor and ceiling cells; at most two cells per axis in a box no wider than a tile; witnesses computed |
| C77 | Degrade_model: degradation_function and kdmare over R | monotonicity of powers of the smoothed broken power law; comparison of prefactors |
| C78 | Degrade_model: _Kdiff as an optional list, face bins, integration and production as arguments | invariant over call sequences: applied plus waiting equals requested; witnesses for reset and another surface |
| C79 | Hires_model: setters, cached slope and exponent, size function, automatic sizes with the reach of ejecta and the fit as arguments | order reasoning on the linear function; induction over the search loop; universal counterexamples |
| C80 | Hires_model: interior and exterior loops with fuel, points, rotation by Rodrigues' formula | integer lattice by induction over rings; termination by a lower bound of the step; convexity of the cosine in the squared angle; spherical distances for the gap |
| C81 | Ray pattern of basicmoon.rs and its two Python callers (Ray_model.v); the shuffled azimuths and random numbers are arguments, the error function a parameter | signs of every factor, maximum of a non-empty list, case analysis on the remainder for turns, monotonic exponentials for the ray lengths |
| C82 | DataComposer: state of waiting and closed datasets, the choice of dataset per point, the with statement (Compose_model.v); the raster behind a location is a function | induction over call sequences with an invariant on handles; minimum over datasets; trigonometry on the equator for the refutation |
| C83 | construction, resumption, run bookkeeping, saving and resetting of a simulation as programs that return their writes to an explicit disk; a crash is a prefix of the writes | invariant over sessions (object and disk agree); case analysis of the prefixes; witnesses for the failures |
| C84 | The projectile classes, their constructors, catalogues, copy, maker, new_projectile, setters, and the projectile of Scaling.maker (Proj_model) | exact acceptance condition; case analysis of constructors; invariant by induction over makers, renewals, copies and setters; refutations by computed witnesses |
| C85 | `_distribute_points` (rings, points in each ring, rounding to decimals, numpy.unique on coordinate rows), poles, setter of pix | trigonometry of the rings: spacing between 0.75 and 1.25 of the square root of the area per point, chords bounded by angles, rounding error below 0.139 pixel; count by a telescoping sum of sines; refutation for one face or none |
| C86 | cached pix and gridlevel setter of the icosphere | algebra; refutation by a history |
| C87 | Store_model: directory as a grid file with identifier and data files by interval, every file operation one write, sessions as sequences of operations with a kill after any write | Injectivity of the colon-joined identifier; invariants by induction over histories; refutations by explicit histories |
| C88 | Ref_model: reference surface with the least-squares solver as a parameter, projected coordinates from distance and bearing | Normal equations from minimality, uniqueness of fitted values; Gram-Schmidt as a witness solver |
| C89 | Ref_model.crater_shape on top of Profile_model | Pointwise form of the change, mean of the reference surface from C88; explicit slope as refutation |
| C90 | dictionaries of crater attributes, tuple columns, circular craters, the writing loop with its exceptions | the row dictionary of a crater has exactly the column values of an independent list; induction over the rows |
| C91 | lines with real values; the constructor model of C25–C27 for reading | induction over the lines; evaluation of the constructor for a diameter and a location |
| C92 | saved files as lists of craters by interval, outer join by id, the two loops with the rebound interval variable | induction over intervals; strictly sorted lists with the same elements are equal |
| C93 | simulation.populate over the face bins, with the bins of C48, the argument checks of C11 and the limits of C74; random draws, crater maker and emplace as arguments | induction over the bins; the scaled number pair gives the same age in each bin because the solver's root is unique; inverse-CDF choice by partial sums |
| C94 | Emplace_model: emplace argument kinds, conversion, form_crater / form_ejecta with the stored volume, queue, emplaced list and keyword dictionary as state that survives exceptions; sessions of calls | growth relation between states composed along the loop and the session; shape of the log by induction; counterexamples by computation |
| C95 | Overlap_model: index sets (slice or array), masks, local_overlap, the four operations on top of Region_model and Tags_model | membership through the masks, frame lemmas for add_data and update_elevation; counterexamples by computation |
| C96 | Footprint_model: the lazily computed properties of MorphologyCrater with their caches, the queue's overlap function and the start of form_crater, over sessions of reads, drops and replaced surfaces | invariant: every cache is empty or holds the value of the current surface; monotonicity of region extraction in the radius (C45) for covering; witnesses on a strip of ten faces for the failures |
| C97 | crater outlines: polar radius, vertices by the direct geodesic problem, unwrapping by sign, splitting and flipping | ellipse equation; projection on the horizontal direction of the centre bounds the longitudes; case analysis on turns; concrete solver and cutter for non-vacuity |
| C98 | Surface.export with its vector, VTK and GeoTIFF writers, Simulation.export, over a state of saved intervals, current variables and exported files | induction over the loop of intervals and over the variables of a table; exact description of the history after an export |
| C99 | get_raster_dims, the extent and transform, and to_raster's burning of shapes in order; touching is a parameter | real arithmetic on ceilings; induction on the list of faces from its end |
| C100 | MorphologyCrater.maker's choice of location on top of Crater_model.maker and Trig_model's destination | case analysis of maker; spherical trigonometry for the destination |
| C101 | Gradient at a face (Mesh_model), compute_slope and compute_radial_gradient with the keyword check of the bindings | Weighted-mean inequalities (Jensen) over the list of neighbours; a five-face star and a face beyond the pole as witnesses |
| C102 | Dictionaries of keywords through BasicMoonCrater.maker, MorphologyCrater.maker, the end of Crater.maker and Crater.__init__ (Lunar_model); Crater.maker's computation of sizes is a parameter | Induction over the fields the constructor takes; the published laws as an inductive relation; copies, None and three keywords refuted |
| C103 | Rows of numpy arrays as lists of triples; cells through Region_model.remap; rings and their point ids as a fold over all outlines; outlines themselves are a parameter (Outline_model) (Solid_model) | Scaling of vectors; invariant over the fold (points so far are the rings so far, ids are consecutive); refutations by computation |
| C104 | R_to_CSFD (loop with fuel), csfd_geometric_saturation, csfd_equilibrium over kinds of numpy input | Induction over the bins; mean value theorem and Hermite-Hadamard for the bounds; geometric sums for power laws |
| C105 | Loading, building and resetting of a datasurface over a mesh, a region, readable or unreadable files and a used directory; float32 numbers with infinities for the values | Invariants of the composed elevations through the model of update_elevation (Region); case analysis for failures and retries |
| C106 | Views_model: the lookup by size of LocalSurface.__getattr__, selection by dimension name, add_data (Region_model), edits of returned arrays, saved intervals, the six local connectivity arrays | invariant on the sizes of the variables by induction over histories; read-back from the exact update of add_data; local arrays mapped back to the global ones |
| C107 | Format_model: format_large_units branch by branch; rounding half to even as a function on reals; a printed number is the number it denotes | nearest-integer lemmas (uniqueness, monotonicity, oddness), grids that contain the class boundaries, induction over the list of units |
| C108 | labelmaker, get_time_variables for one interval, the units of N(D), the sum kept as elapsed_n1, and the state of the 3D viewer under arrow keys; sessions are lists of changes and saves | induction over sessions (what was last saved), over periods (N(D) scales with the size part of the production function), over keys; counter-examples for -1, fractional D, other units, the left arrow at the first interval |
| C109 | the N_D, N_D_end and age arguments of _validate_sample_args in front of sample_args of Run_model, and the same arguments of run; age_from_D_N is any function that satisfies the relation of Prod_model | unfolding both paths to the density equation at the ends of the period; counter-example with an exact solver; bound of the default power law over the bracket |
| C110 | production.maker, the constructors of the two production models, what the configuration keeps of them and resumption (Choice_model) | case analysis on names; induction over histories of assignments and resumptions |
| C111 | an option is a value and whether its name is recorded; constructor, setter, saving and resuming act on it; the projectile and scaling parts reuse Proj_model.maker and Conf_model.scal_init | induction over the history; the values of the constructors from C84 and C20 lemmas |
| C112 | Attribute lookup with nested __getattr__ calls as a function with a bound on depth (no answer for every bound is RecursionError); the lists of class names and fields; as_dict with the caller's list as state. | Case analysis on the parts; induction on the bound for the recursion and on the sequence of calls for the list; complete check of the finite name lists. |
| C113 | The three kinds of saved files as ordered lists, the state in memory, and plotting as functions of them; what is drawn as a record; file names as strings; the scale bar over R. | Induction on the history (files = the state at the last save of each number, ordered); case analysis; injectivity of string concatenation; linear arithmetic for the bar. |
| C114 | Batch_model: list of emplaced craters, its files, and the reading of them, over sessions of emplace, run, save, resume and reset | induction over turns and over sessions; files compared through membership; refutations by general theorems with witnesses |
| C115 | Parts_model: objects as references in a heap; makers and constructors of all components; Simulation.__init__; component setters | shape lemma for the heap after construction, exact condition on given objects, frame lemma for independence, refutations by general theorems |
| C116 | Tally_model: the loop of a tally with its keyword arguments as a dictionary that is consumed, the objects of both crater lists, and the morphology setter; measurements are parameters that may raise | trace of calls by induction on the ids with the arguments generalised; results and frame by the same induction; objects made anew by the setter are numbered above all old ones |
| C117 | Table_model: a row as csv.DictReader gives it, the rebuilding of pairs and triples, the conversion of values, the loop over the lines and the dispatch on the extension; float(), int() and the maker are parameters | the dictionary of a row computed key by key from the cells; loop by induction on the lines; refuted parts by the general form of the failing rows |
| C118 | Yaml_model: Python values as a nested type, the conversion, safe_dump and safe_load, the file after assignments | structural induction on values with a principle for nested lists; uniqueness of the shown data; invariant (one good value per attribute) over assignments |
| C119 | Paths_model: directories as lists of names, paths with steps up, resolution, the simdir setter, what components write in | normal forms of walks by induction on the path; cancellation of common prefixes for the exact condition |
| C120 | Cleanup_model: the file system as the list of its files, removal of one file and of trees, the failure on files with the name of a directory | induction over the names; exact membership of the result |
| C121 | the readers of locations and the three functions that take several of them, on all forms of argument | case analysis on the form of the argument, induction on the places, the spherical lemmas of C38, C39, C51 and C100 |
| C122 | Size_model: the kept values of a surface as options that a question fills, assignment of a target and regeneration of the mesh as in the code, the distances of edges as the compiled function computes them. | A question changes no answer of any state; the exact contents of the kept values by induction over the history; statistics from sums over lists. |
| C123 | Radial_model: what a user may pass (scalar, nested list, array with shape and kind), its conversion, the kinds the compiled functions accept, multiplication in place. | Case analysis on the forms; the exact conditions of success; values point by point from Profile_model. |
| C124 | Near_model: the kept search trees as the lists of places they were built from, locations read as in Where_model, regions that build a tree, regeneration of the mesh. | The tree in use is invariant under every act; its exact contents by induction over the history; distances on the sphere from Place_spec. |
| C125 | Wkt_model: the texts built by get_crs for a name, a radius and a place, and how surfaces and regions keep the system. | Induction over texts with the state of brackets and quotes, for every name, radius and place; induction over histories of questions and targets. |
| C126 | Frame_model: the loop over craters with outlines as a parameter that may fail, pandas.concat and the length check of pandas.DataFrame, the table of formats from Exports_model. | Induction over the list of craters for both the series and the first failure; case analysis over formats through membership in the table. |
| C127 | Flag_model: the remembered switch and the list of craters, with the treatment of an assigned list as a parameter that may fail; of populate, the choice of the craters it merges. | The remembered answer is an invariant of every event but switching, by induction over histories; the craters merged are characterised by membership for every period. |
| C128 | Units_model: the conversion factors with their checks and names, construction with craters before factors, the time of a crater dated by an exact density; csfd and age are parameters. | Validity of the factors as an invariant over histories; times characterised against an independent formula in the units reported; witnesses with a concrete production function. |

The trusted base (section 4) and the per-theorem assumptions (section 5) are kept
up to date as files are added.

## 4. Trusted base

### 4.1 Logic

* Coq 8.16.1: its kernel (and `coqchk`), its parser and printer, and the OCaml
  compiler and runtime under them.  No plugin, no native compilation, no kernel
  check switched off, no functor, no axiom, parameter or open hypothesis of ours.
* The standard library, and of its axioms only those listed per theorem in section
  5: `ClassicalDedekindReals.sig_forall_dec`, `ClassicalDedekindReals.sig_not_dec`,
  `functional_extensionality_dep` (the construction of `R`) and
  `Classical_Prop.classic` (used by lemmas of the library about `R`).  No other
  library is imported.

### 4.2 The reading of the code

The theorems are about the model.  The tie to the code is the citation on each
definition; nothing is extracted or run.  Idealisations that hold everywhere:

* `float64`/`f64` are `R` (or `Q`, or `Z`); no rounding, overflow, underflow.  NaN
  is `None` where a definition says so and does not occur otherwise.  A theorem that
  says "equal" is therefore about exact arithmetic; one that depends on the sign of
  a difference (a boundary) is about exact boundaries.
* numpy broadcasting is a map over lists; `rayon` parallel maps are maps; xarray and
  uxarray variables are lists by name; dtype and attributes are not kept.
* Random draws, prompts, file-system failures, ball trees, root finders and
  eigenvector routines are arguments; a theorem that needs a property of one of them
  states it as a hypothesis (for a root finder: a root in the bracket, an error
  without a sign change).
* A Python object is a record, its attributes are fields; properties that cache are
  state.  Type checks on arguments are the types of the model unless the definition
  says otherwise.  Progress bars, logging, plotting and docstrings are left out.

### 4.3 What is modelled

| model | source |
|---|---|
| Coords_model | utils/general_utils.py: normalize_coords |
| Trig_model, Geo_* | surface/mod.rs: bearing, distance, destination; the Python callers |
| Mesh_model | surface/mod.rs: edge extraction, diffusion, time step, slope, slope collapse, node interpolation, gradients used by them |
| Region_model | surface/__init__.py: extract_region, extract_subregion, _remap_connectivity_to_local, add_data, update_elevation, apply_noise, compute_volume, _compute_face_bins; surface/mod.rs: turbulence_noise, interpolate_node_elevation_from_faces |
| Tags_model | surface/__init__.py: tag layers; counting/__init__.py: add, remove, tally, R_to_CSFD |
| Fit_model | counting/mod.rs: circle and ellipse fits, conic parameters, rim distances |
| Crater_model, Columns_model | crater/__init__.py: maker, fields, measured axes, to/from dictionaries, datasets and CSV, tuple columns |
| Queue_model, Ejecta_model, Profile_model | morphology/__init__.py, basicmoon.py and basicmoon.rs: queue, form_crater, form_ejecta, profiles, morphometry, rmax |
| Run_model | simulation.py: run, _validate_run_args, populate; production/__init__.py: argument validation |
| Times_model | production/__init__.py: formation times, merging of user craters |
| Prod_model | neukum.py, powerlaw.py and the inverse functions of production/__init__.py |
| Scaling_model | scaling/montecarlo.py, ctem.py |
| Conf_model | general_utils.py: property assignment; target; construction of scaling; saved configuration |
| Base_model, Files_model | core/base.py: generators, registry, overwrite prompts, save actions, file names, listing and reading saved intervals |
| Random_model | utils/montecarlo_utils.py |
| Measure_model | counting/mod.rs: scoring of rim candidates, measured rims, the loop of fit_rim; depthcount.py |
| Quasi_model | production/__init__.py:945-1246, 1305-1347 quasi Monte Carlo craters |
| Limits_model | simulation.py:1392-1453, 1615-1740 smallest and largest crater and projectile |
| Dem_model | surface/__init__.py:1386-1425, 4736-4933 DEM windows and resolutions |
| Degrade_model | basicmoon.py:503-594, 656-710 degradation and subpixel diffusion |
| Hires_model | surface/hireslocal.py: parameters, size function, superdomain, points, rotation |
| Ray_model | basicmoon.rs:200-412, basicmoon.py:389-501 rays |
| Compose_model | surface/__init__.py:4575-4735 data composer |
| Restart_model | simulation.py:69-248, 286-297, 550-646, 867-884, 1277-1372; surface/__init__.py:1076-1110; counting/__init__.py:87-96, 451-498: sessions, crashes, resumption |
| Proj_model | components/projectile/*.py; scaling/__init__.py:55-161 |
| Arb_model | surface/arbitrary_resolution.py; icosphere.py parameters |
| Store_model | surface/__init__.py: identifiers, grid file, regridding, data files, reset, save; numbers of the parameters are float bit patterns, printing and hashing are parameters assumed injective |
| Ref_model | surface/__init__.py: get_reference_surface, projected coordinates, desloped elevations; morphology/basicmoon.py: crater_shape; the least-squares solver is a parameter |
| Export_model | counting/__init__.py: export (drivers CSV and SCC), _validate_export_args, to_csv_file, to_scc_file (crater section); crater/__init__.py: as_dict, _convert_tuple_vars (not inverse), from_scc_file, from_xarray; base.py: opening several saved files; how a cell is printed, the header of the SCC file and the VTK and vector drivers are not modelled |
| Populate_model | simulation.populate (650-816), production.sample as far as populate uses it (235-284), surface.face_bin_area and face_bin_min_sizes, rng.choice; Poisson counts, sizes, times, points, Crater.maker, quasimc_merge and emplace are arguments |
| Emplace_model | The surface and volumes are abstract types with failing operations; a failing operation leaves the surface as before it (in the code numpy arrays may be half written); conversions (BasicMoonCrater.maker) are an oracle by position; of the keyword dictionary only measure_rim is followed. |
| Overlap_model | The compiled diffusion and slope collapse and the noise are arguments that may fail; distances and bearings copied to the overlap are left out. |
| Footprint_model | morphology.rmax and the ball tree are arguments that always answer; the crater always has a morphology model; index sets are lists; form_crater only up to the choice of the region it changes (C94 has the rest) |
| Outline_model | components/crater/__init__.py 1138-1227 (to_geoseries); pyproj's geod.fwd, shapely's split and centroid are variables with stated specifications; the CRS wrapper GeoSeries is not modelled |
| Exports_model | components/surface/__init__.py 1262-1283 (merge on save), 2772-2920 (export, to_vector_file), 3014-3071 (to_vtk_file), 3205-3249 (to_geotiff_file), core/simulation.py 886-931, constants.py 26-58; files identified by extension and number; geometry columns, windings and VTK normals are not modelled |
| Raster_model | surface/__init__.py to_raster, get_raster_dims (3071-3182). Not modelled: building the polygons, reprojection, rasterio's touching test, float32 rounding of the values |
| Place_model | morphology/__init__.py 145-193 (location arguments), crater/__init__.py 775-780, surface/__init__.py 1006-1033 and 3895-3933, hireslocal.py 677-705, general_utils.py 242-260; arrays of distances and bearings are not modelled |
| Slope_model | surface/__init__.py 2407-2421 and 2744-2769, surface_bindings.rs 279-319 (argument names), mod.rs 138-155 and 298-309; the gradient itself is in Mesh_model |
| Lunar_model | morphology/basicmoon.py 26-39, 75-126 (BasicMoonCrater.maker); morphology/__init__.py 145-193; crater/__init__.py 428-459, 553-563, 1117-1136. Not: the variable attributes, what Crater.maker computes (Crater_model), Morphology.maker |
| Solid_model | surface/__init__.py 1036-1054, 2719-2742, 2922-2996; counting/__init__.py 1120-1286, 1329. Not: VTK's geometry and normals filters, the choice of the crater list (Export_model), to_geoseries (Outline_model) |
| Datasurf_model | components/surface/datasurface.py:68-137, 198-284, 376-597 without reading, warping and interpolating the files (arguments); hireslocal.py:650-676 |
| Views_model | LocalSurface.__getattr__, uxds, uxgrid connectivity, read_saved_output of one interval; the encoding of files, attributes and dtypes of variables and time-stacked reads are not |
| Format_model | format_large_units; the text layout (trailing zeros, exponent notation), infinities and NaN are not |
| Label_model | core/simulation.py labelmaker, the key events of pyvista_plotter, time_variables, the elapsed N(1) of run and of __str__; core/base.py get_time_variables for one interval; N_unit; left out: get_time_variables for all intervals, the drawing |
| Nd_model | production/__init__.py 656-681 (age, N_D, N_D_end of sample and quasimc_merge), the period they use; the period of run from Run_model |
| Options_model | which options of components are saved and restored (constructors of morphology, scaling, projectile and surfaces reduced to where they store their options); not modelled: the YAML file itself, component objects passed again at resumption |
| Objects_model | `Crater.__getattr__/__setattr__/__dir__` (crater/__init__.py:462-511), `MorphologyCrater.as_dict` (morphology/__init__.py:195-215), `Surface.__getattr__` (surface/__init__.py:193-207). Setters of the variable part are an argument; of the special names only `__setstate__` is asked for. |
| Plot_model | `LocalSurface.plot` and `Surface.plot` (surface/__init__.py:3335-3560, 839-905), `Counting.plot` and `save` (counting/__init__.py:449-498, 593-758), `Simulation.plot` (core/simulation.py:1025-1117): which saved or current data are drawn, in which file, with which layers and scale bar. Rasters, colours and projections are not modelled; the format of interval numbers is an argument. |
| Batch_model | counting/__init__.py: __init__ 69-96, reset 151-165, to_xarray 421-447, save 449-498; simulation.py: run 549-648 (lists, files and interval only), emplace 864-865, reset 1361-1370; base.py: read_saved_output (last interval); crater/__init__.py: from_xarray 1363-1383. A crater is its id; which craters are put on the surface and observed is an argument |
| Parts_model | simulation.py: __init__ 168-236, component setters 1451-1539; morphology/__init__.py: __init__ 387-434, counting 829-845, scaling; scaling/__init__.py 54-60, 111-162; the makers of target, projectile, production, surface and counting; counting/__init__.py: morphology 1574-1580. References only; names and errors are in other models |
| Tally_model | tally's loop and its keyword arguments, remove, the morphology setter (counting/__init__.py:229-240, 329-412, 1574-1586). Not modelled: what the three measurements compute (Measure_model, Fit_model), the tags (Tags_model), progress bars. |
| Table_model | reading of craters from hand-written tables (crater/__init__.py: from_file 1230-1257, from_csv_file 1260-1308, _convert_tuple_vars 1406-1444 in the inverse direction). Not modelled: the splitting of lines into fields, float() and int() of texts, the files of the other kinds. |
| Yaml_model | values in the configuration file (core/base.py: _convert_for_yaml 995-1013, _to_config 1016-1020; core/simulation.py: __setattr__ 286-297, the writing in to_config 1315-1321). Not modelled: the YAML syntax, keys that are not texts, setters that refuse or change a value beyond what [store] says, the configurations of components (Conf_model). |
| Paths_model | the directories of a simulation (core/base.py: _simdir_init 963-992, simdir 601-618, output_dir, export_dir and plot_dir 620-662, common_args 776-785). Not modelled: symbolic links, failures to make a directory. |
| Where_model | compute_distances, compute_bearings and compute_location_from_distance_bearing of surfaces and regions on pairs, sequences, arrays, dicts and structured data (components/surface/__init__.py, utils/general_utils.py). Not modelled: arrays of two dimensions of distances, unvalidated distances |
| Size_model | The kept sizes, areas, coordinates and edge lengths of a surface (surface/__init__.py 1363-1384, 1470-1778, 4149-4164) and the compiled edge distances; the areas and unit coordinates of the mesh are given. |
| Radial_model | The forms in which distances are passed to crater_profile, ejecta_profile, ejecta_distribution and ray_intensity (basicmoon.py 305-501) and the types of the compiled functions; the ray pattern for a seed is a parameter. |
| Near_model | find_nearest_face, find_nearest_node and the kept trees (surface/__init__.py 276-283, 548-608, 1839-1863); the query of a tree is a parameter assumed to find a nearest place. |
| Wkt_model | get_crs, crs of surfaces and of regions, assigning a target (surface/__init__.py 1470-1475, 1878-1951, 4320-4334); numbers are texts as written, and a system is the text it is made from, pyproj being outside the model. |
| Frame_model | Counting.to_geoseries (counting/__init__.py 937-961) and export_region_polygon (surface/__init__.py 3772-3814); the outline of one crater is a parameter, a file is its name, layer and table. |
| Flag_model | do_quasimc and its use in populate (simulation.py 795-812, 1857-1895), assigning quasimc_craters (production/__init__.py 1322-1329); a production model is present throughout, and the treatment of an assigned list is a parameter. |
| Units_model | N_conversion_factor, D_conversion_factor, their names and assignment, construction (production/__init__.py 67-83, 1350-1410), the time of a crater dated by an exact density (996-1016); csfd and age_from_D_N are parameters. |
| Csfd_model | counting/__init__.py R_to_CSFD for arrays (1632), csfd_geometric_saturation (1635-1656), csfd_equilibrium (1659-1681); the scalar loop is in Prod_model. Not modelled: the extra arguments passed to R, floating point rounding |
| Choice_model | production/__init__.py maker; neukum.py and powerlaw.py constructors and version setter; ComponentBase.maker; what the configuration keeps of a production function and how it is made again; morphology.production. Simplified: keywords version, generator_type, N1_coef and slope only; catalogue targets by name |
| Cleanup_model | cleanup (utils/general_utils.py:472-504, constants.py:8-17). Not modelled: empty directories, files that cannot be removed. |

### 4.4 What is not modelled

The drawing done by matplotlib, pyvista and geopandas, and the bytes of the files that they,
rasterio and xarray write (which files are written, and which variables, outlines, labels and
options they are given, is modelled where a row above says so); pyproj's reading of coordinate
systems; the meshes that jigsaw, trimesh and uxarray build from the points (the points themselves
are modelled); downloads of DEM tiles (datasurface.py) and kernels; the progress display;
realisticmoon.py; the ChaCha generator of the noise and the error function (both are parameters);
the PyO3 bindings beyond argument passing; float rounding; concurrency (the Rust loops only map
over independent elements); the content of NetCDF and CSV files beyond what the models describe.

## 5. Print Assumptions

Generated by `tools/assumptions.py`.  F = ClassicalDedekindReals.sig_forall_dec, N =
ClassicalDedekindReals.sig_not_dec, E = functional_extensionality_dep, C = Classical_Prop.classic, all from
the standard library; - means closed under the global context.

| theorem | file | axioms |
|---|---|---|
| C01_idempotent_refuted | Coords_props.v | - |
| C01_latitude_in_range | Coords_props.v | - |
| C01_longitude_range_iff | Coords_props.v | - |
| C01_longitude_range_refuted | Coords_props.v | - |
| C01_normalised_partial | Coords_props.v | E F N |
| C01_same_point_partial | Coords_props.v | E F N |
| C01_same_point_refuted | Coords_props.v | E F N |
| C02_assigning_no_generator | Base_props.v | - |
| C02_assigning_state_refuted | Base_props.v | - |
| C02_components_share_generator | Base_props.v | - |
| C02_generator_as_is | Base_props.v | - |
| C02_invalid_rejected | Base_props.v | - |
| C02_seed_and_state_refuted | Base_props.v | - |
| C02_seed_reproducible | Base_props.v | - |
| C02_state_alone_partial | Base_props.v | - |
| C03_by_name | Base_props.v | - |
| C03_default | Base_props.v | - |
| C03_dispatch | Base_props.v | - |
| C03_isolation | Base_props.v | - |
| C04_catalogue_restored_refuted | Conf_props.v | - |
| C04_precedence | Conf_props.v | - |
| C04_rejected_keyword | Conf_props.v | - |
| C05_only_user_values_refuted | Conf_props.v | - |
| C05_rebuild_partial | Conf_props.v | - |
| C05_rebuild_refuted | Conf_props.v | - |
| C05_saved_parameters | Conf_props.v | - |
| C06_million_refuted | Files_props.v | - |
| C06_nothing_saved | Files_props.v | - |
| C06_read_partial | Files_props.v | - |
| C06_read_same_width_partial | Files_props.v | - |
| C06_saved_intervals | Files_props.v | - |
| C07_accepted | Base_props.v | - |
| C07_failure_partial | Base_props.v | - |
| C07_first_refusal_partial | Base_props.v | - |
| C07_preference_partial | Base_props.v | - |
| C07_preference_refuted | Base_props.v | - |
| C07_refusal_refuted | Base_props.v | - |
| C07_success_removes_exactly | Base_props.v | - |
| C08_atomic_partial | Base_props.v | - |
| C08_error_kind_partial | Base_props.v | - |
| C08_error_kind_refuted | Base_props.v | - |
| C08_history_partial | Base_props.v | - |
| C08_save_runs_in_order | Base_props.v | - |
| C08_shared_list_refuted | Base_props.v | - |
| C09_resume_partial | Run_props.v | E F |
| C09_resume_refuted | Run_props.v | E F |
| C09_run_covers_period | Run_props.v | E F |
| C09_time_runs_complete | Run_props.v | E F |
| C10_bookkeeping_partial | Run_props.v | E F |
| C10_elapsed_refuted | Run_props.v | E F |
| C10_rerun_partial | Run_props.v | E F |
| C10_rerun_refuted | Run_props.v | E F |
| C10_saved_states | Run_props.v | E F |
| C11_accepted_iff | Run_props.v | E F |
| C11_density_with_time_interval | Run_props.v | E F |
| C11_ignored_density_refuted | Run_props.v | E F |
| C11_rejected_without_effect | Run_props.v | E F |
| C11_start_too_late | Run_props.v | E F |
| C11_zero_length_refuted | Run_props.v | E F |
| C12_each_user_crater_once_per_run | Times_props.v | E F |
| C12_merge_exactly_once | Times_props.v | E F |
| C13_times_in_window | Times_props.v | E F |
| C14_age_inverse | Prod_props.v | C E F N |
| C14_chronology_laws | Prod_props.v | C E F N |
| C14_diameter_inverse | Prod_props.v | C E F N |
| C14_good_for_runs | Prod_props.v | C E F N |
| C14_number_laws | Prod_props.v | C E F N |
| C15_coefficients_partial | Prod_props.v | C E F N |
| C15_frozen_partial | Prod_props.v | C E F N |
| C15_stale_refuted | Prod_props.v | C E F N |
| C16_chronology_refuted | Prod_props.v | C E F N |
| C16_constructor | Prod_props.v | E F |
| C16_powerlaw_laws | Prod_props.v | C E F N |
| C16_slope_setter_refuted | Prod_props.v | C E F N |
| C17_final_larger | Scaling_props.v | C E F N |
| C17_final_round_trip | Scaling_props.v | C E F N |
| C17_increasing | Scaling_props.v | C E F N |
| C17_solver_domain | Scaling_props.v | C E F N |
| C17_solver_window | Scaling_props.v | C E F N |
| C17_transient_round_trip | Scaling_props.v | C E F N |
| C17_type_round_trip_refuted | Scaling_props.v | C E F N |
| C18_invalid_diameter | Scaling_props.v | E F |
| C18_morphology_law | Scaling_props.v | C E F N |
| C18_reported_type_refuted | Scaling_props.v | C E F N |
| C19_construction | Conf_props.v | - |
| C19_derived | Conf_props.v | E F N |
| C19_last_assignment | Conf_props.v | - |
| C19_sound | Conf_props.v | - |
| C20_default_target | Conf_props.v | - |
| C20_density_exact_partial | Conf_props.v | - |
| C20_named_target_parameters | Conf_props.v | - |
| C20_named_target_refuted | Conf_props.v | - |
| C20_user_density_refuted | Conf_props.v | - |
| C21_by_area | Random_props.v | E F N |
| C21_inside_face | Random_props.v | E F N |
| C22_above_largest_refuted | Random_props.v | C E F N |
| C22_distribution | Random_props.v | C E F N |
| C22_flat_table_refuted | Random_props.v | C E F N |
| C22_log_inverse | Random_props.v | C E F N |
| C22_range_partial | Random_props.v | C E F N |
| C22_total | Random_props.v | C E F N |
| C23_angle | Random_props.v | C E F N |
| C23_fast | Random_props.v | E F N |
| C23_loop_refuted | Random_props.v | E F N |
| C23_slow | Random_props.v | E F N |
| C24_fixed_assignment_rejected_partial | Crater_props.v | E F |
| C24_fixed_attributes_never_change_partial | Crater_props.v | E F |
| C24_subclass_attribute_not_rejected_refuted | Crater_props.v | E F N |
| C25_axes_ordered_after_any_assignments | Crater_props.v | E F |
| C25_failed_assignment_has_no_effect | Crater_props.v | E F |
| C25_made_craters_have_ordered_axes | Crater_props.v | C E F N |
| C25_nonpositive_rejected | Crater_props.v | E F |
| C25_radius_axes_partial | Crater_props.v | E F |
| C25_radius_reads_back_partial | Crater_props.v | E F N |
| C25_smaller_radius_lost_refuted | Crater_props.v | E F N |
| C26_cleared_measurement_reset_refuted | Crater_props.v | C E F N |
| C26_copy_preserves_everything_partial | Crater_props.v | C E F N |
| C26_half_cleared_copy_fails_refuted | Crater_props.v | C E F N |
| C26_measured_radius_mixed_refuted | Crater_props.v | C E F N |
| C26_name_lost_on_copy_refuted | Crater_props.v | C E F N |
| C26_plain_arguments_override_partial | Crater_props.v | C E F N |
| C26_shrinking_copy_measured_refuted | Crater_props.v | C E F N |
| C26_vertical_velocity_erases_velocity_refuted | Crater_props.v | C E F N |
| C27_missing_measured_location_refuted | Columns_props.v | - |
| C27_tuple_columns_round_trip_partial | Columns_props.v | F |
| C28_formed_once_in_order | Queue_props.v | - |
| C28_terminates | Queue_props.v | - |
| C29_batch | Queue_props.v | - |
| C30_failure_partial | Queue_props.v | - |
| C30_no_repeat_refuted | Queue_props.v | - |
| C30_singleton_batches_partial | Queue_props.v | - |
| C31_blanket_sign | Ejecta_props.v | E F |
| C31_crater_conserves_volume | Ejecta_props.v | C E F N |
| C31_crater_returns | Ejecta_props.v | C E F N |
| C31_ejecta_balances_excavation | Ejecta_props.v | E F |
| C31_thickness_nonnegative_refuted | Ejecta_props.v | E F |
| C31_zero_volume_refuted | Ejecta_props.v | E F |
| C32_exterior_falls | Profile_props.v | C E F N |
| C32_exterior_raised | Profile_props.v | C E F N |
| C32_exterior_raised_refuted | Profile_props.v | C E F N |
| C32_floor | Profile_props.v | C E F N |
| C32_lunar_shapes_admissible | Profile_props.v | C E F N |
| C32_never_below_floor | Profile_props.v | C E F N |
| C32_profile_defined | Profile_props.v | C E F N |
| C32_rim_continuous | Profile_props.v | C E F N |
| C32_wall_rises | Profile_props.v | C E F N |
| C33_ejecta_profile | Profile_props.v | C E F N |
| C34_api_conserves_volume | Mesh_props.v | E F |
| C34_api_rejects_iff | Mesh_props.v | E F |
| C34_diffusion_conserves_volume | Mesh_props.v | E F |
| C35_flat_unchanged | Mesh_props.v | E F |
| C35_is_finite_volume_scheme | Mesh_props.v | E F |
| C35_no_new_extrema | Mesh_props.v | E F |
| C35_relief_decreases | Mesh_props.v | E F |
| C36_gentle_surface_unchanged | Mesh_props.v | C E F N |
| C36_other_angles | Mesh_props.v | C E F N |
| C36_slope_collapse | Mesh_props.v | C E F N |
| C37_isolated_node | Mesh_props.v | E F |
| C37_node_between_faces | Mesh_props.v | E F |
| C37_node_is_weighted_mean | Mesh_props.v | E F |
| C38_distance_is_angle | Geo_props.v | C E F N |
| C38_distance_is_metric | Geo_props.v | C E F N |
| C38_whole_turns | Geo_props.v | C E F N |
| C39_destination_distance | Geo_props.v | C E F N |
| C40_add_tag_partial | Tags_props.v | - |
| C40_full_face | Tags_props.v | - |
| C40_keeps_other_tags_refuted | Tags_props.v | - |
| C40_remove_tag | Tags_props.v | - |
| C41_observed_recorded_partial | Tags_props.v | - |
| C41_observed_recorded_refuted | Tags_props.v | - |
| C41_tally | Tags_props.v | - |
| C42_cuts_the_interior | Tags_props.v | - |
| C42_removes_only_smaller_and_gone | Tags_props.v | - |
| C43_fixed_centre_circle_exists | Fit_props.v | E F N |
| C43_fixed_centre_circle_is_best | Fit_props.v | E F N |
| C44_negative_orientation_refuted | Fit_props.v | C E F N |
| C44_orientation_a_quarter_turn_off_refuted | Fit_props.v | C E F N |
| C44_other_conics_rejected | Fit_props.v | C E F N |
| C44_parameters_describe_conic_partial | Fit_props.v | C E F N |
| C45_local_indices | Region_props.v | - |
| C45_no_region | Region_props.v | E F N |
| C45_region_contents | Region_props.v | E F N |
| C45_whole_surface | Region_props.v | E F N |
| C46_face_and_node_array | Region_props.v | E F |
| C46_face_array | Region_props.v | E F |
| C46_node_array | Region_props.v | E F |
| C46_other_sizes_refused | Region_props.v | E F |
| C46_single_number | Region_props.v | E F |
| C47_noise_adds_no_volume | Region_props.v | E F |
| C47_reported_volume | Region_props.v | F |
| C48_equal_areas_refuted | Region_props.v | C E F N |
| C48_faces_partitioned_partial | Region_props.v | C E F N |
| C48_power_of_two_refuted | Region_props.v | C E F N |
| C49_full_coverage_refuted | Queue_props.v | - |
| C49_no_double_degradation_partial | Queue_props.v | - |
| C50_extent_bounds | Profile_props.v | C E F N |
| C50_extent_separates | Profile_props.v | C E F N |
| C50_truncation_refuted | Profile_props.v | C E F N |
| C51_bearing_meaning | Geo_props.v | C E F N |
| C51_bearing_round_trip | Geo_props.v | C E F N |
| C51_location_round_trip | Geo_props.v | C E F N |
| C52_csv_reload_always_fails_refuted | Crater_props.v | C E F N |
| C52_integer_time_changes_id_refuted | Crater_props.v | C E F N |
| C52_saved_craters_read_back_partial | Crater_props.v | C E F N |
| C53_old_ejecta_inside_erased | Ejecta_props.v | C E F N |
| C53_subpixel_crater_ignored | Ejecta_props.v | C E F N |
| C54_constant_rate_partial | Times_props.v | E F |
| C54_constant_rate_refuted | Times_props.v | E F |
| C54_oldest_part_refuted | Times_props.v | E F |
| C54_share_partial | Times_props.v | E F |
| C54_time_in_chosen | Times_props.v | E F |
| C55_normalisation_partial | Prod_props.v | C E F N |
| C55_normalisation_refuted | Prod_props.v | C E F N |
| C56_continuous | Prod_props.v | C E F N |
| C56_decreasing | Prod_props.v | C E F N |
| C56_defined | Prod_props.v | C E F N |
| C56_deterministic | Prod_props.v | C E F N |
| C56_positive | Prod_props.v | C E F N |
| C56_zero_endless_refuted | Prod_props.v | C E F N |
| C57_kink_refuted | Prod_props.v | C E F N |
| C57_slope_below_partial | Prod_props.v | C E F N |
| C58_projectile_increasing | Scaling_props.v | C E F N |
| C58_projectile_inverse | Scaling_props.v | C E F N |
| C58_projectile_round_trip | Scaling_props.v | C E F N |
| C59_explicit_target_refuted | Conf_props.v | - |
| C60_bounded | Random_props.v | E F |
| C60_direction | Random_props.v | E F |
| C60_uniform | Random_props.v | C E F N |
| C61_cancelling_weights_refuted | Fit_props.v | E F N |
| C61_circle_exists_partial | Fit_props.v | E F N |
| C61_circle_fit_is_best | Fit_props.v | E F N |
| C61_circle_is_recovered | Fit_props.v | E F N |
| C61_circle_misfit | Fit_props.v | E F N |
| C62_ellipse_fit_is_best | Fit_props.v | E F N |
| C62_ellipse_points_are_on_the_fit | Fit_props.v | E F N |
| C62_fit_is_an_ellipse | Fit_props.v | C E F N |
| C62_fixed_centre_ellipse_is_best | Fit_props.v | E F N |
| C62_line_is_rejected | Fit_props.v | C E F N |
| C63_distance_to_fitted_rim_partial | Fit_props.v | C E F N |
| C63_fitted_point_off_the_rim_refuted | Fit_props.v | C E F N |
| C63_misfit_distance_not_zero_refuted | Fit_props.v | C E F N |
| C63_rim_distance_is_radial | Fit_props.v | C E F N |
| C63_rim_distance_sign | Fit_props.v | C E F N |
| C64_change_is_height_over_radius_partial | Region_props.v | E F |
| C64_kilometre_gives_less_than_a_millimetre_refuted | Region_props.v | E F |
| C65_subregion_faces_and_edges_partial | Region_props.v | E F N |
| C65_subregion_lacks_nodes_refuted | Region_props.v | E F N |
| C66_border_node_moved_refuted | Region_props.v | E F |
| C66_nodes_follow_faces_partial | Region_props.v | E F |
| C67_equal_counts_wrong_nodes_refuted | Region_props.v | E F |
| C68_depth_is_current | Measure_props.v | E F |
| C68_floor_depth_is_mean_partial | Measure_props.v | E F |
| C68_nan_elevation_refuted | Measure_props.v | E F |
| C68_raising_the_region | Measure_props.v | E F |
| C68_rim_height_is_mean_partial | Measure_props.v | E F |
| C68_rim_height_is_stale_refuted | Measure_props.v | E F |
| C69_counted_by_relative_depth | Measure_props.v | C E F N |
| C69_deeper_is_less_degraded | Measure_props.v | C E F N |
| C69_original_depth | Measure_props.v | C E F N |
| C69_unresolved_is_dropped | Measure_props.v | C E F N |
| C70_enough_faces_partial | Measure_props.v | E F |
| C70_flat_region_refuted | Measure_props.v | E F |
| C70_quantile_keeps | Measure_props.v | E F |
| C70_quantile_not_numpy_refuted | Measure_props.v | E F |
| C70_raising_the_region_partial | Measure_props.v | E F |
| C70_scores_in_unit | Measure_props.v | E F |
| C71_converged_or_exhausted | Measure_props.v | E F N |
| C71_fit_is_recorded_partial | Measure_props.v | E F N |
| C71_loop_bound | Measure_props.v | E F N |
| C71_region_not_enlarged_refuted | Measure_props.v | E F N |
| C71_smaller_rim_refuted | Measure_props.v | E F N |
| C72_diameter_range | Quasi_props.v | E F N |
| C72_negative_time_refuted | Quasi_props.v | E F N |
| C72_nonnegative_partial | Quasi_props.v | E F N |
| C72_once_oldest_first | Quasi_props.v | E F N |
| C72_range_not_restored_refuted | Quasi_props.v | E F N |
| C72_untagged_succeeds | Quasi_props.v | E F N |
| C72_untagged_time | Quasi_props.v | E F N |
| C73_dates_in_order | Quasi_props.v | E F N |
| C73_exact_in_order | Quasi_props.v | E F N |
| C73_exact_moved_refuted | Quasi_props.v | E F N |
| C73_exact_number_kept_partial | Quasi_props.v | E F N |
| C73_exact_time_kept_partial | Quasi_props.v | E F N |
| C73_last_sequence_refuted | Quasi_props.v | E F N |
| C73_order_partial | Quasi_props.v | E F N |
| C73_two_sequences | Quasi_props.v | E F N |
| C73_undated_between | Quasi_props.v | E F N |
| C73_zero_division_refuted | Quasi_props.v | E F N |
| C74_crater_limits_read_back | Limits_props.v | E F |
| C74_crossed_refuted | Limits_props.v | E F |
| C74_largest_projectile_refuted | Limits_props.v | E F |
| C74_projectile_limits_partial | Limits_props.v | E F |
| C74_resumed_limits_refuted | Limits_props.v | E F |
| C74_smallest_projectile_refuted | Limits_props.v | E F |
| C74_within_surface | Limits_props.v | E F |
| C75_latitudes_enclose | Dem_props.v | C E F N |
| C75_latitudes_reached | Dem_props.v | C E F N |
| C75_longitudes_partial | Dem_props.v | C E F N |
| C75_longitudes_refuted | Dem_props.v | C E F N |
| C75_right_longitudes | Dem_props.v | C E F N |
| C76_across_60_refuted | Dem_props.v | C E F N |
| C76_closest_polar | Dem_props.v | E F |
| C76_closest_resolution | Dem_props.v | E F |
| C76_covered_partial | Dem_props.v | E F N |
| C76_finest_refuted | Dem_props.v | C E F N |
| C76_tile | Dem_props.v | E F |
| C76_turned_tile_refuted | Dem_props.v | C E F N |
| C76_wide_refuted | Dem_props.v | C E F N |
| C77_grows_with_size | Degrade_props.v | C E F N |
| C77_region_size | Degrade_props.v | C E F N |
| C77_small_craters_refuted | Degrade_props.v | C E F N |
| C78_amounts | Degrade_props.v | C E F N |
| C78_applied_once | Degrade_props.v | C E F N |
| C78_backward_refused | Degrade_props.v | C E F N |
| C78_nothing_left | Degrade_props.v | C E F N |
| C78_other_surface_refuted | Degrade_props.v | C E F N |
| C78_survives_reset_refuted | Degrade_props.v | C E F N |
| C78_waiting_below_area | Degrade_props.v | C E F N |
| C79_antipode_refuted | Hires_props.v | C E F N |
| C79_automatic | Hires_props.v | C E F N |
| C79_automatic_factor_refuted | Hires_props.v | C E F N |
| C79_new_factor_refuted | Hires_props.v | C E F N |
| C79_sizes | Hires_props.v | C E F N |
| C79_wide_refuted | Hires_props.v | C E F N |
| C80_endless_refuted | Hires_props.v | C E F N |
| C80_ends | Hires_props.v | C E F N |
| C80_gap_refuted | Hires_props.v | C E F N |
| C80_local_points | Hires_props.v | C E F N |
| C80_ring_points | Hires_props.v | C E F N |
| C80_rings | Hires_props.v | C E F N |
| C80_rotation | Hires_props.v | C E F N |
| C80_south_pole_refuted | Hires_props.v | C E F N |
| C81_across | Ray_props.v | C E F N |
| C81_all_far_refuted | Ray_props.v | C E F N |
| C81_alone_refuted | Ray_props.v | C E F N |
| C81_far | Ray_props.v | C E F N |
| C81_grids_refuted | Ray_props.v | C E F N |
| C81_lengths | Ray_props.v | C E F N |
| C81_lists_refuted | Ray_props.v | C E F N |
| C81_near_rim | Ray_props.v | C E F N |
| C81_proportions | Ray_props.v | C E F N |
| C81_range_partial | Ray_props.v | C E F N |
| C81_ray_count_refuted | Ray_props.v | C E F N |
| C81_shapes | Ray_props.v | C E F N |
| C81_thickness | Ray_props.v | C E F N |
| C81_turns | Ray_props.v | C E F N |
| C82_argument_refuted | Compose_props.v | - |
| C82_farthest_refuted | Compose_props.v | E F N |
| C82_once | Compose_props.v | E F N |
| C82_values | Compose_props.v | E F N |
| C82_with_applies | Compose_props.v | E F N |
| C82_with_leaks_refuted | Compose_props.v | E F N |
| C82_with_raises | Compose_props.v | E F N |
| C82_with_returns | Compose_props.v | E F N |
| C83_counters_stay | Restart_props.v | E F |
| C83_crash_partial | Restart_props.v | E F |
| C83_crash_repeats_refuted | Restart_props.v | E F |
| C83_crash_skips_refuted | Restart_props.v | E F |
| C83_crash_unreadable_refuted | Restart_props.v | E F |
| C83_craters_partial | Restart_props.v | E F |
| C83_default_refuted | Restart_props.v | F |
| C83_first_session | Restart_props.v | E F |
| C83_lost_refuted | Restart_props.v | E F |
| C83_new | Restart_props.v | F |
| C83_no_craters_refuted | Restart_props.v | E F |
| C83_prompt | Restart_props.v | F |
| C83_reset_crash_refuted | Restart_props.v | F |
| C83_reset_starts | Restart_props.v | F |
| C83_resume | Restart_props.v | F |
| C83_resume_again_refuted | Restart_props.v | E F |
| C83_rng_refuted | Restart_props.v | F |
| C83_second_session | Restart_props.v | E F |
| C84_accepts | Proj_props.v | E F |
| C84_complete | Proj_props.v | E F |
| C84_copy_partial | Proj_props.v | F |
| C84_copy_refuted | Proj_props.v | E F |
| C84_default | Proj_props.v | E F |
| C84_defaults_refuted | Proj_props.v | E F |
| C84_density | Proj_props.v | E F |
| C84_fixed | Proj_props.v | E F |
| C84_given | Proj_props.v | E F |
| C84_mean | Proj_props.v | E F |
| C84_mean_ignored_refuted | Proj_props.v | E F |
| C84_object | Proj_props.v | - |
| C84_object_given | Proj_props.v | E F |
| C84_renewed | Proj_props.v | E F |
| C84_sampled | Proj_props.v | E F |
| C84_scaling_partial | Proj_props.v | E F |
| C84_scaling_refuted | Proj_props.v | E F |
| C84_target_refuted | Proj_props.v | E F |
| C84_vertical_partial | Proj_props.v | E F N |
| C84_vertical_refuted | Proj_props.v | E F N |
| C85_accepts | Arb_props.v | E F N |
| C85_apart | Arb_props.v | C E F N |
| C85_coarse_refuted | Arb_props.v | C E F N |
| C85_count | Arb_props.v | C E F N |
| C85_cover | Arb_props.v | C E F N |
| C85_default | Arb_props.v | C E F N |
| C85_makes | Arb_props.v | C E F N |
| C85_poles | Arb_props.v | C E F N |
| C85_sphere | Arb_props.v | C E F N |
| C86_area | Arb_props.v | C E F N |
| C86_halves | Arb_props.v | C E F N |
| C86_level | Arb_props.v | E F |
| C86_stale_refuted | Arb_props.v | C E F N |
| C87_bare_refuted | Store_props.v | F |
| C87_consistent_partial | Store_props.v | F |
| C87_crash_refuted | Store_props.v | F |
| C87_decline_partial | Store_props.v | F |
| C87_decline_refuted | Store_props.v | F |
| C87_exact | Store_props.v | F |
| C87_grid | Store_props.v | F |
| C87_identity | Store_props.v | - |
| C87_new | Store_props.v | F |
| C87_region_refuted | Store_props.v | F |
| C87_reset | Store_props.v | F |
| C87_reuse | Store_props.v | F |
| C87_save | Store_props.v | F |
| C88_desloped | Ref_props.v | E F N |
| C88_desloped_refuted | Ref_props.v | E F N |
| C88_far | Ref_props.v | E F N |
| C88_mean | Ref_props.v | E F N |
| C88_planar | Ref_props.v | E F N |
| C88_plane | Ref_props.v | E F N |
| C88_tilt | Ref_props.v | E F N |
| C88_unique | Ref_props.v | E F N |
| C89_defined | Ref_props.v | C E F N |
| C89_erased | Ref_props.v | C E F N |
| C89_floor | Ref_props.v | C E F N |
| C89_level | Ref_props.v | C E F N |
| C89_outside | Ref_props.v | C E F N |
| C89_slope_partial | Ref_props.v | C E F N |
| C89_slope_refuted | Ref_props.v | C E F N |
| C90_cleared_refuted | Export_props.v | C E F N |
| C90_complete_partial | Export_props.v | E F N |
| C90_datasets_refuted | Export_props.v | E F N |
| C90_default_refuted | Export_props.v | E F N |
| C90_emplaced | Export_props.v | E F N |
| C90_empty | Export_props.v | E F N |
| C90_lost_refuted | Export_props.v | C E F N |
| C90_stops_partial | Export_props.v | E F N |
| C90_table | Export_props.v | E F N |
| C91_fraction_refuted | Export_props.v | C E F N |
| C91_interval_refuted | Export_props.v | E F N |
| C91_lines | Export_props.v | E F N |
| C91_read_partial | Export_props.v | C E F N |
| C91_shape_refuted | Export_props.v | C E F N |
| C92_blank | Export_props.v | - |
| C92_both | Export_props.v | - |
| C92_files | Export_props.v | - |
| C92_grown_refuted | Export_props.v | E F N |
| C92_none | Export_props.v | - |
| C92_number_refuted | Export_props.v | - |
| C92_stops_partial | Export_props.v | - |
| C93_coarse_faces_refuted | Populate_props.v | C E F N |
| C93_craters_keyword_refuted | Populate_props.v | C E F N |
| C93_emplaced | Populate_props.v | C E F N |
| C93_face_share | Populate_props.v | E F |
| C93_fast_projectiles_refuted | Populate_props.v | E F N |
| C93_population | Populate_props.v | C E F N |
| C93_succeeds_partial | Populate_props.v | C E F N |
| C94_direct_ejecta | Emplace_props.v | - |
| C94_ejecta_volume_refuted | Emplace_props.v | - |
| C94_empty_list_refuted | Emplace_props.v | - |
| C94_listed_once_refuted | Emplace_props.v | - |
| C94_measure_rim_partial | Emplace_props.v | - |
| C94_measure_rim_refuted | Emplace_props.v | - |
| C94_own_ejecta | Emplace_props.v | - |
| C94_recovers_refuted | Emplace_props.v | - |
| C94_returned | Emplace_props.v | - |
| C94_returned_emplaced_refuted | Emplace_props.v | - |
| C94_session | Emplace_props.v | - |
| C94_succeeds | Emplace_props.v | - |
| C94_tallied | Emplace_props.v | - |
| C95_apart | Overlap_props.v | E F |
| C95_confined | Overlap_props.v | E F |
| C95_inside | Overlap_props.v | E F |
| C95_negative_refuted | Overlap_props.v | E F |
| C95_nodes_confined_partial | Overlap_props.v | E F |
| C95_overlap | Overlap_props.v | - |
| C95_overlap_edges | Overlap_props.v | - |
| C95_shared_border_refuted | Overlap_props.v | F |
| C95_surface_refuted | Overlap_props.v | E F |
| C95_tags | Overlap_props.v | - |
| C95_values | Overlap_props.v | E F |
| C95_whole_body_refuted | Overlap_props.v | - |
| C96_batch_apart_partial | Footprint_props.v | E F N |
| C96_batch_shares_refuted | Footprint_props.v | E F N |
| C96_before_the_mesh | Footprint_props.v | E F N |
| C96_covers_partial | Footprint_props.v | E F N |
| C96_emplaceable_fails_refuted | Footprint_props.v | C E F N |
| C96_lost_refuted | Footprint_props.v | E F N |
| C96_queue_view | Footprint_props.v | E F N |
| C96_replaced_surface_refuted | Footprint_props.v | E F N |
| C96_same_answers | Footprint_props.v | E F N |
| C96_smaller_than_face_refuted | Footprint_props.v | C E F N |
| C96_still_skipped_refuted | Footprint_props.v | E F N |
| C97_closed | Outline_props.v | E F N |
| C97_contiguous_partial | Outline_props.v | E F N |
| C97_far_part_height_refuted | Outline_props.v | E F N |
| C97_one_polygon | Outline_props.v | E F N |
| C97_pole_refuted | Outline_props.v | E F N |
| C97_prime_meridian_refuted | Outline_props.v | E F N |
| C97_vertices | Outline_props.v | E F N |
| C98_counted_back | Exports_props.v | - |
| C98_errors | Exports_props.v | - |
| C98_extensions | Exports_props.v | - |
| C98_geotiff | Exports_props.v | - |
| C98_geotiff_asks_refuted | Exports_props.v | - |
| C98_history_refuted | Exports_props.v | - |
| C98_kept_partial | Exports_props.v | - |
| C98_layer_name_refuted | Exports_props.v | - |
| C98_negative_refuted | Exports_props.v | - |
| C98_one_file | Exports_props.v | - |
| C98_one_interval_partial | Exports_props.v | - |
| C98_same_extension_refuted | Exports_props.v | - |
| C98_shapefile_refuted | Exports_props.v | - |
| C98_simulation_partial | Exports_props.v | - |
| C98_unknown_driver_refuted | Exports_props.v | - |
| C98_vector | Exports_props.v | - |
| C98_vtk | Exports_props.v | - |
| C98_vtk_counted_back_refuted | Exports_props.v | - |
| C99_antimeridian_refuted | Raster_props.v | - |
| C99_covers | Raster_props.v | E F |
| C99_region_partial | Raster_props.v | E F N |
| C99_region_size_refuted | Raster_props.v | E F N |
| C99_shared_pixel_refuted | Raster_props.v | E F N |
| C99_tiles | Raster_props.v | C E F N |
| C99_value | Raster_props.v | - |
| C99_whole | Raster_props.v | C E F N |
| C100_beyond_pole | Place_props.v | C E F N |
| C100_conflict | Place_props.v | C E F N |
| C100_moved_refuted | Place_props.v | C E F N |
| C100_no_reference | Place_props.v | C E F N |
| C100_place | Place_props.v | C E F N |
| C100_pole_refuted | Place_props.v | C E F N |
| C100_relative | Place_props.v | C E F N |
| C101_collapse_refuted | Slope_props.v | C E F N |
| C101_collapse_stands | Slope_props.v | C E F N |
| C101_compiled_slopes | Slope_props.v | C E F N |
| C101_compute_slope_refuted | Slope_props.v | - |
| C101_half | Slope_props.v | C E F N |
| C101_keywords | Slope_props.v | - |
| C101_local | Slope_props.v | C E F N |
| C101_mean_rise | Slope_props.v | C E F N |
| C101_never_above_rise | Slope_props.v | C E F N |
| C101_node_variable_refuted | Slope_props.v | C E F N |
| C101_plane_exact_only | Slope_props.v | C E F N |
| C101_plane_partial | Slope_props.v | C E F N |
| C101_radial_answers | Slope_props.v | C E F N |
| C101_radial_bound | Slope_props.v | C E F N |
| C101_radial_half | Slope_props.v | C E F N |
| C101_radial_mean | Slope_props.v | C E F N |
| C101_radial_refused | Slope_props.v | C E F N |
| C101_radial_sign_refuted | Slope_props.v | C E F N |
| C101_shift_scale | Slope_props.v | C E F N |
| C102_copy_is_standard | Lunar_props.v | C E F N |
| C102_copy_partial | Lunar_props.v | C E F N |
| C102_copy_refuted | Lunar_props.v | C E F N |
| C102_known_type | Lunar_props.v | C E F N |
| C102_makes | Lunar_props.v | C E F N |
| C102_measured_axes | Lunar_props.v | E F |
| C102_measured_none_refuted | Lunar_props.v | C E F N |
| C102_none_refuted | Lunar_props.v | C E F N |
| C102_one_standard | Lunar_props.v | C E F N |
| C102_scaling_keyword_refuted | Lunar_props.v | C E F N |
| C102_shape_partial | Lunar_props.v | C E F N |
| C102_type_keyword_refuted | Lunar_props.v | C E F N |
| C102_unchecked_refuted | Lunar_props.v | C E F N |
| C103_choices | Solid_props.v | - |
| C103_edges_refuted | Solid_props.v | - |
| C103_every_ring | Solid_props.v | E F N |
| C103_file_options_refuted | Solid_props.v | E F N |
| C103_flat | Solid_props.v | - |
| C103_height | Solid_props.v | E F N |
| C103_interval_partial | Solid_props.v | - |
| C103_interval_refuted | Solid_props.v | - |
| C103_measured_refuted | Solid_props.v | E F N |
| C103_mismatch | Solid_props.v | E F |
| C103_one_elevation | Solid_props.v | E F N |
| C103_plain_crater_refuted | Solid_props.v | E F N |
| C103_points_partial | Solid_props.v | E F N |
| C103_positions | Solid_props.v | E F N |
| C103_region_faces | Solid_props.v | E F |
| C103_ring_height_refuted | Solid_props.v | E F N |
| C103_rings | Solid_props.v | E F N |
| C103_styles | Solid_props.v | E F N |
| C103_variables_partial | Solid_props.v | - |
| C103_vertices | Solid_props.v | E F N |
| C104_arrays | Csfd_props.v | E F N |
| C104_beyond | Csfd_props.v | E F N |
| C104_bounds | Csfd_props.v | C E F N |
| C104_ends | Csfd_props.v | E F N |
| C104_equilibrium | Csfd_props.v | E F |
| C104_falling_partial | Csfd_props.v | E F N |
| C104_falling_refuted | Csfd_props.v | E F N |
| C104_integers_refuted | Csfd_props.v | E F |
| C104_last_bin | Csfd_props.v | E F N |
| C104_limit_refuted | Csfd_props.v | E F N |
| C104_linear | Csfd_props.v | E F N |
| C104_negative_refuted | Csfd_props.v | E F N |
| C104_power_law | Csfd_props.v | C E F N |
| C104_power_true | Csfd_props.v | C E F N |
| C104_saturation | Csfd_props.v | E F N |
| C104_sum | Csfd_props.v | E F N |
| C104_underestimates | Csfd_props.v | C E F N |
| C105_arguments | Datasurf_props.v | E F |
| C105_built | Datasurf_props.v | E F |
| C105_continued | Datasurf_props.v | - |
| C105_determined | Datasurf_props.v | E F |
| C105_flat | Datasurf_props.v | E F |
| C105_inside_partial | Datasurf_props.v | E F |
| C105_inside_refuted | Datasurf_props.v | E F |
| C105_later | Datasurf_props.v | E F |
| C105_mean_infinite | Datasurf_props.v | E F |
| C105_outside | Datasurf_props.v | E F |
| C105_outside_km_partial | Datasurf_props.v | E F |
| C105_outside_refuted | Datasurf_props.v | E F |
| C105_pixel_size | Datasurf_props.v | E F |
| C105_poles_refuted | Datasurf_props.v | E F N |
| C105_regrid | Datasurf_props.v | - |
| C105_reset | Datasurf_props.v | E F |
| C105_resized_refuted | Datasurf_props.v | E F |
| C105_retry_refuted | Datasurf_props.v | E F |
| C105_reused | Datasurf_props.v | E F |
| C105_single_file_refuted | Datasurf_props.v | E F |
| C105_units_partial | Datasurf_props.v | F |
| C105_units_refuted | Datasurf_props.v | F |
| C105_user_file_refuted | Datasurf_props.v | E F |
| C105_whole_partial | Datasurf_props.v | E F N |
| C106_always | Views_props.v | E F |
| C106_connectivity | Views_props.v | - |
| C106_dataset_edges_refuted | Views_props.v | F |
| C106_dataset_partial | Views_props.v | F |
| C106_edits_global | Views_props.v | E F |
| C106_edits_refuted | Views_props.v | E F |
| C106_kinds | Views_props.v | - |
| C106_mesh_edges_refuted | Views_props.v | E F N |
| C106_mesh_partial | Views_props.v | E F N |
| C106_missing | Views_props.v | F |
| C106_other_regions | Views_props.v | E F |
| C106_read_back | Views_props.v | E F |
| C106_reads | Views_props.v | F |
| C106_saved | Views_props.v | E F |
| C106_saved_empty | Views_props.v | F |
| C106_scalars | Views_props.v | F |
| C107_accurate | Format_props.v | C E F N |
| C107_carry_refuted | Format_props.v | C E F N |
| C107_digits | Format_props.v | C E F N |
| C107_monotone | Format_props.v | C E F N |
| C107_none | Format_props.v | C E F N |
| C107_sign | Format_props.v | C E F N |
| C107_unit | Format_props.v | C E F N |
| C107_unknown_refuted | Format_props.v | C E F N |
| C108_caption_refuted | Label_props.v | - |
| C108_default_diameter | Label_props.v | C E F N |
| C108_files | Label_props.v | - |
| C108_from_the_end | Label_props.v | C E F N |
| C108_from_the_end_read | Label_props.v | - |
| C108_from_the_end_refuted | Label_props.v | C E F N |
| C108_heading_refuted | Label_props.v | C E F N |
| C108_metres_refuted | Label_props.v | C E F N |
| C108_number | Label_props.v | C E F N |
| C108_open | Label_props.v | - |
| C108_open_at_end_refuted | Label_props.v | - |
| C108_parts | Label_props.v | C E F N |
| C108_saved | Label_props.v | C E F N |
| C108_shown_partial | Label_props.v | - |
| C108_shown_refuted | Label_props.v | - |
| C108_summary_partial | Label_props.v | E F |
| C108_summary_refuted | Label_props.v | E F |
| C108_unsaved | Label_props.v | C E F N |
| C108_walk | Label_props.v | - |
| C109_age_and_start_refuted | Nd_props.v | E F |
| C109_conflicts | Nd_props.v | E F |
| C109_default_refuted | Nd_props.v | C E F N |
| C109_members | Nd_props.v | E F |
| C109_run | Nd_props.v | E F |
| C109_sample_partial | Nd_props.v | E F |
| C109_sample_refuted | Nd_props.v | E F |
| C109_times | Nd_props.v | E F |
| C109_unreachable | Nd_props.v | E F |
| C110_assigned | Choice_props.v | - |
| C110_assigned_refuted | Choice_props.v | E F |
| C110_bodies | Choice_props.v | E F |
| C110_default_partial | Choice_props.v | E F |
| C110_default_refuted | Choice_props.v | E F |
| C110_generator | Choice_props.v | E F |
| C110_morphology_refuted | Choice_props.v | E F |
| C110_named | Choice_props.v | E F |
| C110_object | Choice_props.v | E F |
| C110_other_bodies_refuted | Choice_props.v | E F |
| C110_power | Choice_props.v | E F |
| C110_resumed_partial | Choice_props.v | E F |
| C110_resumed_refuted | Choice_props.v | E F |
| C110_settles | Choice_props.v | E F |
| C110_simulation | Choice_props.v | E F |
| C110_unknown | Choice_props.v | E F |
| C110_unknown_version_refuted | Choice_props.v | E F |
| C110_version_alone_refuted | Choice_props.v | E F |
| C110_version_partial | Choice_props.v | E F |
| C110_version_refuted | Choice_props.v | E F |
| C111_counting | Options_props.v | - |
| C111_counting_refuted | Options_props.v | - |
| C111_density_refuted | Options_props.v | - |
| C111_generic_refuted | Options_props.v | E F |
| C111_given_refuted | Options_props.v | - |
| C111_kept | Options_props.v | - |
| C111_once_partial | Options_props.v | - |
| C111_projectile_partial | Options_props.v | E F |
| C111_scaling | Options_props.v | - |
| C111_twice_refuted | Options_props.v | - |
| C111_uncatalogued_refuted | Options_props.v | E F |
| C111_unresumed_partial | Options_props.v | - |
| C112_added_partial | Objects_props.v | - |
| C112_added_refuted | Objects_props.v | - |
| C112_as_dict | Objects_props.v | - |
| C112_as_dict_refuted | Objects_props.v | - |
| C112_assign | Objects_props.v | - |
| C112_copy_refuted | Objects_props.v | - |
| C112_dir_refuted | Objects_props.v | - |
| C112_on_demand | Objects_props.v | - |
| C112_own_fields | Objects_props.v | - |
| C112_reads | Objects_props.v | - |
| C112_surface_copy_refuted | Objects_props.v | - |
| C112_surface_reads | Objects_props.v | - |
| C112_unknown_assign_refuted | Objects_props.v | - |
| C112_unloaded_refuted | Objects_props.v | - |
| C113_close_refuted | Plot_props.v | - |
| C113_counting_files_refuted | Plot_props.v | E F |
| C113_crater_plot_partial | Plot_props.v | E F |
| C113_craters_partial | Plot_props.v | - |
| C113_current | Plot_props.v | E F |
| C113_earlier_craters_refuted | Plot_props.v | - |
| C113_filename_refuted | Plot_props.v | E F |
| C113_files_partial | Plot_props.v | - |
| C113_last_refuted | Plot_props.v | - |
| C113_layers | Plot_props.v | E F |
| C113_linewidth_refuted | Plot_props.v | E F |
| C113_no_minimum_refuted | Plot_props.v | E F |
| C113_other_style_refuted | Plot_props.v | E F |
| C113_save | Plot_props.v | - |
| C113_saved_files_partial | Plot_props.v | E F |
| C113_saved_partial | Plot_props.v | - |
| C113_scale | Plot_props.v | E F N |
| C113_scale_refuted | Plot_props.v | E F N |
| C113_stale_craters_refuted | Plot_props.v | E F |
| C113_styles | Plot_props.v | E F |
| C113_unsaved | Plot_props.v | - |
| C114_before_run_refuted | Batch_props.v | - |
| C114_nothing_invented | Batch_props.v | - |
| C114_one_interval | Batch_props.v | - |
| C114_order_refuted | Batch_props.v | - |
| C114_read | Batch_props.v | - |
| C114_resume_partial | Batch_props.v | - |
| C114_run | Batch_props.v | - |
| C114_run_end | Batch_props.v | - |
| C114_run_others | Batch_props.v | - |
| C114_save_refuted | Batch_props.v | - |
| C114_twice_refuted | Batch_props.v | - |
| C114_unseen_refuted | Batch_props.v | - |
| C115_alone_partial | Parts_props.v | - |
| C115_alone_refuted | Parts_props.v | - |
| C115_assign_effects_refuted | Parts_props.v | - |
| C115_assign_refuted | Parts_props.v | - |
| C115_counting_refuted | Parts_props.v | - |
| C115_do_counting | Parts_props.v | - |
| C115_effects | Parts_props.v | - |
| C115_given_exact | Parts_props.v | - |
| C115_given_refuted | Parts_props.v | - |
| C115_new | Parts_props.v | - |
| C115_production_refuted | Parts_props.v | - |
| C115_scaling_refuted | Parts_props.v | - |
| C115_separate | Parts_props.v | - |
| C115_switch_refuted | Parts_props.v | - |
| C116_alike | Tally_props.v | E F |
| C116_calls_partial | Tally_props.v | E F |
| C116_clash | Tally_props.v | E F |
| C116_morphology | Tally_props.v | - |
| C116_options_refuted | Tally_props.v | E F |
| C116_raised | Tally_props.v | E F |
| C116_results | Tally_props.v | E F |
| C116_shared_refuted | Tally_props.v | E F |
| C117_blank | Table_props.v | F |
| C117_file_refuted | Table_props.v | F |
| C117_location_column_refuted | Table_props.v | F |
| C117_location_refuted | Table_props.v | F |
| C117_name_refuted | Table_props.v | F |
| C117_row_partial | Table_props.v | F |
| C117_table | Table_props.v | F |
| C117_table_fails | Table_props.v | F |
| C117_too_long_refuted | Table_props.v | F |
| C118_assigned | Yaml_props.v | - |
| C118_lost_refuted | Yaml_props.v | - |
| C118_none_refuted | Yaml_props.v | - |
| C118_numpy_text_refuted | Yaml_props.v | - |
| C118_read_back | Yaml_props.v | - |
| C118_stable | Yaml_props.v | - |
| C118_text_refuted | Yaml_props.v | - |
| C118_value_partial | Yaml_props.v | - |
| C119_components | Paths_props.v | - |
| C119_made_refuted | Paths_props.v | - |
| C119_moved_refuted | Paths_props.v | - |
| C119_path_object_refuted | Paths_props.v | - |
| C119_place_partial | Paths_props.v | - |
| C119_resumed | Paths_props.v | - |
| C119_type_refuted | Paths_props.v | - |
| C120_clash_refuted | Cleanup_props.v | - |
| C120_exports_refuted | Cleanup_props.v | - |
| C120_foreign_refuted | Cleanup_props.v | - |
| C120_outside | Cleanup_props.v | - |
| C120_removed | Cleanup_props.v | - |
| C120_state_gone | Cleanup_props.v | - |
| C121_bearings_partial | Where_props.v | C E F N |
| C121_dict_refuted | Where_props.v | C E F N |
| C121_distances_partial | Where_props.v | C E F N |
| C121_empty_refuted | Where_props.v | C E F N |
| C121_locations | Where_props.v | C E F N |
| C121_malformed | Where_props.v | C E F N |
| C121_reference | Where_props.v | C E F N |
| C121_round_trip_refuted | Where_props.v | C E F N |
| C121_structured_refuted | Where_props.v | C E F N |
| C121_two_refuted | Where_props.v | C E F N |
| C121_unequal | Where_props.v | C E F N |
| C122_answers | Size_props.v | C E F N |
| C122_no_effect | Size_props.v | C E F N |
| C122_region | Size_props.v | C E F N |
| C122_regrid_refuted | Size_props.v | C E F N |
| C122_statistics | Size_props.v | C E F N |
| C122_target_refuted | Size_props.v | C E F N |
| C123_crater_partial | Radial_props.v | C E F N |
| C123_crater_refuted | Radial_props.v | C E F N |
| C123_distribution_partial | Radial_props.v | C E F N |
| C123_distribution_refuted | Radial_props.v | C E F N |
| C123_ejecta | Radial_props.v | C E F N |
| C123_intensity | Radial_props.v | E F N |
| C123_ragged | Radial_props.v | C E F N |
| C124_itself | Near_props.v | C E F N |
| C124_nearest_partial | Near_props.v | C E F N |
| C124_regrid_refuted | Near_props.v | C E F N |
| C124_several_refuted | Near_props.v | E F |
| C125_assigned_before | Wkt_props.v | - |
| C125_global_partial | Wkt_props.v | - |
| C125_global_refuted | Wkt_props.v | - |
| C125_kept | Wkt_props.v | - |
| C125_local_partial | Wkt_props.v | - |
| C125_local_refuted | Wkt_props.v | - |
| C125_target_refuted | Wkt_props.v | - |
| C126_first_failure | Frame_props.v | - |
| C126_none_refuted | Frame_props.v | - |
| C126_region_refuted | Frame_props.v | - |
| C126_series_partial | Frame_props.v | - |
| C126_unknown_format | Frame_props.v | - |
| C126_whole_surface | Frame_props.v | - |
| C127_before_partial | Flag_props.v | E F |
| C127_first_question | Flag_props.v | E F |
| C127_given | Flag_props.v | E F |
| C127_late_refuted | Flag_props.v | E F |
| C127_list_kept | Flag_props.v | E F |
| C127_none_refuted | Flag_props.v | E F |
| C127_switched | Flag_props.v | E F |
| C128_assigned | Units_props.v | E F |
| C128_construct_refuted | Units_props.v | E F |
| C128_later_partial | Units_props.v | E F |
| C128_metres_refuted | Units_props.v | E F |
| C128_units | Units_props.v | E F |

## 6. Findings

Each `_refuted` theorem is a place where the code does not do what its documentation or
its users expect.  The text is the comment above the theorem.  Generated.

* `C85_coarse_refuted`: C85 is refuted for coarse meshes: the setter accepts every positive pixel size, but a pixel larger than the whole surface makes the generation of the mesh fail with a TypeError (there are no points, and the poles are assigned to columns of None), and a pixel larger than half of the surface makes it fail with a ValueError (numpy.unique is applied to the three rows of x, y and z coordinates: the rows of y and z are both zero, and one of them is dropped).
* `C86_stale_refuted`: C86 is refuted once the pixel size has been read: it is a cached property that changing the level does not clear, so a surface of level 4 whose level is set to 5 still reports the pixel size of level 4.
* `C02_seed_and_state_refuted`: C02 (refuted, precedence of the state): with both a seed and a state, however valid, initialisation always raises a ValueError, although the state is documented to take precedence.
* `C02_assigning_state_refuted`: C02 (refuted, assigning a state): no sequence of assignments to rng_state and rng_seed ever changes the generator of an object or the state of any generator, so an object does not continue from a state assigned to it.
* `C07_refusal_refuted`: C07 (refuted, declining): files accepted before a refusal are already deleted when the operation is cancelled.
* `C07_preference_refuted`: C07 (refuted, preference): after a failed export with ask_overwrite=False, prompts stay disabled.
* `C08_error_kind_refuted`: C08 (refuted, errors): on an object without a name, such as a surface or a counting component, every invalid dictionary is an AttributeError about the missing name.
* `C08_shared_list_refuted`: C08 (refuted, sharing): two objects given the same list share it, and adding an action to one adds it to the other.
* `C114_unseen_refuted`: The emplaced craters are not restored when no crater has been observed, or when the last interval with observed craters is not the last one with emplaced craters.
* `C114_order_refuted`: A resumed simulation lists the emplaced craters by their id, not in chronological order.
* `C114_twice_refuted`: A crater that is emplaced more than once is in the list and in the file, but it is skipped, all of its entries, when the file is read.
* `C114_before_run_refuted`: Craters emplaced in a new simulation before it is run are in no file of emplaced craters: emplacing marks the simulation as not new, so the run does not save its first state, and its first turn empties the list.
* `C114_save_refuted`: Saving does not empty the list of emplaced craters, as it is documented to do: the file of the next interval repeats the craters of the one before.
* `C110_default_refuted`: C110, false: a simulation of Mars for which no production function is named uses the lunar one, not the Martian one.
* `C110_version_refuted`: C110, false: the version "Projectile", spelled as documented, and the version "Mars" are replaced by the lunar one for the Moon; the version "mars" without a target is the lunar one.
* `C110_unknown_version_refuted`: C110, false: a version that does not exist is not an error: the law of the body is used.
* `C110_version_alone_refuted`: C110, false: a version is refused with TypeError unless the production function is named "neukum": also when none is named, although Neukum's is then the one that is used.
* `C110_other_bodies_refuted`: C110, false: for other bodies Neukum's law cannot be had by name, whatever the keywords.
* `C110_resumed_refuted`: C110, false: resumed without arguments, a simulation of Mars that had the lunar law goes on with the Martian one, a simulation of Ceres that had the lunar law with a power law, a simulation of the Moon that had projectiles with lunar craters, and one that had a power law of slope -3 with the default slope.
* `C110_assigned_refuted`: C110, false: on the terrestrial bodies a version assigned by the user never survives: after any history of assignments and resumptions that ends with a resumption, the law is that of the body.
* `C110_morphology_refuted`: C110, false: assigned by name to a morphology model, "neukum" is the lunar law, whatever body the surface belongs to.
* `C120_exports_refuted`: The exported files, which the documentation says are removed, always stay.
* `C120_foreign_refuted`: Files of the user in a directory with the name of a component are removed, although no simulation writes there.
* `C120_clash_refuted`: A file with the name of such a directory ends the cleaning with an exception, and stays.
* `C27_missing_measured_location_refuted`: A record whose measured location is None cannot be flattened at all.
* `C82_with_leaks_refuted`: C82 fails on leaving the with statement when no data were added, or one dataset does not meet a local surface: a ValueError is raised, nothing is applied and the datasets stay open.
* `C82_farthest_refuted`: C82 fails where datasets overlap: of two pixels on the equator the elevation at the intersection of the equator with the prime meridian is taken from the farther one, in either order of the datasets.
* `C82_argument_refuted`: C82 fails for the list given to add_data: whatever it held, it holds only open datasets afterwards.
* `C04_catalogue_restored_refuted`: C04: a rejected keyword leaves its trace in the catalogue shared by all targets.
* `C05_only_user_values_refuted`: C05: construction counts values that come from the catalogue as assigned.
* `C05_rebuild_refuted`: ... and otherwise does not: the mass is never saved, so that a body of the catalogue gets its catalogue mass back and any other body cannot be rebuilt at all.
* `C59_explicit_target_refuted`: C59 is false: resuming in the directory of a run on [n] with target [n'] gives a body with the name, mass and scale type of [n'] and the radius and material of [n].
* `C20_user_density_refuted`: So the density that the user gave to a target of known material is lost ...
* `C20_named_target_refuted`: ... and when a scaling model is made for a target given by name, all the target properties given with it are lost, the density among them.
* `C01_longitude_range_refuted`: Finding: beyond a pole the longitude leaves [-180,180) ...
* `C01_idempotent_refuted`: ... normalising is then not idempotent ...
* `C01_same_point_refuted`: ... and beyond 270 degrees another point is returned.
* `C24_subclass_attribute_not_rejected_refuted`: An intrinsic attribute added by a morphology model (rim_height) is not protected: the assignment is silently dropped.
* `C25_smaller_radius_lost_refuted`: Assigning a smaller measured radius gives an ellipse with the old semi-minor axis as its long axis.
* `C26_name_lost_on_copy_refuted`: An explicit name given to a copy is lost.
* `C26_shrinking_copy_measured_refuted`: A copy with a smaller radius keeps the old radius as its measured semi-major axis.
* `C26_measured_radius_mixed_refuted`: An explicit measured radius given to a copy replaces one of the two axes only.
* `C26_vertical_velocity_erases_velocity_refuted`: An explicit vertical velocity given to a copy is not used, and the velocity is lost.
* `C26_cleared_measurement_reset_refuted`: Cleared measured axes come back, with the fixed values, in a copy.
* `C26_half_cleared_copy_fails_refuted`: A crater with one measured axis cleared cannot be copied.
* `C52_integer_time_changes_id_refuted`: A crater with an integer time saved beside one with a fractional time gets another id when read back (for an id hash that distinguishes the printed forms).
* `C52_csv_reload_always_fails_refuted`: Reading back a CSV file written from craters never succeeds.
* `C104_falling_refuted`: C104 fails for an R-plot that grows faster: the number of craters larger than a diameter can grow with the diameter.
* `C104_limit_refuted`: C104 fails at the limit: craters larger than it are counted.
* `C104_negative_refuted`: C104 fails for a negative diameter: the call does not end.
* `C104_integers_refuted`: C104 fails for diameters that are whole numbers: an array of integers is a ValueError, and a list is a TypeError.
* `C105_user_file_refuted`: C105 refuted: the file given as superdomain_dem_file has no effect on a surface that is built on construction. The argument is stored after the surface has been built, so that the elevations outside are those of the Moon's file, on any body; the construction fails if that one cannot be read, although the given one can.
* `C105_resized_refuted`: C105 refuted: a surface of another size cannot be made in a directory that has been used. The saved elevations are not removed with the other output, and saving the new ones over those of another size raises ValueError.
* `C105_retry_refuted`: C105 refuted: after an attempt that failed because the file of the whole body could not be read, no other can succeed: it raises UnboundLocalError even if the file is there. Besides, prompts before overwriting stay switched off.
* `C105_outside_refuted`: C105 refuted: in a file in kilometres missing heights are not recognised. They are multiplied by 1000 before they are compared with the mark: -9999 becomes an elevation of -9999 km.
* `C105_inside_refuted`: C105 refuted: a pixel without data, in local files in kilometres, gets the elevation minus infinity. The mark of missing data overflows when it is scaled and is then taken for data.
* `C105_units_refuted`: C105 refuted: files with the unit kilometer, or KILOMETERS, are read as metres in the local region and as kilometres outside.
* `C105_single_file_refuted`: C105 refuted: a single file, although the check of the argument admits it, is not accepted. A path is not iterable, and of a text the file named by its first character is opened.
* `C105_poles_refuted`: C105 refuted: the file chosen for the whole Moon ends at 60 degrees north and south, unless the faces far away are larger than ten times the pixels of the 96 per degree map; every face nearer to a pole then gets the average elevation.
* `C77_small_craters_refuted`: C77 fails for small craters, for which the function is documented to be that of Minton et al. (2019): it is more than 11 % smaller for every diameter, and the difference does not vanish for small diameters (the prefactor divides by 1.4 squared where the smoothed power law needs 2 to the power 0.8).
* `C78_survives_reset_refuted`: C78 fails across a reset: degradation that waits when the simulation is reset (because an emplacement was interrupted) is applied to the new surface.
* `C78_other_surface_refuted`: C78 fails when the surface is replaced by one of another size while degradation waits: from then on every call raises and nothing is ever applied.
* `C75_longitudes_refuted`: C75 fails for every region off the equator that holds no pole: the longitudes span the angular radius divided by the cosine of the latitude, which leaves out points of the region.
* `C76_wide_refuted`: C76 fails for wide regions: only the tiles at the centre and the four corners are listed. For the middle latitudes of the whole Moon at 120 m these are three of the six, one of which is named after latitudes 30 to 90 south.
* `C76_across_60_refuted`: C76 fails across 60 degrees: at 240 m the one file ends there.
* `C76_turned_tile_refuted`: C76 fails across 60 degrees at 120 m: the tile "30n_90n" is listed with longitudes turned by 180 degrees as if the pole had been crossed.
* `C76_finest_refuted`: C76 fails at the poles for pixels of 5 m: the name of the file cannot be made from 87.5.
* `C31_thickness_nonnegative_refuted`: Finding: when the crater shape fills more than it digs, the ejecta thickness that is recorded is negative.
* `C31_zero_volume_refuted`: Finding: a crater whose shape removes exactly as much as it adds makes the lunar morphology raise instead of depositing nothing.
* `C94_returned_emplaced_refuted`: Finding: the craters returned are not "the craters that were emplaced": craters too small for the mesh (9) or not larger than the face under them (8) are returned too, though nothing was formed for them.
* `C94_empty_list_refuted`: Finding: an empty list of craters is an error, not "an empty list returned".
* `C94_listed_once_refuted`: Finding: a crater whose ejecta fails stays in the queue although it is already listed as emplaced, so the next call digs it and lists it a second time.
* `C94_recovers_refuted`: Finding: a crater that removes no volume (0) makes emplace fail, and every later call of emplace fails the same way, digging that crater once more each time.
* `C94_ejecta_volume_refuted`: Finding: form_ejecta called for crater 1 lays down the volume of crater 7, dug before it.
* `C94_measure_rim_refuted`: Finding: with 2000 craters or more in one call, measure_rim=True does not reach the last tally, so the rims are not measured on the final surface.
* `C90_lost_refuted`: They need not be: the columns are those of the first crater. Of two craters, of which the second had its measured minor axis set, the table has no measured size of the second: it has no column for the axes, and the column of the measured diameter is blank.
* `C90_cleared_refuted`: Such craters can be made: a crater whose measured location was set to None, as its setter allows, destroys the exported file it is written to.
* `C90_default_refuted`: The observed craters of the counting object itself cannot be exported: without a list of craters, the call always raises an exception (IndexError if there are none and UnboundLocalError otherwise), although None is the default of the argument.
* `C90_datasets_refuted`: A dictionary of datasets, which the call accepts, destroys the file: it is replaced by an empty one before an AttributeError is raised.
* `C91_shape_refuted`: What is read is not what was written: a crater measured as an ellipse of axes 10 and 5 comes back as a circle.
* `C91_fraction_refuted`: The test whether a crater is inside the region uses its original location, not the measured one that is listed: a crater measured wholly outside the region counts in full.
* `C91_interval_refuted`: Without an interval, the default, no list can be written: the call always raises an exception (the file name formats None as a number) and the file is left as it was.
* `C92_grown_refuted`: Nothing is exported of a run with one crater in the first interval and two in the second.
* `C92_number_refuted`: In crater lists, a kind of which nothing is saved gets an empty list numbered with the last interval of the other kind, whatever interval was asked for.
* `C98_history_refuted`: C98: so exporting an interval of the past destroys it: each saved value of a variable the surface has now is replaced by that of now.
* `C98_negative_refuted`: C98: exporting interval -1, "the last one", adds a saved interval numbered -1.
* `C98_vtk_counted_back_refuted`: C98: exporting the last interval but one, or an earlier one, by counting from the end always fails with the VTK driver, however many are saved.
* `C98_unknown_driver_refuted`: C98: a driver that is not known is ignored: nothing is exported and nothing is raised. Among them are "SHP", for which to_vector_file has an alias, and "SQLite" and "PMTiles", which are in the table of drivers.
* `C98_geotiff_asks_refuted`: C98: an existing GeoTIFF is replaced whatever the user would answer, also by that of another variable, since the name of the variable is not part of the name of the file.
* `C98_shapefile_refuted`: C98: in a shapefile two columns may get the same name, and a face variable whose name begins with "id" is left out.
* `C98_layer_name_refuted`: C98: a variable named like a layer of another one is lost.
* `C98_same_extension_refuted`: C98 fails for GeoJSON and JSON-FG: both write the same file, so exporting to one replaces what was exported to the other.
* `C06_million_refuted`: C06 (refuted in general): files are sorted by name and intervals by number. With intervals 999999 and 1000000 saved, reading interval 999999 returns the other file.
* `C44_orientation_a_quarter_turn_off_refuted`: C44 fails: in the remaining cases every ellipse that is not a circle gets an orientation a quarter turn off, so that a point of the conic is not on the reported ellipse.
* `C44_negative_orientation_refuted`: C44 fails: the orientation is documented to be in [0, PI) but can be negative.
* `C61_cancelling_weights_refuted`: C61 fails: three points of the unit circle count, but weights that cancel are an error.
* `C63_fitted_point_off_the_rim_refuted`: C63 fails: a rim point on the fitted conic is at a distance from the fitted rim.
* `C63_misfit_distance_not_zero_refuted`: C63 fails: the distances behind the misfit of an ellipse fit do not vanish on the ellipse.
* `C127_late_refuted`: If no crater is there when the simulation is first asked or populated, no later population merges any, whatever craters are given afterwards: the answer is remembered.
* `C127_none_refuted`: The switch cannot be given back: None, which is documented, and every other value that is not a bool are a TypeError that changes nothing.
* `C96_batch_shares_refuted`: C96 fails when the ejecta end closer to the rim (ejecta_truncation below 1.5): craters whose regions share a face are put in the same batch as not overlapping.
* `C96_emplaceable_fails_refuted`: C96 fails there too for a crater between the centres of faces: it is announced as emplaceable, it has no ejecta region, and forming it raises an AttributeError.
* `C96_smaller_than_face_refuted`: C96 fails for craters smaller than the face they lie on, which are meant to be skipped: the area compared with that of the face is that of the circle of one and a half radii, so a crater of area up to 2.25 times too small is formed.
* `C96_replaced_surface_refuted`: C96 fails when the surface is replaced by another one: the face and the extent stay those of the old surface, even after the large data was dropped.
* `C96_lost_refuted`: C96 fails then for a crater the new surface does not resolve: it is still announced as emplaceable, and forming it raises an AttributeError.
* `C96_still_skipped_refuted`: C96 fails then for a crater the new surface does resolve: it is still skipped.
* `C107_carry_refuted`: The unit is chosen before the number is rounded: a value just below one kilometre is printed as 1000.0 m, so that equal printed amounts may have different units.
* `C107_unknown_refuted`: A quantity that is not known is not refused as a wrong argument but ends in an unbound variable.
* `C126_none_refuted`: Of no craters there is no empty series: before any crater is counted, or of an empty list, the request is always a ValueError.
* `C126_region_refuted`: The polygon of a region is never written: the table has one row of values and an index of two, so for every region and every format the request fails, with a ValueError once the outline is made.
* `C79_antipode_refuted`: C79 fails at the antipode: the factor is documented to be the ratio of the face size there to the local one, but the faces there are always larger than that.
* `C79_wide_refuted`: C79 fails for local regions of a quarter of the circumference or more, which the setter accepts: the size cannot be computed for exactly a quarter, and beyond it the faces outside are smaller than the local ones.
* `C79_new_factor_refuted`: C79 fails when the factor is changed after the function was used: the new factor is accepted and reported, and every size stays as before.
* `C79_automatic_factor_refuted`: C79 fails for automatic sizes: the reported factor is the face size at the antipode in metres, not its ratio to the local size.
* `C80_endless_refuted`: C80 fails for large regions that the setters accept: with the largest local radius, and with regions beyond a quarter of the circumference whose face size falls to zero before the antipode, the generation never ends.
* `C80_gap_refuted`: C80 fails for large regions towards the diagonals: the local lattice does not reach the edge of the region there. On a unit sphere with a local radius of 1 and faces of 0.001, a point 15 faces inside the edge has no point of the mesh within 15 faces.
* `C80_south_pole_refuted`: C80 fails for a local region at the south pole: nothing is rotated, and the fine faces are at the north pole.
* `C108_from_the_end_refuted`: C108, false: interval=-1 stands for the last saved interval when data are read, but its label is empty although the simulation has an age: the number -1 is looked up among the interval numbers of the file.
* `C108_heading_refuted`: C108, false: the diameter of a number is printed without decimals, so that the numbers of craters larger than 1.5 km and larger than 2 km, which differ, carry the same heading N(2).
* `C108_metres_refuted`: C108, false: N_diam_val is documented as kilometres, but with D_conversion_factor 1 it is metres: asked for N(20), the label shows more than a hundred times the number of craters larger than 20 km.
* `C108_summary_refuted`: C108, false: with other units the summary still says per million square kilometres, so that the number printed is a million times too small when N_conversion_factor is 1e6.
* `C108_shown_refuted`: C108, false: the left arrow at the first interval shows the current, last, interval: nothing to move to is passed on as no interval, which means the current one.
* `C108_open_at_end_refuted`: C108, false: opened at interval -1, the last one, the viewer goes to the first interval when asked for the next.
* `C108_caption_refuted`: C108, false: the label given when the viewer was opened, or its absence, is lost with the first key: the default compact label takes its place.
* `C74_smallest_projectile_refuted`: C74 fails for smallest_projectile with a generator of craters: the projectile diameter is stored as a crater diameter. 500 reads back as 50 when craters are ten times as large.
* `C74_largest_projectile_refuted`: C74 fails for largest_projectile with a generator of craters: the smallest crater becomes the diameter of the target, above the largest, which becomes the projectile of a 50 m crater.
* `C74_crossed_refuted`: C74 fails for crossing limits: a smallest crater larger than the target is accepted.
* `C74_resumed_limits_refuted`: C74 fails when a simulation is resumed: the stored limits are assigned before the production object exists and are dropped without notice. 500 comes back as 100.
* `C102_copy_refuted`: Copying a lunar crater loses the shape its user gave it: a crater made with a rim 5 m high has, once copied (crater=c and nothing else), the standard rim of its diameter. The copy is what counting and saving make of a crater.
* `C102_none_refuted`: None given for a dimension is not "not given": the dimension is then None and not the standard one, for a rim height as for any other.
* `C102_unchecked_refuted`: No dimension is checked: a rim five metres below the ground around a floor five metres above it is accepted.
* `C102_type_keyword_refuted`: The type of a crater whose sizes are worked out cannot be given: morphology_type, an attribute of every crater, raises TypeError as a keyword, whatever its value.
* `C102_scaling_keyword_refuted`: Nor can the scaling.
* `C102_measured_none_refuted`: And measured_diameter=None, which is its documented default, never gives a crater.
* `C68_nan_elevation_refuted`: C68 fails with NaN: elevations and distances are filtered separately and no longer belong together. Here the only face on the floor has no elevation, and the elevation h of the face on the rim is returned as the floor depth.
* `C68_rim_height_is_stale_refuted`: C68 fails for measured_rim_height read on its own: after a first read no change of the elevations changes it.
* `C70_flat_region_refuted`: C70 fails for a flat region: its elevations are used as they are, and below -1 m no face gets a score.
* `C70_quantile_not_numpy_refuted`: C70 fails: the quantile is said to reproduce numpy.nanquantile, which interpolates; the median of 0 and 1 is 0.5 there.
* `C71_region_not_enlarged_refuted`: C71 fails: the region is said to surround the best-fit rim, but its radius is always twice the first measured radius (previous theorem). Here the second fit, of a rim three times as large, is made from a region of 200 m.
* `C71_smaller_rim_refuted`: C71 fails: a fitted rim smaller than the crater's measured semi-minor axis is recorded with that old axis as its semi-major axis, and the measured radius is too large.
* `C109_sample_refuted`: C109, false: with N_conversion_factor 1e6, sample and quasimc_merge take a period that starts 1e12 times earlier than that of run for the same N_D.
* `C109_default_refuted`: C109, false: with the default units and the default power law, N_D is never accepted by sample and quasimc_merge, whatever the size (at least one metre) and the number (at least one crater in a hundred million times a million square kilometres).
* `C109_age_and_start_refuted`: C109, false: age and time_start together are refused by run, but sample and quasimc_merge silently take the age.
* `C124_several_refuted`: Refuted: that the nearest can be found for several locations at once. Several locations are refused in every form, although each form is read as a location elsewhere.
* `C124_regrid_refuted`: Refuted: that the face or node found is one of the mesh the surface has. After the surface is given another mesh, it is that of the old mesh if any face or node, or for faces a region smaller than the whole surface, had been looked for before, and that of the new mesh otherwise; the new mesh may not even have as many faces.
* `C112_unknown_assign_refuted`: Assigning a name that a crater does not have (a misspelt field, a note of the user) reports nothing and stores nothing: reading it back raises AttributeError.
* `C112_copy_refuted`: copy.copy, copy.deepcopy and pickle.loads never give a crater: an object without its parts is asked for __setstate__, and looks for its parts in its parts for ever (RecursionError).
* `C112_dir_refuted`: dir(crater) raises AttributeError: it reads the parts under names that do not exist.
* `C112_as_dict_refuted`: A list of names to ignore is changed by every call that leaves out the complex data: it gets five more names each time, and a later call that asks for these data does not get them.
* `C112_added_refuted`: A variable added under a name of the class (radius, area, crs, …) cannot be read as an attribute: the class answers.
* `C112_unloaded_refuted`: On a surface that has no data yet, any other name raises TypeError, not AttributeError: hasattr fails.
* `C112_surface_copy_refuted`: No surface can be copied or unpickled: RecursionError.
* `C111_given_refuted`: Property refuted: ejecta_truncation, dorays, monte_carlo_scaling and sample given to the Simulation are lost when it is resumed: it goes on with their defaults.
* `C111_twice_refuted`: Property refuted: even when they are assigned, the same options are lost at the second resumption, whatever was done before.
* `C111_counting_refuted`: Property refuted: a Simulation in which counting was switched off counts craters when it is resumed without the argument do_counting.
* `C111_generic_refuted`: Property refuted: a Simulation with generic projectiles cannot be resumed: its mean velocity is not saved.
* `C111_uncatalogued_refuted`: Property refuted: a Simulation of a body for which there is no catalogue of velocities, made with no argument but the body, cannot be resumed.
* `C111_density_refuted`: Property refuted: the density of the target that was given with the Simulation becomes, at the first resumption, the density of the catalogue for its material.
* `C97_far_part_height_refuted`: C97: the part of a split outline beyond the antimeridian is drawn without any height, although the rest of the outline has the height of the rim.
* `C97_prime_meridian_refuted`: C97: if the centre has the longitude 0 and the outline reaches around a pole, no longitude is unwrapped and the polygon, which jumps across the whole map, is cut along the prime meridian.
* `C97_pole_refuted`: C97: the outline of a circular crater centred on the north pole is a line of constant latitude: on a map of longitudes and latitudes it encloses neither the pole nor any area.
* `C95_shared_border_refuted`: Finding: a region that meets the local region only in its border (face 1 here, shared by both) has no edge in common with it and is left alone, although a face is shared.
* `C95_whole_body_refuted`: Finding: when the local region is the whole body (local_radius = pi * radius) its faces are a slice and not an array, and every operation on a region raises ValueError.
* `C95_negative_refuted`: Finding: a negative diffusivity, an error on any region, is accepted outside the local region.
* `C95_surface_refuted`: Finding: diffusion of the surface is not confined to the local region, while diffusion of the region made of all its faces is.
* `C115_given_refuted`: A surface or projectile made for another body, a counting object made for another surface and a morphology made alone are accepted and left as they are.
* `C115_scaling_refuted`: A scaling that is given takes the target and projectile of the simulation, but keeps the transition diameters computed for its old target; the simulation it came from now uses the body of the new one.
* `C115_counting_refuted`: A counting object that is given keeps its own surface and becomes that of the new morphology.
* `C115_production_refuted`: A production function that is used in a second simulation goes on making the craters of the first one.
* `C115_assign_refuted`: Assigning any other component to a simulation leaves its other parts with the old one.
* `C115_assign_effects_refuted`: After assigning a surface, craters are formed on the old one and the new one is saved; after assigning a counting object they are listed in the old one and the new one is saved; after assigning a target or a scaling, craters are sized as before.
* `C115_switch_refuted`: Assigning a counting object to a morphology switches counting on, also where it was switched off; assigning None switches it off, and then no crater can be formed: AttributeError.
* `C115_alone_refuted`: The scaling of a morphology made for a surface of another body is lunar.
* `C119_moved_refuted`: If the working directory changes later, the files go elsewhere exactly if the directory was inside the working directory when the simulation was made (which is so by default).
* `C119_path_object_refuted`: A Path object is kept as it is: the same holds for relative ones, and absolute ones stay where they are.
* `C119_made_refuted`: The directory is made at once if it is given as a text, and not if it is given as a Path.
* `C119_type_refuted`: A value of another type is not refused: a new simulation has no directory, and an assignment does nothing.
* `C100_moved_refuted`: A crater put at another location by making it from an existing one keeps the old measured location, and its location is not normalised.
* `C100_pole_refuted`: From a pole the bearing is ignored: two different bearings lead to the same place.
* `C113_last_refuted`: Under its own number, the last interval is shown as it is in memory now, also when it has changed since it was saved.
* `C113_other_style_refuted`: Any other style is refused, but with UnboundLocalError in place of the ValueError of the code, unless the colour bar is switched off.
* `C113_no_minimum_refuted`: Switching the least width off (None), as the documentation says one can, makes every plot fail.
* `C113_counting_files_refuted`: The file of a plot with craters does not tell the style: the map and the hillshade of one interval overwrite each other.
* `C113_filename_refuted`: The argument filename has no effect: the name is always made from the interval.
* `C113_earlier_craters_refuted`: Every earlier interval for which emplaced craters were saved cannot be plotted with craters at all, even if the emplaced ones are not asked for; nor can interval -1.
* `C113_stale_craters_refuted`: The last interval that had craters is drawn with the craters of now, when later intervals have none: the surface of interval 3 without the crater that was saved with it.
* `C113_linewidth_refuted`: A line width that the user gives applies to the first of these layers only.
* `C113_scale_refuted`: A region too small for a bar of one metre cannot be plotted with a scale bar, which local surfaces have by default.
* `C113_close_refuted`: close_when_done is honoured on local surfaces and ignored on the others: a figure that is shown stays open although it should be closed, and one that is only saved is closed although it should stay open.
* `C93_coarse_faces_refuted`: C93 fails on a surface with faces larger than the largest crater asked for: nothing is formed anywhere, an exception is raised.
* `C93_craters_keyword_refuted`: C93 fails for the documented craters argument: either an exception is raised or, when no crater was drawn, the given craters are dropped and [] is returned.
* `C93_fast_projectiles_refuted`: C93 fails for a generator of projectiles: those below the projectile that makes a crater of the size of a face in a slow grazing impact are never drawn, although at the speeds and angles the code itself uses for the largest crater they make craters larger than a face.
* `C15_stale_refuted`: FINDING: evaluate for the Moon, select Mars: lunar coefficients remain in use.
* `C16_chronology_refuted`: FINDING: the chronology does not depend on time at all.
* `C16_slope_setter_refuted`: FINDING: assigning a positive slope is not normalised as the constructor does, and then the number of craters grows with size.
* `C55_normalisation_refuted`: FINDING: for the Moon the number is about 18% too small, at every age.
* `C56_zero_endless_refuted`: FINDING: a diameter of zero is accepted (only negative ones are rejected), but the bin summation of the projectile version never ends.
* `C57_kink_refuted`: FINDING: the Moon's distribution is extrapolated below 10 m with a slope steeper than -3.32, although it has a slope above -3.2 there.
* `C32_exterior_raised_refuted`: Finding: for a one-metre lunar crater the ejecta at the rim is thicker than the rim is high, so the profile digs a depression outside the rim.
* `C50_truncation_refuted`: Finding: with a truncation factor of exactly one radius the extent is larger than the truncation distance.
* `C84_copy_refuted`: Copying an asteroid or a comet loses its velocity: copy.copy of a projectile made with a velocity of 5 km/s has the mean velocity of the catalogue, 22.1 km/s.
* `C84_defaults_refuted`: The documented defaults are not there: asteroids and comets with sample=False and nothing else raise a ValueError (documented: 90 degrees, 0 degrees and (0, 0)); so do the generic population with no mean velocity, and with sample=False and only a mean velocity (documented: the velocity will be the mean velocity).
* `C84_mean_ignored_refuted`: The argument mean_velocity is ignored, with no warning, for asteroids and comets.
* `C84_target_refuted`: Setting the target of a projectile leaves the mean velocity of the old target: an asteroid moved from the Moon to Mars keeps 22.1 km/s instead of 10.7 km/s.
* `C84_scaling_refuted`: But Scaling.maker(target="Mars", projectile="asteroids") has asteroids of the Moon.
* `C84_vertical_refuted`: Angles above 90 degrees are accepted: at 270 degrees the vertical velocity is negative.
* `C72_negative_time_refuted`: C72 fails for craters dated by time: the result of max(t, 0.0) is not used. A crater of 100 million years with an uncertainty of 100 gets the time -100 from a draw at two standard deviations.
* `C72_range_not_restored_refuted`: C72 fails when the list is taken away: the upper end of the diameter range stays where the list had put it, so large craters are neither listed nor drawn any more.
* `C73_last_sequence_refuted`: C73 fails for the largest sequence number: the check leaves it out. With exact dates 1, 18 and 17 (in any unit) for the sequence numbers 1, 2 and 3 no error is raised and the third comes out older than the second.
* `C73_exact_moved_refuted`: C73 fails for two exact dates with the same sequence number: the times 100 and 50 both become 75.
* `C73_zero_division_refuted`: C73 fails when a range reaches zero: a crater of age 5 +- 10 followed by one with only a sequence number ends in a division by zero, although the dates are in order.
* `C30_no_repeat_refuted`: Finding: after a failure on the second crater of a batch, emplacing again (nothing new) forms the first crater a second time.
* `C49_full_coverage_refuted`: Finding: craters 1 and 3 overlap, so each is a batch of its own and the 20 time units between them receive no degradation at all.
* `C123_crater_refuted`: Refuted: that every distance and reference elevation that is a number is accepted. The profile fails exactly where the theorem above does not apply, with a TypeError if the numbers are the cause: without reference elevations, distances that are not 64-bit floats, such as whole numbers, are refused in any form; with them, only in arrays. Rows of different lengths are refused.
* `C123_distribution_refuted`: Refuted: that distances may be given in any form and shape. The distribution fails in every case other than those of the theorem above: arrays of two or more rows are refused; lists and plain numbers are refused after the seed was drawn, as they are by the intensity of the rays.
* `C22_above_largest_refuted`: C22 does not hold without the allowance: the noise is only ever upwards, and takes a sample beyond the largest tabulated size.
* `C22_flat_table_refuted`: C22. A table whose numbers are all equal passes the checks on the arguments, but no draw gives a size.
* `C23_loop_refuted`: C23. But the loop can run forever: a sample equal to the escape velocity is neither redrawn nor accepted, whatever is drawn afterwards.
* `C99_region_size_refuted`: The border of four pixels is added to the extent and not to the number of pixels, so the pixels of a region are never as small as the pixel size.
* `C99_shared_pixel_refuted`: A pixel whose centre lies in one face can show the value of another that only touches its edge.
* `C99_antimeridian_refuted`: On a whole surface, a pixel that only faces crossing the antimeridian touch shows nothing, whatever their values.
* `C81_all_far_refuted`: C81 fails when every given point outside the crater is farther than the rays reach: the intensities are normalised by a maximum of zero and all become not-a-number.
* `C81_alone_refuted`: C81 fails for the values themselves: a point asked for alone gets one (or not-a-number) wherever it lies, on a ray or between rays.
* `C81_ray_count_refuted`: C81 fails for the number of rays: at least three of the five rays extend to the limit of a hundred crater radii, and at the limit their intensity is divided by one, the number of rays the code computes there.
* `C81_lists_refuted`: C81 fails for numbers and lists, which the plain profile accepts: both functions with rays raise an AttributeError.
* `C81_grids_refuted`: C81 fails for grids: for every array of two or more rows the thickness cannot be multiplied by the flat intensities and a ValueError is raised, although the intensity alone is returned.
* `C88_desloped_refuted`: The desloped elevation of a face beyond the region radius is zero, however high it is, and in a region of fewer than five faces all desloped elevations are zero: nothing can be measured.
* `C89_slope_refuted`: The change is not the same on a slope: at a place where a crater on level ground digs 1 m, the same crater on a steep slope raises the ground by 4 m, because the floor is limited by the mean elevation within the rim and not by the reference surface.
* `C65_subregion_lacks_nodes_refuted`: C65 fails: a face of the subregion can have a node that the subregion lacks, and that the region extracted directly has.
* `C66_border_node_moved_refuted`: C66 fails at the border: adding nothing to the faces of a region moves a border node from the mean of its faces to the mean of some of them.
* `C67_equal_counts_wrong_nodes_refuted`: C67 fails: in a region with as many nodes as faces, a face update writes the node averages at the indices of the faces, so a node outside the region changes and one inside does not.
* `C64_kilometre_gives_less_than_a_millimetre_refuted`: C64 fails: asked for noise of 1 km on the Moon the surface moves by less than a millimetre, whatever the noise.
* `C48_power_of_two_refuted`: C48 fails in all the remaining cases: an IndexError.
* `C48_equal_areas_refuted`: C48 fails for every mesh of equal faces.
* `C83_no_craters_refuted`: A resumed simulation does not have the observed craters of the one that was saved: when no crater is left, no file is written, and the craters of an earlier interval are read.
* `C83_resume_again_refuted`: A simulation that has been resumed cannot be resumed again where it ended: a resumed simulation never writes its configuration, so the next one continues with the interval, the time and the elapsed time of the first session on the surface of the last.
* `C83_lost_refuted`: A third session can be lost altogether: it saves its surfaces under interval numbers that the second session has used, and the next start reads the largest number.
* `C83_crash_skips_refuted`: A crash is not always repaired by resuming: in every iteration there is a point after which the period counts as simulated although its craters are not on the surface.
* `C83_crash_repeats_refuted`: There is also a point in every iteration after which the elapsed time contains the period although the next start will simulate it again.
* `C83_crash_unreadable_refuted`: And there is a point in every iteration after which the simulation cannot be resumed: the configuration is truncated before it is written, and an empty one raises TypeError.
* `C83_reset_crash_refuted`: A crash while a simulation is being reset can leave the old surface with the counters of a new simulation, and the next start resumes from that.
* `C83_default_refuted`: Without a configuration file the default is not to reset, contrary to the documentation: an old surface is kept with the counters at zero, and the configuration is never written.
* `C83_rng_refuted`: The random numbers of a resumed simulation do not continue those of the saved one: the state in the configuration is replaced by that of the generator made from the arguments.
* `C09_resume_refuted`: FINDING: 100 -> 50 and then 100 -> 0, both in steps of 30, samples the time between 60 and 50 twice: in the piece (70, 50) of the first run and again in the first piece (70, 40) of the second.
* `C10_elapsed_refuted`: FINDING: 100 My in steps of 30 My: the elapsed time is 120 My.
* `C10_rerun_refuted`: FINDING: otherwise the last step is simulated again.
* `C11_zero_length_refuted`: FINDING: a period of zero length passes validation; the run then raises ZeroDivisionError after it has set the current time.
* `C11_ignored_density_refuted`: FINDING: N_D given with time_end is silently ignored instead of rejected.
* `C17_type_round_trip_refuted`: C17: so the type does not always survive: a crater 2.04 times the transition diameter is complex, but is transitional after the round trip.
* `C18_reported_type_refuted`: C18: the type that transient_to_final reports is not always the type of the diameter that it reports: for every deterministic scaling there is a transient diameter whose final crater is reported as simple although its diameter is transitional, and whose diameter alone is converted back to a larger transient diameter.
* `C122_target_refuted`: Refuted: that the answers are those of the target the surface has. After another target is assigned, an answer is that of the old target if it, or for sizes and areas any other size or area, had been asked for before, and that of the new target otherwise.
* `C122_regrid_refuted`: Refuted: that the answers are those of the mesh the surface has. After the surface is given another mesh, the sizes and areas of faces are those of the new mesh, but the whole area, the smallest length, the coordinates, the lengths of edges and the distances across them are those of the old mesh if they had been asked for before.
* `C101_collapse_refuted`: Refuted: collapsing the slopes above an angle leaves slopes above it. A plane rising 1.1 metres per metre (48 degrees) has a measured slope of 0.55, so that the default collapse at 35 degrees leaves it as it is.
* `C101_compute_slope_refuted`: Refuted: the slopes of a surface cannot be had at all. compute_slope passes the elevations to a compiled function that does not take them, and always raises TypeError.
* `C101_node_variable_refuted`: Refuted: a variable that is not one of the faces is refused. Given by name, a variable with more values than faces, such as one on the nodes, is used as if its first values were those of the faces.
* `C101_radial_sign_refuted`: Refuted: a field that rises away from the centre has a positive radial gradient. The direction used at a face is the bearing on which the centre sees it, not the direction away from the centre at the face. Beyond a pole the two are opposite: here the field rises by one towards the face straight outward and falls by one towards the face straight inward, and the radial gradient is reported as minus one.
* `C103_edges_refuted`: Variables on edges are left out without a word.
* `C103_interval_refuted`: Otherwise it is a position: of the intervals 5 and 6, the interval 5 is out of bounds, and of the intervals 1 and 2, the interval 1 shows the data of 2.
* `C103_ring_height_refuted`: The rings lie on the reference sphere and not on the ground: where the ground is not at zero elevation no point of a ring is on it.
* `C103_measured_refuted`: The points are at the original location even when the measured one was asked for.
* `C103_plain_crater_refuted`: A crater that was made without a morphology has no face, and stops the drawing.
* `C103_file_options_refuted`: The file ignores every option of its caller: whatever the style, the factor and the use of measured properties, it has the measured rings.
* `C87_decline_refuted`: The user is asked before data are removed and may decline, but a declined reset is not without effect: the arrays in memory are replaced by elevations of zero, and the elevations of interval 0 on disk are overwritten by zeros.
* `C87_crash_refuted`: A process killed between the move of a new grid and the removal of the old data leaves a directory in which the next surface of the new parameters, made without reset, takes over data of the old mesh: their arrays do not have the size of the mesh.
* `C87_bare_refuted`: A process killed after the grid is written and before the first data are leaves a directory in which the next surface, made without reset, has no elevations at all.
* `C87_region_refuted`: A region extracted from a surface is saved into the data file of the surface itself. If the interval has data the save fails; if not it succeeds, and the file does not fit the mesh.
* `C117_location_refuted`: A row with only one of the two coordinates is read without a location (and its crater is then placed at random).
* `C117_name_refuted`: A name that looks like a number is read as one.
* `C117_location_column_refuted`: A column named location beside that of the longitude ends the reading with TypeError or KeyError, even where it is blank.
* `C117_too_long_refuted`: A line longer than the header is refused with TypeError, unless one of the further fields is blank: then all of them are ignored.
* `C117_file_refuted`: By the name of the file: other extensions end with UnboundLocalError, and an scc file must be named in lower case although the extension is compared without case.
* `C40_keeps_other_tags_refuted`: So the property fails: a tag can vanish from a face.
* `C41_observed_recorded_refuted`: The ninth crater on a patch makes an observed crater unrecorded, for good: tally with nothing worn keeps it.
* `C116_options_refuted`: fit_center and fit_ellipse reach only the crater with the smallest id: the second one is measured with False, whatever was asked for.
* `C116_shared_refuted`: So a crater that was listed as emplaced and as observed becomes two, and later tallies no longer change its measurements in the list of emplaced craters.
* `C54_constant_rate_refuted`: FINDING: under a constant impact rate the subintervals, of equal length, do not get equal shares (share i is 2(i+1)/((num-1)(num-2))): craters are biased to old ages.
* `C54_oldest_part_refuted`: FINDING: no draw ever gives a time in the oldest subinterval.
* `C128_metres_refuted`: When the unit of diameters reported is the metre, the diameters of craters given are nevertheless read in kilometres, and this gives them other times.
* `C128_construct_refuted`: Craters given at construction are dated before the units given with them are set: whatever units are chosen then or assigned later, their densities are read per million square kilometres and their diameters in kilometres.
* `C106_dataset_edges_refuted`: The dataset of a region has all the surface's edges in an edge variable, not its own.
* `C106_edits_refuted`: Writing into the arrays or into the dataset that a region returns changes nothing, and raises nothing.
* `C106_mesh_edges_refuted`: But the faces around its border lack the edges that no inner face has.
* `C121_two_refuted`: A tuple or list of exactly two locations is read as one location whose longitude is the first and whose latitude is the second of them, and is refused.
* `C121_empty_refuted`: No location: the distances of an empty array and the locations at no distances are an error, though the bearings of an empty array are the empty array.
* `C121_dict_refuted`: A dict with a longitude and a latitude has a distance but no bearing.
* `C121_round_trip_refuted`: What compute_location_from_distance_bearing returns can be given to compute_distances, which gives the distances back, unless there are exactly two.
* `C121_structured_refuted`: Structured arrays are documented but always refused; a single record is read by the order of its fields, not their names, so that one with lat first is taken for another place.
* `C125_global_refuted`: The description of a whole body has one closing bracket too many: its expression ends after the prime meridian, and the coordinate system with its two axes is written after the end.
* `C125_local_refuted`: The description of a region is not one whole expression either: the remark is written after the end.
* `C125_target_refuted`: After the first question, the system stays that of the earlier body whatever target is assigned.
* `C118_numpy_text_refuted`: Saving fails for a value exactly if a numpy text is in it.
* `C118_text_refuted`: A numpy truth value is written as the text True or False (which does not show it, and False is then a text that counts as true), and an object of another kind as its text, in place of being left out.
* `C118_none_refuted`: The assignment of None does not write the file, which goes on showing the value from before.
* `C118_lost_refuted`: The assignment of a value with a numpy text in it raises, after the value is assigned and the file is lost.
