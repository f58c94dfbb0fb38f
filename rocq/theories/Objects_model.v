(** Model of craters and surfaces as Python objects: attribute access, copying, listing and as_dict
    (crater/__init__.py:462-511, morphology/__init__.py:195-215, surface/__init__.py:193-207, 1444-1447).
    Python looks an attribute up on the class, then on the object, and calls __getattr__ if it finds
    none.  [fuel] bounds the nesting of calls: no answer (None) for every bound is what Python ends with
    RecursionError.  Simplifications: a value is an element of [val]; special names (__x__) are those the
    copy module asks for; a property of the class counts as found. *)
From Verif Require Import Common.
Import ListNotations.
Open Scope string_scope.

(** The names that the classes define (without the special ones): core/base.py:42-905. *)
Definition base_names : list string :=
  [ "reset"; "to_config"; "save"; "export"; "from_file"; "get_saved_interval_numbers"; "read_saved_output";
    "saved_output_files"; "get_time_variables"; "output_filename"; "_output_file_processor";
    "_overwrite_check"; "pyvista_plotter"; "show3d"; "add_save_action"; "save_actions"; "ask_overwrite";
    "simdir"; "output_dir"; "export_dir"; "plot_dir"; "output_image_file_extension"; "output_file_pattern";
    "output_file_prefix"; "output_file_extension"; "rng_seed"; "rng"; "rng_state"; "common_args";
    "driver_to_extension_map"; "valid_drivers"; "valid_extensions"; "maker"; "component_name"; "register";
    "available" ].
(** crater/__init__.py:424-1403. *)
Definition crater_names : list string :=
  [ "as_dict"; "_scrub_measured_input_size"; "maker"; "to_geoseries"; "from_file"; "from_csv_file";
    "from_scc_file"; "from_xarray"; "final_diameter"; "final_radius"; "remove_complex_data" ].
(** morphology/__init__.py:125-350. *)
Definition morphology_crater_names : list string :=
  [ "maker"; "as_dict"; "remove_complex_data"; "face_index"; "ejecta_rmax"; "ejecta_region"; "crater_region";
    "affected_face_indices"; "affected_node_indices"; "emplaceable"; "measured_rim_height";
    "measured_floor_depth"; "measured_depth_to_diameter" ].
(** The fields of a crater: crater/__init__.py:33-66. *)
Definition fixed_fields : list string :=
  [ "id"; "semimajor_axis"; "semiminor_axis"; "orientation"; "transient_diameter"; "projectile_diameter";
    "projectile_velocity"; "projectile_angle"; "projectile_mass"; "location"; "morphology_type"; "time";
    "radius"; "diameter"; "transient_radius"; "projectile_radius"; "projectile_density";
    "projectile_vertical_velocity"; "projectile_direction" ].
(** morphology/basicmoon.py:27-42. *)
Definition lunar_fields : list string :=
  [ "rim_height"; "rim_width"; "floor_depth"; "floor_diameter"; "peak_height"; "ejrim"; "depth_to_diameter" ].
(** The properties of the variable part: crater/__init__.py:198-421. *)
Definition var_fields : list string :=
  [ "name"; "measured_diameter"; "measured_radius"; "measured_semimajor_axis"; "measured_semiminor_axis";
    "measured_orientation"; "measured_location"; "measured_rim_height"; "measured_floor_depth";
    "degradation_state"; "production_time"; "production_ND"; "production_sequence" ].
(** morphology/__init__.py:39-122. *)
Definition morphology_var_fields : list string :=
  [ "_has_initialized_surface_data"; "morphology"; "emplaceable"; "face_index"; "ejecta_rmax";
    "affected_face_indices"; "affected_node_indices"; "ejecta_region"; "crater_region" ].
(** surface/__init__.py:43-1987. *)
Definition surface_names : list string :=
  [ "maker"; "saved_output_files"; "reset"; "extract_region"; "add_data"; "update_elevation"; "add_tag";
    "remove_tag"; "apply_diffusion"; "slope_collapse"; "compute_slope"; "apply_noise";
    "calculate_face_and_node_distances"; "calculate_face_and_node_bearings"; "find_nearest_node";
    "find_nearest_face"; "interpolate_node_elevation_from_faces"; "get_random_location_on_face";
    "elevation_to_cartesian"; "save"; "export"; "to_vector_file"; "to_raster"; "get_raster_dims";
    "to_geotiff_file"; "to_vtk_mesh"; "to_vtk_file"; "plot"; "pyvista_plotter"; "compute_distances";
    "compute_bearings"; "compute_location_from_distance_bearing"; "_compute_elevation_to_cartesian";
    "read_saved_output"; "_load_from_files"; "_write_grid_file"; "_generate_grid"; "_is_same_grid";
    "_regrid_if_needed"; "_full"; "_save_data"; "_add_new_data"; "_generate_face_distribution";
    "_compute_face_size"; "get_location_extents"; "_hashvars"; "_id"; "uxds"; "uxgrid"; "gridtype";
    "grid_file"; "target"; "pix"; "pix_mean"; "pix_std"; "pix_min"; "pix_max"; "radius"; "area"; "face_area";
    "face_size"; "smallest_length"; "face_lat"; "face_lon"; "face_x"; "face_y"; "face_z"; "node_lat";
    "node_lon"; "node_x"; "node_y"; "node_z"; "face_indices"; "node_indices"; "edge_indices";
    "_compute_face_bins"; "face_bin_indices"; "face_bin_area"; "face_bin_argmin"; "face_bin_argmax";
    "face_bin_min_areas"; "face_bin_max_areas"; "face_bin_min_sizes"; "face_bin_max_sizes"; "n_face";
    "n_node"; "n_edge"; "n_nodes_per_face"; "n_max_face_faces"; "edge_face_distance"; "edge_length";
    "face_node_connectivity"; "face_face_connectivity"; "face_edge_connectivity"; "node_face_connectivity";
    "edge_face_connectivity"; "edge_node_connectivity"; "face_tree"; "node_tree"; "edge_tree"; "get_crs";
    "crs"; "is_new"; "data_composer"; "face_variables"; "node_variables" ].
(** The variables that cratermaker puts on a surface: surface/__init__.py:2251-2563, 77-90,
    hireslocal.py:730-742, morphology/__init__.py:605-655, counting/__init__.py:211-290. *)
Definition surface_variables : list string :=
  [ "face_elevation"; "node_elevation"; "ejecta_thickness"; "crater_id"; "is_local_face"; "is_local_node" ].

Definition mem (n : string) (l : list string) : bool := existsb (String.eqb n) l.

Section Objects.
Variable val : Type.
(** The attributes of a value. *)
Definition part := string -> option val.
Variable attributes : val -> part.

(* ------------------------------ craters ------------------------------ *)
(** A crater object: what its class defines, and the two parts of the instance, which an object has only once
    they have been assigned. *)
Record obj := mkObj { cls : part; o_fixed : option part; o_var : option part }.
Inductive slot := Fixed | Var.
Definition slot_name (s : slot) : string := match s with Fixed => "_fixed" | Var => "_var" end.
Definition stored (o : obj) (s : slot) : option part := match s with Fixed => o_fixed o | Var => o_var o end.
(** __getattr__: crater/__init__.py:462-472; Some None is AttributeError.  self._fixed and self._var are
    themselves attributes. *)
Fixpoint getattr_ (fuel : nat) (o : obj) (name : string) : option (option val) :=
  match fuel with
  | O => None
  | S k =>
      let own s := match stored o s with
                   | Some p => Some (Some p)
                   | None => match getattr_ k o (slot_name s) with
                             | None => None
                             | Some None => Some None
                             | Some (Some v) => Some (Some (attributes v))
                             end
                   end in
      match own Fixed with
      | None => None
      | Some None => Some None
      | Some (Some p) =>
          match p name with
          | Some v => Some (Some v)
          | None => match own Var with
                    | None => None
                    | Some None => Some None
                    | Some (Some q) => match q name with Some v => Some (Some v) | None => Some None end
                    end
          end
      end
  end.
(** obj.name, for a name other than _fixed and _var. *)
Definition read (fuel : nat) (o : obj) (name : string) : option (option val) :=
  match cls o name with Some v => Some (Some v) | None => getattr_ fuel o name end.

(** copy.copy, copy.deepcopy and pickle.loads: a new object of the class is made without calling __init__, and
    asked for __setstate__, before it gets its state. *)
Definition bare (o : obj) : obj := mkObj (cls o) None None.
Definition copied (fuel : nat) (o : obj) : option obj :=
  match read fuel (bare o) "__setstate__" with None => None | Some _ => Some o end.
(** dir(obj): crater/__init__.py:504-511, which reads self.fixed and self.var. *)
Definition listed (fuel : nat) (o : obj) : option (result unit) :=
  match read fuel o "fixed" with
  | None => None
  | Some None => Some (Err AttributeError)
  | Some (Some _) => match read fuel o "var" with None => None | Some None => Some (Err AttributeError) | Some (Some _) => Some (Ok tt) end
  end.
(** obj.name = x: crater/__init__.py:474-490; [put] is what setattr of the variable part does. *)
Definition set_name (put : string -> val -> part -> result part) (o : obj) (name : string) (x : val) : obj * option exn :=
  if mem name fixed_fields then (o, Some AttributeError)
  else match o_var o with
       | Some p => match p name with
                   | Some _ => match put name x p with Ok p' => (mkObj (cls o) (o_fixed o) (Some p'), None) | Err e => (o, Some e) end
                   | None => (o, None)
                   end
       | None => (o, Some RuntimeError)    (** the recursion error of a bare object *)
       end.

(* ------------------------------ as_dict ------------------------------ *)
Inductive keys := AsTuple (l : list string) | AsList (l : list string).
Definition names_of (k : keys) : list string := match k with AsTuple l => l | AsList l => l end.
Definition complex_names : list string :=
  [ "morphology"; "affected_face_indices"; "affected_node_indices"; "ejecta_region"; "crater_region" ].
(** MorphologyCrater.as_dict (morphology/__init__.py:195-215): the dictionary, and what the caller's argument is
    afterwards: += extends a list in place. *)
Definition as_dict (all : list (string * val)) (ignore : keys) (skip : bool) : list (string * val) * keys :=
  let after := if skip then match ignore with AsTuple l => AsTuple l | AsList l => AsList (l ++ complex_names)%list end else ignore in
  let dropped := if skip then (names_of ignore ++ complex_names)%list else names_of ignore in
  (filter (fun p => negb (mem (fst p) dropped)) all, after).
(** A sequence of calls with the same object for the keys. *)
Fixpoint calls (all : list (string * val)) (ignore : keys) (skips : list bool) : keys :=
  match skips with [] => ignore | b :: r => calls all (snd (as_dict all ignore b)) r end.

(* ------------------------------ surfaces ------------------------------ *)
(** A surface: the value of a name that the class defines, and _uxds if it has been assigned: a dataset or None. *)
Record surf := mkSurf { s_class : string -> val; s_uxds : option (option part) }.
(** Surface.__getattr__: surface/__init__.py:193-207; the property uxds reads self._uxds (1444-1447). *)
Fixpoint s_getattr_ (fuel : nat) (s : surf) (name : string) : option (result val) :=
  match fuel with
  | O => None
  | S k =>
      match s_uxds s with
      | Some (Some d) => Some (match d name with Some v => Ok v | None => Err AttributeError end)
      | Some None => Some (Err TypeError)
      | None => match s_getattr_ k s "_uxds" with
                | None => None
                | Some (Ok v) => Some (match attributes v name with Some w => Ok w | None => Err AttributeError end)
                | Some (Err e) => Some (Err e)
                end
      end
  end.
Definition s_read (fuel : nat) (s : surf) (name : string) : option (result val) :=
  if mem name (surface_names ++ base_names)%list then Some (Ok (s_class s name)) else s_getattr_ fuel s name.
Definition s_copied (fuel : nat) (s : surf) : option surf :=
  match s_read fuel (mkSurf (s_class s) None) "__setstate__" with None => None | Some _ => Some s end.
(** surface.add_data of a new variable (Region_model has the data). *)
Definition add_variable (s : surf) (name : string) (v : val) : surf :=
  mkSurf (s_class s) (match s_uxds s with Some (Some d) => Some (Some (fun n => if String.eqb n name then Some v else d n)) | u => u end).
End Objects.
