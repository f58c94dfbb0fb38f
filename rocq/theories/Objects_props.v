(** C112: craters and surfaces can be used like other Python objects. *)
From Verif Require Import Common Objects_model Objects_spec Objects_proofs.
Import ListNotations.
Open Scope string_scope.

(** Reading crater.name, for every crater and name: the class first, then the fixed part, then the variable
    part, and AttributeError when none has it. *)
Theorem C112_reads : forall val attributes (o : obj val) p q n, made o p q ->
  answers (fun k => read val attributes k o n) (first_found (cls val o n) (p n) (q n)).
Proof. exact reads. Qed.
Print Assumptions C112_reads.
Example C112_reads_ex :
  let o := mkObj nat (fun n => if String.eqb n "as_dict" then Some 0 else None)
             (Some (fun n => if String.eqb n "diameter" then Some 1 else None))
             (Some (fun n => if String.eqb n "name" then Some 2 else None)) in
  read nat (fun _ _ => None) 1 o "diameter" = Some (Some 1) /\
  read nat (fun _ _ => None) 1 o "name" = Some (Some 2) /\
  read nat (fun _ _ => None) 1 o "colour" = Some None.
Proof. repeat split. Qed.

(** No field of a crater is hidden by a method of the class, and no field is in both parts. *)
Theorem C112_own_fields :
  (forall n, In n (fixed_fields ++ var_fields) -> ~ In n (crater_names ++ base_names)) /\
  (forall n, In n (fixed_fields ++ lunar_fields) -> ~ In n (var_fields ++ morphology_var_fields)).
Proof. exact (conj own_fields two_parts). Qed.
Print Assumptions C112_own_fields.
Example C112_own_fields_ex : In "diameter" fixed_fields /\ In "measured_diameter" var_fields.
Proof. split; vm_compute; tauto. Qed.

(** For craters made by a morphology model, exactly nine fields are answered by the class: those that are
    computed on demand. *)
Theorem C112_on_demand : forall n,
  In n (fixed_fields ++ lunar_fields ++ var_fields ++ morphology_var_fields) /\
  In n (morphology_crater_names ++ crater_names ++ base_names) <->
  In n ["measured_rim_height"; "measured_floor_depth"; "emplaceable"; "face_index"; "ejecta_rmax";
        "affected_face_indices"; "affected_node_indices"; "ejecta_region"; "crater_region"].
Proof. exact morphology_overlap. Qed.
Print Assumptions C112_on_demand.
Example C112_on_demand_ex : In "face_index" morphology_var_fields /\ In "face_index" morphology_crater_names.
Proof. split; vm_compute; tauto. Qed.

(** Assigning a field of the fixed part is refused and changes nothing.  Assigning a field of the variable part
    does what its setter does: an error leaves the crater as it was; otherwise every name reads from the
    new variable part. *)
Theorem C112_assign : forall val attributes put (o : obj val) x,
  (forall n, In n fixed_fields -> set_name val put o n x = (o, Some AttributeError)) /\
  (forall p q n v0, made o p q -> ~ In n fixed_fields -> q n = Some v0 ->
     match put n x q with
     | Err e => set_name val put o n x = (o, Some e)
     | Ok q' => exists o', set_name val put o n x = (o', None) /\ made o' p q' /\
                forall m, answers (fun k => read val attributes k o' m) (first_found (cls val o m) (p m) (q' m))
     end).
Proof.
  exact (fun val attributes put o x => conj (fun n => assign_fixed val put o n x)
           (fun p q n v0 => assign_var val attributes put o p q n x v0)).
Qed.
Print Assumptions C112_assign.
Example C112_assign_ex :
  ~ In "name" fixed_fields /\
  set_name nat (fun n x p => Ok (fun m => if String.eqb m n then Some x else p m))
    (mkObj nat (fun _ => None) (Some (fun _ => None)) (Some (fun _ => None))) "diameter" 3 =
  (mkObj nat (fun _ => None) (Some (fun _ => None)) (Some (fun _ => None)), Some AttributeError).
Proof. split; [now apply mem_not | reflexivity]. Qed.

(** Assigning a name that a crater does not have (a misspelt field, a note of the user) reports nothing and
    stores nothing: reading it back raises AttributeError. *)
Theorem C112_unknown_assign_refuted : forall val attributes put (o : obj val) p q n x, made o p q ->
  cls val o n = None -> p n = None -> q n = None -> ~ In n fixed_fields ->
  set_name val put o n x = (o, None) /\ answers (fun k => read val attributes k o n) None.
Proof. exact unknown_assign. Qed.
Print Assumptions C112_unknown_assign_refuted.
Example C112_unknown_assign_ex : ~ In "measured_diametre" (fixed_fields ++ var_fields ++ crater_names ++ base_names).
Proof. now apply mem_not. Qed.

(** copy.copy, copy.deepcopy and pickle.loads never give a crater: an object without its parts is asked for
    __setstate__, and looks for its parts in its parts for ever (RecursionError). *)
Theorem C112_copy_refuted : forall val attributes (o : obj val), cls val o "__setstate__" = None ->
  never_ends (fun k => copied val attributes k o).
Proof. exact copy_never. Qed.
Print Assumptions C112_copy_refuted.
Example C112_copy_ex : ~ In "__setstate__" (morphology_crater_names ++ crater_names ++ base_names).
Proof. now apply mem_not. Qed.

(** dir(crater) raises AttributeError: it reads the parts under names that do not exist. *)
Theorem C112_dir_refuted : forall val attributes (o : obj val) p q, made o p q ->
  cls val o "fixed" = None -> p "fixed" = None -> q "fixed" = None ->
  answers (fun k => listed val attributes k o) (Err AttributeError).
Proof. exact dir_fails. Qed.
Print Assumptions C112_dir_refuted.
Example C112_dir_ex : ~ In "fixed" (fixed_fields ++ lunar_fields ++ var_fields ++ morphology_var_fields ++
                                    morphology_crater_names ++ crater_names ++ base_names).
Proof. now apply mem_not. Qed.

(** as_dict gives exactly the entries whose names are not ignored, in their order, and a tuple of names to
    ignore is never changed. *)
Theorem C112_as_dict : forall val (all : list (string * val)) ign skip,
  (forall n v, In (n, v) (fst (as_dict val all ign skip)) <->
     In (n, v) all /\ ~ In n (names_of ign) /\ (skip = true -> ~ In n complex_names)) /\
  (exists keep, fst (as_dict val all ign skip) = filter keep all) /\
  (forall l bs, calls val all (AsTuple l) bs = AsTuple l).
Proof.
  exact (fun val all ign skip => conj (as_dict_spec val all ign skip)
           (conj (as_dict_order val all ign skip) (tuple_kept val all))).
Qed.
Print Assumptions C112_as_dict.
Example C112_as_dict_ex :
  fst (as_dict nat [("id", 1); ("time", 2); ("crater_region", 3)] (AsTuple ["time"]) true) = [("id", 1)].
Proof. reflexivity. Qed.

(** A list of names to ignore is changed by every call that leaves out the complex data: it gets five more names
    each time, and a later call that asks for these data does not get them. *)
Theorem C112_as_dict_refuted : forall val (all : list (string * val)) bs l,
  (exists l', calls val all (AsList l) bs = AsList (l ++ l')%list /\
     List.length l' = (5 * count_occ Bool.bool_dec bs true)%nat) /\
  (In true bs -> forall n v, In n complex_names ->
     ~ In (n, v) (fst (as_dict val all (calls val all (AsList l) bs) false))).
Proof.
  exact (fun val all bs l => conj
    (match list_grows val all bs l with ex_intro _ l' (conj E (conj L _)) => ex_intro _ l' (conj E L) end)
    (fun B n v C => list_loses val all bs l n v B C)).
Qed.
Print Assumptions C112_as_dict_refuted.
Example C112_as_dict_refuted_ex :
  fst (as_dict nat [("id", 1); ("crater_region", 3)] (calls nat [] (AsList ["time"]) [true]) false) = [("id", 1)] /\
  fst (as_dict nat [("id", 1); ("crater_region", 3)] (AsList ["time"]) false) = [("id", 1); ("crater_region", 3)].
Proof. split; reflexivity. Qed.

(** Reading surface.name when there are data: the class, then the variable of that name, then AttributeError;
    every variable that the package adds is read so. *)
Theorem C112_surface_reads : forall val attributes (s : surf val) d, s_uxds val s = Some (Some d) ->
  (forall n, answers (fun k => s_read val attributes k s n)
     (if in_dec string_dec n (surface_names ++ base_names) then Ok (s_class val s n)
      else match d n with Some v => Ok v | None => Err AttributeError end)) /\
  (forall n, In n surface_variables -> ~ In n (surface_names ++ base_names)).
Proof. exact (fun val attributes s d U => conj (fun n => surface_reads val attributes s d n U) surface_own). Qed.
Print Assumptions C112_surface_reads.
Example C112_surface_reads_ex :
  s_read nat (fun _ _ => None) 1 (mkSurf nat (fun _ => 0) (Some (Some (fun n => if String.eqb n "face_elevation" then Some 7 else None)))) "face_elevation" = Some (Ok 7).
Proof. reflexivity. Qed.

(** A variable added by the user is read under its own name if the class does not use it, and nothing else
    changes. *)
Theorem C112_added_partial : forall val attributes (s : surf val) d n v, s_uxds val s = Some (Some d) ->
  ~ In n (surface_names ++ base_names) ->
  answers (fun k => s_read val attributes k (add_variable val s n v) n) (Ok v) /\
  (forall m, m <> n -> forall k, s_read val attributes k (add_variable val s n v) m = s_read val attributes k s m).
Proof.
  exact (fun val attributes s d n v U I => conj (added val attributes s d n v U I)
           (fun m NE => added_others val attributes s d n v m U NE)).
Qed.
Print Assumptions C112_added_partial.
Example C112_added_ex : ~ In "ice_thickness" (surface_names ++ base_names).
Proof. now apply mem_not. Qed.

(** A variable added under a name of the class (radius, area, crs, …) cannot be read as an attribute: the
    class answers. *)
Theorem C112_added_refuted : forall val attributes (s : surf val) n v, In n (surface_names ++ base_names) ->
  forall k, s_read val attributes k (add_variable val s n v) n = Some (Ok (s_class val s n)).
Proof. exact shadowed. Qed.
Print Assumptions C112_added_refuted.
Example C112_added_refuted_ex : In "radius" (surface_names ++ base_names) /\ In "area" (surface_names ++ base_names).
Proof. split; vm_compute; tauto. Qed.

(** On a surface that has no data yet, any other name raises TypeError, not AttributeError: hasattr fails. *)
Theorem C112_unloaded_refuted : forall val attributes (s : surf val) n, s_uxds val s = Some None ->
  ~ In n (surface_names ++ base_names) ->
  answers (fun k => s_read val attributes k s n) (Err TypeError).
Proof. exact surface_unloaded. Qed.
Print Assumptions C112_unloaded_refuted.
Example C112_unloaded_ex : ~ In "face_elevation" (surface_names ++ base_names).
Proof. now apply mem_not. Qed.

(** No surface can be copied or unpickled: RecursionError. *)
Theorem C112_surface_copy_refuted : forall val attributes (s : surf val),
  never_ends (fun k => s_copied val attributes k s).
Proof. exact surface_copy. Qed.
Print Assumptions C112_surface_copy_refuted.
Example C112_surface_copy_ex : s_copied nat (fun _ _ => None) 50 (mkSurf nat (fun _ => 0) (Some None)) = None.
Proof. reflexivity. Qed.
