(** C04, C05, C19, C20 and C59: catalogues, keyword arguments and saved configurations. *)
From Coq Require Import QArith Reals.
From Verif Require Import Common Conf_model Conf_spec Conf_base Conf_proofs Conf_scal.
Open Scope string_scope.

(** C04: for every object whose setters change at most their own attribute, when all
    values offered are accepted: a keyword that is not None wins over the selected catalogue
    entry, which wins over the file, which wins over the present value; attributes that
    cannot be set are not changed and are reported back as unmatched with their value; the
    catalogue is as before. *)
Theorem C04_precedence : forall (V obj : Type) settable setter (attr : obj -> string -> option V) acc as_key of_key ck
    (cat : catalogue V) file (kw : kwargs V) (o : obj),
  well_behaved settable setter attr acc ->
  (forall v k, as_key v = Some k -> of_key k = v) ->
  is_dict kw -> (forall k e, pget k cat = Some e -> is_dict e /\ pget ck e = None) ->
  (forall d, file = Some (Some d) -> is_dict d) ->
  (forall a v, given kw a = Some v \/ from_entry (selected as_key ck cat kw) a = Some v \/ in_file file a = Some v ->
     settable a = true -> acc a v = true) ->
  exists o' matched unmatched,
    set_properties V obj settable setter as_key of_key ck cat file kw o = ((o', cat), Ok (matched, unmatched)) /\
    forall a, let v := orelse (given kw a) (orelse (from_entry (selected as_key ck cat kw) a) (in_file file a)) in
      (settable a = true -> attr o' a = orelse v (attr o a) /\ pget a matched = v /\ pget a unmatched = None) /\
      (settable a = false -> attr o' a = attr o a /\ pget a matched = None /\ pget a unmatched = v).
Proof.
  exact (fun V obj st se at_ ac ak ok ck cat file kw o WB KO D W F A =>
    precedence V obj st se at_ ac WB ak ok KO ck cat file kw o D W F
      (fun a v G S => A a v (or_introl G) S) (fun a v G S => A a v (or_intror (or_introl G)) S)
      (fun a v G S => A a v (or_intror (or_intror G)) S)).
Qed.
Print Assumptions C04_precedence.
Theorem C04_rejected_keyword : forall (V obj : Type) settable setter (attr : obj -> string -> option V) acc as_key of_key ck
    (cat : catalogue V) file (kw : kwargs V) (o : obj) a v,
  well_behaved settable setter attr acc -> given kw a = Some v -> settable a = true -> acc a v = false ->
  exists oc e, set_properties V obj settable setter as_key of_key ck cat file kw o = (oc, Err e).
Proof.
  exact (fun V obj st se at_ ac ak ok ck cat file kw o a v WB => rejected V obj st se at_ ac WB ak ok ck cat file kw o a v).
Qed.
Print Assumptions C04_rejected_keyword.
(** Targets are such objects, with their catalogue. *)
Example C04_case : well_behaved target_settable target_setter attribute tacc /\
  (forall k e, pget k target_catalogue = Some e -> is_dict e /\ pget "name" e = None) /\
  exists e, pget "Mars" target_catalogue = Some e.
Proof. split; [exact target_wb|]. split; [exact target_wf|]. eexists. reflexivity. Qed.

(** C04: a rejected keyword leaves its trace in the catalogue shared by all targets. *)
Theorem C04_catalogue_restored_refuted : exists a,
  snd (target_maker target_catalogue (TName "Mars") a) = Err ValueError /\
  exists e, pget "Mars" (fst (target_maker target_catalogue (TName "Mars") a)) = Some e /\
            pget "name" e = Some (VStr "Mars").
Proof. exact catalogue_trace. Qed.
Print Assumptions C04_catalogue_restored_refuted.

(** C19: construction from a name.  It succeeds exactly when the arguments are valid and
    the radius, mass and scale type are given or known; each attribute is then the argument if
    given and otherwise the catalogue value; the only other outcome is ValueError (in
    particular when both radius and diameter are given); the catalogue is unchanged. *)
Theorem C19_construction : forall n a,
  (forall t, snd (target_maker target_catalogue (TName n) a) = Ok t ->
     valid_args a /\ made n a t /\ fst (target_maker target_catalogue (TName n) a) = target_catalogue) /\
  (valid_args a -> orelse (size_arg a) (entry_num n "radius") <> None ->
     orelse (a_mass a) (entry_num n "mass") <> None -> orelse (a_scale a) (entry_str n "transition_scale_type") <> None ->
     exists t, snd (target_maker target_catalogue (TName n) a) = Ok t) /\
  (forall e, snd (target_maker target_catalogue (TName n) a) = Err e -> e = ValueError).
Proof. exact construction. Qed.
Print Assumptions C19_construction.
Example C19_case : exists t, snd (target_maker target_catalogue (TName "Planet X")
   {| a_radius := None; a_diameter := Some 5000000%Q; a_mass := Some (10 ^ 24)%Q; a_scale := Some "ice"; a_material := None; a_density := None |}) = Ok t.
Proof. eexists. vm_compute. reflexivity. Qed.

(** C19: after any sequence of assignments, each attribute is the value of its last
    acceptable assignment; the others raise and change nothing. *)
Theorem C19_last_assignment : forall t k,
  (forall l1 v l2, acceptable k v -> (forall w, In (k, w) l2 -> ~ acceptable k w) ->
     attribute (assign_all (l1 ++ (k, v) :: l2)%list t) k = v) /\
  (forall l, (forall w, In (k, w) l -> ~ acceptable k w) -> attribute (assign_all l t) k = attribute t k) /\
  (forall v, snd (target_assign k v t) = None <-> acceptable k v).
Proof. exact (fun t k => conj (proj1 (last_assignment t k)) (conj (proj2 (last_assignment t k)) (fun v => raised k v t))). Qed.
Print Assumptions C19_last_assignment.

(** C19: a constructed target, after any sequence of assignments, has a positive radius
    and mass, a positive density if any, and a valid scale type if any. *)
Theorem C19_sound : forall n a t l, snd (target_maker target_catalogue (TName n) a) = Ok t -> sound (assign_all l t).
Proof.
  exact (fun n a t l H => sound_all l t (match proj1 (construction n a) t H with conj V (conj M _) => made_sound n a t V M end)).
Qed.
Print Assumptions C19_sound.

(** C19: derived quantities for every positive radius and mass. *)
Theorem C19_derived : forall r m, (0 < r)%R -> (0 < m)%R ->
  (t_gravity r m * r ^ 2 = G_value * m)%R /\ (0 < t_gravity r m)%R /\
  (0 < t_escape r m)%R /\ (t_escape r m ^ 2 = 2 * G_value * m / r)%R /\
  (t_volume r = t_surface_area r * t_diameter r / 6)%R /\ (t_surface_area r = t_circumference r * t_diameter r)%R.
Proof. exact derived. Qed.
Print Assumptions C19_derived.

(** C05: after any sequence of assignments, the saved configuration holds the declared
    parameters (radius, material and density) that were assigned, at construction or later,
    with their present value, and nothing else. *)
Theorem C05_saved_parameters : forall l t k,
  (In k params -> (In k (t_user t) \/ exists v, In (k, v) l) ->
     pget k (target_config (assign_all l t)) = attribute (assign_all l t) k) /\
  ((~ In k params \/ (~ In k (t_user t) /\ forall v, ~ In (k, v) l)) -> pget k (target_config (assign_all l t)) = None).
Proof. exact saved_parameters. Qed.
Print Assumptions C05_saved_parameters.
(** C05: construction counts values that come from the catalogue as assigned. *)
Theorem C05_only_user_values_refuted : forall n a t, snd (target_maker target_catalogue (TName n) a) = Ok t ->
  forall x, In x (t_user t) <-> x = "radius" \/ (x = "material" /\ t_material t <> None) \/ (x = "density" /\ a_density a <> None).
Proof. exact made_user. Qed.
Print Assumptions C05_only_user_values_refuted.
Example C05_case : exists t, snd (target_maker target_catalogue (TName "Mars") no_args) = Ok t /\
  target_config t = [("radius", VNum 3389920); ("material", VStr "Soft Rock")].
Proof. eexists. split; vm_compute; reflexivity. Qed.

(** C05: rebuilding from the saved configuration gives the same attributes if mass and
    scale type were not given ... *)
Theorem C05_rebuild_partial : forall n a t, snd (target_maker target_catalogue (TName n) a) = Ok t ->
  a_mass a = None -> a_scale a = None ->
  exists t', snd (resume_target target_catalogue (n, target_config t) None) = Ok t' /\
             forall k, attribute t' k = attribute t k.
Proof. exact rebuild. Qed.
Print Assumptions C05_rebuild_partial.
(** ... and otherwise does not: the mass is never saved, so that a body of the catalogue
    gets its catalogue mass back and any other body cannot be rebuilt at all. *)
Theorem C05_rebuild_refuted : forall n a t, snd (target_maker target_catalogue (TName n) a) = Ok t ->
  pget "mass" (target_config t) = None /\
  (pget n target_catalogue = None -> snd (resume_target target_catalogue (n, target_config t) None) = Err ValueError) /\
  (pget n target_catalogue <> None -> exists t', snd (resume_target target_catalogue (n, target_config t) None) = Ok t' /\
     t_mass t' = entry_num n "mass").
Proof. exact resume_mass. Qed.
Print Assumptions C05_rebuild_refuted.

(** C59 is false: resuming in the directory of a run on [n] with target [n'] gives a body
    with the name, mass and scale type of [n'] and the radius and material of [n]. *)
Theorem C59_explicit_target_refuted : forall n n', pget n target_catalogue <> None -> pget n' target_catalogue <> None ->
  exists t t', snd (target_maker target_catalogue (TName n) no_args) = Ok t /\
    snd (resume_target target_catalogue (n, target_config t) (Some n')) = Ok t' /\
    t_name t' = Some n' /\ t_mass t' = entry_num n' "mass" /\ t_scale t' = entry_str n' "transition_scale_type" /\
    t_radius t' = entry_num n "radius" /\ t_material t' = entry_str n "material".
Proof. exact resume_other. Qed.
Print Assumptions C59_explicit_target_refuted.
Example C59_case : entry_num "Moon" "radius" = Some 1737530%Q /\ entry_num "Mars" "radius" = Some 3389920%Q.
Proof. split; reflexivity. Qed.

(** C20: the attributes of a scaling model and its target.  The parameters are the
    arguments if given and else those of the material; the target changes in its density
    only, which is the argument if given, else that of the material if it is known, else the
    one the target had. *)
Theorem C20_density_exact_partial : forall t a s, scal_init t a = Ok s -> exists m, orelse (sa_material a) (t_material t) = Some m /\
  s_material s = Some (title m) /\
  t_density (s_target s) = orelse (sa_density a) (orelse (known_density (title m)) (t_density t)) /\
  s_K1 s = orelse (sa_K1 a) (mat_num (title m) "K1") /\ s_mu s = orelse (sa_mu a) (mat_num (title m) "mu") /\
  s_Ybar s = orelse (sa_Ybar a) (mat_num (title m) "Ybar") /\
  (forall k, k <> "density" -> attribute (s_target s) k = attribute t k).
Proof. exact scal_exact. Qed.
Print Assumptions C20_density_exact_partial.
(** So the density that the user gave to a target of known material is lost ... *)
Theorem C20_user_density_refuted : exists t s d,
  snd (target_maker target_catalogue (TName "Mars")
    {| a_radius := None; a_diameter := None; a_mass := None; a_scale := None; a_material := None; a_density := Some d |}) = Ok t /\
  t_density t = Some d /\
  scal_init t {| sa_material := None; sa_K1 := None; sa_mu := None; sa_Ybar := None; sa_density := None |} = Ok s /\
  t_density (s_target s) = Some 2250%Q /\ d = 3000%Q.
Proof. exact user_density_lost. Qed.
Print Assumptions C20_user_density_refuted.
(** ... and when a scaling model is made for a target given by name, all the target
    properties given with it are lost, the density among them. *)
Theorem C20_named_target_refuted : forall n ta a s, scal_maker target_catalogue (TName n) ta a = Ok s -> made n no_args (s_target s).
Proof. exact scal_maker_name. Qed.
Print Assumptions C20_named_target_refuted.
(** C20: the material of a scaling model made for a target given by name, and with it each
    parameter, is that of its own arguments and else that of the catalogue entry. *)
Theorem C20_named_target_parameters : forall n ta a s, scal_maker target_catalogue (TName n) ta a = Ok s ->
  exists m, orelse (sa_material a) (entry_str n "material") = Some m /\ s_material s = Some (title m) /\
  s_K1 s = orelse (sa_K1 a) (mat_num (title m) "K1") /\ s_mu s = orelse (sa_mu a) (mat_num (title m) "mu") /\
  s_Ybar s = orelse (sa_Ybar a) (mat_num (title m) "Ybar").
Proof. exact scal_maker_params. Qed.
Print Assumptions C20_named_target_parameters.
(** C20: without a target the Moon is used, with the radius, diameter, mass and scale type
    given; material and density are arguments of the scaling model, not of the target. *)
Theorem C20_default_target : forall ta a s, scal_maker target_catalogue TNone ta a = Ok s ->
  exists t, made "Moon" {| a_radius := a_radius ta; a_diameter := a_diameter ta; a_mass := a_mass ta; a_scale := a_scale ta;
               a_material := None; a_density := None |} t /\ scal_init t a = Ok s.
Proof. exact scal_maker_default. Qed.
Print Assumptions C20_default_target.
Example C20_case : exists s, scal_maker target_catalogue (TName "Mars") no_args
   {| sa_material := None; sa_K1 := None; sa_mu := None; sa_Ybar := None; sa_density := Some 3000%Q |} = Ok s.
Proof. eexists. vm_compute. reflexivity. Qed.
