(** C102: the shape a user gives to a lunar crater is the shape it has and keeps. *)
From Coq Require Import Reals.
From Verif Require Import Common Crater_model Lunar_model Lunar_spec Lunar_proofs.
Open Scope R_scope.

(** Making a crater: every dimension that was given is the crater's, and every other is the
    published one for the crater's type and diameter.  What is missing: see the refutations. *)
Theorem C102_shape_partial : forall core, plain_core core ->
  forall old kw c, lunar_maker core old kw = Ok c ->
  exists mt d, get "morphology_type" c = Some (VStr mt) /\ diameter_of c = Some d /\
    forall k, of_shape k ->
      exists v, get k c = Some v /\
        match get k kw with Some given => v = given | None => standard_value mt d k v end.
Proof. exact lunar_shape. Qed.
Print Assumptions C102_shape_partial.

Example C102_shape_case : exists c, lunar_maker case_core None case_kw = Ok c /\
  get "rim_height" c = Some (VNum 5) /\ get "peak_height" c = Some VNone /\
  get "floor_diameter" c = Some (VNum (law (200 / 1000) (1143 / 1000) 2000)).
Proof. exact shape_case. Qed.

(** The published dimensions are unambiguous. *)
Theorem C102_one_standard : forall mt d k v w, standard_value mt d k v -> standard_value mt d k w -> v = w.
Proof. exact standard_unique. Qed.
Print Assumptions C102_one_standard.

Example C102_one_standard_case : standard_value "simple" 2000 "peak_height" VNone.
Proof. constructor. now left. Qed.

(** A crater is made whenever its sizes and its type are known, no keyword is one that is
    already worked out, and the measured diameter, if given, is a number. *)
Theorem C102_makes : forall core old kw args a b mt,
  core old (filter (fun p => is_explicit (fst p)) kw) = Ok (args, false) ->
  get "semimajor_axis" args = Some (VNum a) -> get "semiminor_axis" args = Some (VNum b) ->
  get "morphology_type" args = Some (VStr mt) -> bowl mt \/ floored mt ->
  has "scaling" kw = false ->
  (forall p, In p kw -> is_explicit (fst p) = false -> has (fst p) args = false) ->
  (get "measured_diameter" kw = None \/ exists m, get "measured_diameter" kw = Some (VNum m)) ->
  exists c, lunar_maker core old kw = Ok c /\ get "morphology_type" c = Some (VStr mt) /\
    diameter_of c = Some (sqrt (a * b) * 2).
Proof. exact lunar_makes. Qed.
Print Assumptions C102_makes.

Example C102_makes_case : exists c, lunar_maker case_core None case_kw = Ok c /\
  get "morphology_type" c = Some (VStr "simple") /\ diameter_of c = Some (sqrt (1000 * 1000) * 2).
Proof. exact (case_made case_kw (or_introl eq_refl)). Qed.

(** Only the five known types of crater are made. *)
Theorem C102_known_type : forall core old kw c, lunar_maker core old kw = Ok c ->
  exists mt, get "morphology_type" c = Some (VStr mt) /\ (bowl mt \/ floored mt).
Proof. exact lunar_type_known. Qed.
Print Assumptions C102_known_type.

Example C102_known_type_case : exists c, lunar_maker case_core None case_kw = Ok c /\
  get "morphology_type" c = Some (VStr "simple") /\ diameter_of c = Some (sqrt (1000 * 1000) * 2).
Proof. exact (case_made case_kw (or_introl eq_refl)). Qed.

(** A copy of a crater of standard shape has the shape of the original, if it has the same
    type and size. *)
Theorem C102_copy_partial : forall core, plain_core core ->
  forall c0 c mt d, lunar_maker core (Some c0) [] = Ok c ->
  get "morphology_type" c = Some (VStr mt) -> diameter_of c = Some d ->
  (forall k v, of_shape k -> get k c0 = Some v -> standard_value mt d k v) ->
  forall k v, of_shape k -> get k c0 = Some v -> get k c = Some v.
Proof. exact copy_standard. Qed.
Print Assumptions C102_copy_partial.

(** Copying a lunar crater loses the shape its user gave it: a crater made with a rim 5 m high
    has, once copied (crater=c and nothing else), the standard rim of its diameter.  The copy
    is what counting and saving make of a crater. *)
Theorem C102_copy_refuted : exists core c c', plain_core core /\
  lunar_maker core None case_kw = Ok c /\ lunar_maker core (Some c) [] = Ok c' /\
  get "rim_height" c = Some (VNum 5) /\ get "rim_height" c' <> Some (VNum 5) /\
  get "morphology_type" c' = get "morphology_type" c /\ diameter_of c' = diameter_of c.
Proof.
  exact (match copy_loses with
         | ex_intro _ c (ex_intro _ c' H) => ex_intro _ case_core (ex_intro _ c (ex_intro _ c' (conj case_plain H)))
         end).
Qed.
Print Assumptions C102_copy_refuted.

(** In fact no copy takes anything of its shape from the original. *)
Theorem C102_copy_is_standard : forall core, plain_core core ->
  forall c0 c, lunar_maker core (Some c0) [] = Ok c ->
  exists mt d, get "morphology_type" c = Some (VStr mt) /\ diameter_of c = Some d /\
    forall k, of_shape k -> exists v, get k c = Some v /\ standard_value mt d k v.
Proof. exact copy_ignores. Qed.
Print Assumptions C102_copy_is_standard.

Example C102_copy_case : exists c c', lunar_maker case_core None case_kw = Ok c /\
  lunar_maker case_core (Some c) [] = Ok c' /\
  get "rim_height" c = Some (VNum 5) /\ get "rim_height" c' <> Some (VNum 5) /\
  get "morphology_type" c' = get "morphology_type" c /\ diameter_of c' = diameter_of c.
Proof. exact copy_loses. Qed.

(** None given for a dimension is not "not given": the dimension is then None and not the
    standard one, for a rim height as for any other. *)
Theorem C102_none_refuted : forall core, plain_core core ->
  forall old kw c k, of_shape k -> get k kw = Some VNone ->
  lunar_maker core old kw = Ok c -> get k c = Some VNone.
Proof. exact none_given. Qed.
Print Assumptions C102_none_refuted.

(** No dimension is checked: a rim five metres below the ground around a floor five metres
    above it is accepted. *)
Theorem C102_unchecked_refuted : exists core c, plain_core core /\
  lunar_maker core None [("radius", VNum 1000); ("rim_height", VNum (-5)); ("floor_depth", VNum 5)]%string = Ok c /\
  get "rim_height" c = Some (VNum (-5)) /\ get "floor_depth" c = Some (VNum 5).
Proof.
  exact (match unchecked with
         | ex_intro _ c H => ex_intro _ case_core (ex_intro _ c (conj case_plain H))
         end).
Qed.
Print Assumptions C102_unchecked_refuted.

(** The type of a crater whose sizes are worked out cannot be given: morphology_type, an
    attribute of every crater, raises TypeError as a keyword, whatever its value. *)
Theorem C102_type_keyword_refuted : forall core, plain_core core ->
  forall old kw v args,
  core old (filter (fun p => is_explicit (fst p)) kw) = Ok (args, false) ->
  has "scaling" kw = false -> get "morphology_type" kw = Some v -> lunar_maker core old kw = Err TypeError.
Proof. exact type_keyword. Qed.
Print Assumptions C102_type_keyword_refuted.

(** Nor can the scaling. *)
Theorem C102_scaling_keyword_refuted : forall core old kw, has "scaling" kw = true ->
  lunar_maker core old kw = Err TypeError.
Proof. exact scaling_keyword. Qed.
Print Assumptions C102_scaling_keyword_refuted.

(** And measured_diameter=None, which is its documented default, never gives a crater. *)
Theorem C102_measured_none_refuted : forall core old kw c,
  get "measured_diameter" kw = Some VNone -> lunar_maker core old kw <> Ok c.
Proof. exact measured_none. Qed.
Print Assumptions C102_measured_none_refuted.

Example C102_keywords_case :
  lunar_maker case_core None [("radius", VNum 1000); ("morphology_type", VStr "complex")]%string = Err TypeError /\
  lunar_maker case_core None [("radius", VNum 1000); ("scaling", VStr "montecarlo")]%string = Err TypeError.
Proof.
  exact (conj (C102_type_keyword_refuted case_core case_plain None
                 [("radius", VNum 1000); ("morphology_type", VStr "complex")]%string (VStr "complex")
                 [("semimajor_axis", VNum 1000); ("semiminor_axis", VNum 1000); ("morphology_type", VStr "simple")]%string
                 eq_refl eq_refl eq_refl)
              (C102_scaling_keyword_refuted case_core None
                 [("radius", VNum 1000); ("scaling", VStr "montecarlo")]%string eq_refl)).
Qed.

(** A measured diameter or radius that comes with a crater is turned into the two measured axes. *)
Theorem C102_measured_axes : forall kw kw', scrub kw = Ok kw' ->
  (forall d, get "measured_diameter" kw = Some (VNum d) ->
     get "measured_semimajor_axis" kw' = Some (VNum (d / 2)) /\ get "measured_semiminor_axis" kw' = Some (VNum (d / 2)) /\ get "measured_diameter" kw' = None) /\
  (forall r, get "measured_diameter" kw = None -> get "measured_radius" kw = Some r ->
     get "measured_semimajor_axis" kw' = Some r /\ get "measured_semiminor_axis" kw' = Some r /\ get "measured_radius" kw' = None) /\
  (get "measured_diameter" kw = None -> get "measured_radius" kw = None -> kw' = kw).
Proof. exact scrub_sizes. Qed.
Print Assumptions C102_measured_axes.

Example C102_measured_axes_case : exists kw, scrub [("measured_diameter"%string, VNum 10)] = Ok kw.
Proof. eexists. reflexivity. Qed.
