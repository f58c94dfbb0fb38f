(** C90: the exported crater table (CSV).  C91: the exported crater list (SCC).  C92: the export
    of all saved intervals. *)
From Coq Require Import Reals NArith Lra.
From Verif Require Import Common Sorting Conf_model Crater_model Crater_spec Crater_proofs Export_model Export_spec
  Export_table Export_scc Export_files Export_cases.
Open Scope R_scope.

Section Props.
Variables (dataset : Type) (from_ds : dataset -> option Z -> result (list crater)).

(** A list of craters is exported as a table of one header and one row for each crater, in the
    order of the list.  Each cell is the value of its crater in that column, blank if it has none;
    no column appears twice, and the columns are those in which the first crater has a value. *)
Theorem C90_table : forall st kind iv c cs file, kind = "observed"%string \/ kind = "emplaced"%string -> Forall regular (c :: cs) ->
  exists h t, to_csv dataset from_ds true st kind iv (CraterList (map Some (c :: cs))) file = (Some t, None) /\
    shows h (c :: cs) t /\ NoDup h /\ forall k, In k h <-> csv_value k c <> None.
Proof. exact (@table_shows dataset from_ds). Qed.
Print Assumptions C90_table.
Example C90_table_ex : Forall regular [timed_one; oval_one; round_one] /\ ex_made timed_one /\ ex_made oval_one.
Proof. exact (conj (Forall_cons _ (round_regular _ _) (Forall_cons _ oval_regular (Forall_cons _ (round_regular _ _) (Forall_nil _)))) (conj timed_made oval_made)). Qed.

(** Without craters the table is empty: there is not even a header. *)
Theorem C90_empty : forall st kind iv file, kind = "observed"%string \/ kind = "emplaced"%string ->
  to_csv dataset from_ds true st kind iv (CraterList []) file = (Some [], None).
Proof. exact (@table_empty dataset from_ds). Qed.
Print Assumptions C90_empty.

(** All the values of all craters are in the table exactly when no crater has a value in a column
    in which the first one has none. *)
Theorem C90_complete_partial : forall c cs h, (forall k, In k h <-> csv_value k c <> None) ->
  ((forall c', In c' cs -> forall k, csv_value k c' <> None -> csv_value k c <> None) <-> complete_table h (c :: cs)).
Proof. exact table_complete. Qed.
Print Assumptions C90_complete_partial.
Example C90_complete_ex : exists h, forall k, In k h <-> csv_value k round_one <> None.
Proof.
  exact (match @table_shows dataset from_ds (mk_counted [] []) "observed" None round_one [] None (or_introl eq_refl)
    (Forall_cons _ (round_regular _ _) (Forall_nil _)) with ex_intro _ h (ex_intro _ _ (conj _ (conj _ (conj _ K)))) => ex_intro _ h K end).
Qed.

(** They need not be: the columns are those of the first crater.  Of two craters, of which the
    second had its measured minor axis set, the table has no measured size of the second: it has
    no column for the axes, and the column of the measured diameter is blank. *)
Theorem C90_lost_refuted : forall st, exists c c' h t, ex_made c /\ ex_made c' /\ regular c /\ regular c' /\
  v_major (vars c') = Some 10 /\ v_minor (vars c') = Some 5 /\
  to_csv dataset from_ds true st "observed" (Some 1%Z) (CraterList [Some c; Some c']) None = (Some t, None) /\
  shows h [c; c'] t /\ ~ In "measured_semimajor_axis"%string h /\ ~ In "measured_semiminor_axis"%string h /\
  shown c' "measured_diameter" = ECell (XText "").
Proof. exact (lost_shape dataset from_ds). Qed.
Print Assumptions C90_lost_refuted.

(** A crater without a size, a location or a measured location ends the export with an exception;
    the file is replaced by one with the rows before it, and no row after it is written. *)
Theorem C90_stops_partial : forall st kind iv c pre bad post file, kind = "observed"%string \/ kind = "emplaced"%string ->
  Forall regular (c :: pre) -> extra_ok bad -> ~ exportable bad ->
  exists h e, to_csv dataset from_ds true st kind iv (CraterList (map Some ((c :: pre) ++ bad :: post))) file =
     (Some (map (fun k => ECell (XText k)) h :: map (fun c => map (shown c) h) (c :: pre)), Some e).
Proof. exact (@table_stops dataset from_ds). Qed.
Print Assumptions C90_stops_partial.
Example C90_stops_ex : Forall regular [round_one] /\ ex_made lost_one /\ extra_ok lost_one /\ ~ exportable lost_one.
Proof. exact (conj (Forall_cons _ (round_regular _ _) (Forall_nil _)) (conj lost_made lost_bad)). Qed.

(** Such craters can be made: a crater whose measured location was set to None, as its setter
    allows, destroys the exported file it is written to. *)
Theorem C90_cleared_refuted : forall st old, exists c bad h e, ex_made c /\ ex_made bad /\ v_loc (vars bad) = None /\
  to_csv dataset from_ds true st "observed" (Some 1%Z) (CraterList [Some c; Some bad; Some c]) (Some old) =
    (Some [map (fun k => ECell (XText k)) h; map (shown c) h], Some e).
Proof.
  exact (fun st old => match @table_stops dataset from_ds st "observed" (Some 1%Z) round_one [] lost_one [round_one] (Some old) (or_introl eq_refl)
      (Forall_cons _ (round_regular _ _) (Forall_nil _)) (proj1 lost_bad) (proj2 lost_bad) with
    ex_intro _ h (ex_intro _ e Q) => ex_intro _ round_one (ex_intro _ lost_one (ex_intro _ h (ex_intro _ e
      (conj round_made (conj lost_made (conj eq_refl Q)))))) end).
Qed.
Print Assumptions C90_cleared_refuted.

(** The observed craters of the counting object itself cannot be exported: without a list of
    craters, the call always raises an exception (IndexError if there are none and
    UnboundLocalError otherwise), although None is the default of the argument. *)
Theorem C90_default_refuted : forall go st iv file, exists e,
  to_csv dataset from_ds go st "observed" iv FromSelf file = (file, Some e) /\ (e = IndexError <-> observed_ st = []).
Proof. exact (@default_fails dataset from_ds). Qed.
Print Assumptions C90_default_refuted.
(** The emplaced craters of the object are exported like a list of them. *)
Theorem C90_emplaced : forall go st iv file, to_csv dataset from_ds go st "emplaced" iv FromSelf file =
  to_csv dataset from_ds go st "emplaced" iv (CraterList (map Some (emplaced_ st))) file.
Proof. exact (@default_emplaced dataset from_ds). Qed.
Print Assumptions C90_emplaced.
(** A dictionary of datasets, which the call accepts, destroys the file: it is replaced by an
    empty one before an AttributeError is raised. *)
Theorem C90_datasets_refuted : forall st kind iv p l file, kind = "observed"%string \/ kind = "emplaced"%string ->
  to_csv dataset from_ds true st kind iv (DatasetDict (p :: l)) file = (Some [], Some AttributeError).
Proof. exact (@datasets_fail dataset from_ds). Qed.
Print Assumptions C90_datasets_refuted.

Variables (dist : R * R -> R * R -> R) (overlap : (R * R) * R -> crater -> R).

(** A crater list has one line for each crater, in order, with its measured diameter in
    kilometres and its measured location.  The fraction is 1 on a surface without a local region;
    with one, it is 1 if the crater is inside the region and its overlap otherwise. *)
Theorem C91_lines : forall st region kind i cs file, kind = "observed"%string \/ kind = "emplaced"%string -> Forall listable cs ->
  exists t, to_scc dataset from_ds dist overlap true st region kind (Some i) (CraterList (map Some cs)) file = (Some t, None) /\
    Forall2 (fun c l => lists c l /\ (region = None -> s_frac l = 1) /\
      (forall loc rad p r, region = Some (loc, rad) -> f_loc (fixed c) = Some p -> measured_radius (vars c) = Some r ->
         s_frac l = if Rlt_dec rad (dist loc p + r) then overlap (loc, rad) c else 1)) cs t.
Proof. exact (@scc_written dataset from_ds dist overlap). Qed.
Print Assumptions C91_lines.
Example C91_lines_ex : Forall listable [timed_one; oval_one; moved_one] /\ ex_made moved_one.
Proof. exact (conj (Forall_cons _ (round_listable _ _) (Forall_cons _ oval_listable (Forall_cons _ moved_listable (Forall_nil _)))) moved_made). Qed.

(** Reading a crater list gives, for each line, a circular crater of the listed diameter at the
    listed place: as many craters as were written, in the same order, each with the measured
    diameter and measured location of the one it was written from as its own. *)
Theorem C91_read_partial : forall norm_loc hash project f2t t2f t2p p2t, usable project f2t t2p ->
  forall cs t, Forall listable cs -> Forall2 lists cs t ->
  exists cs', from_scc (maker norm_loc hash project f2t t2f t2p p2t true None) t = Ok cs' /\ Forall2 (read_from norm_loc) cs cs'.
Proof. exact scc_read. Qed.
Print Assumptions C91_read_partial.
Example C91_read_ex : usable ex_project ex_f2t ex_one.
Proof. exact ex_usable. Qed.

(** What is read is not what was written: a crater measured as an ellipse of axes 10 and 5 comes
    back as a circle. *)
Theorem C91_shape_refuted : forall st, exists c t c', ex_made c /\ listable c /\
  v_major (vars c) = Some 10 /\ v_minor (vars c) = Some 5 /\
  to_scc dataset from_ds dist overlap true st None "observed" (Some 1%Z) (CraterList [Some c]) None = (Some t, None) /\
  from_scc (ex_maker true None) t = Ok [c'] /\ v_major (vars c') = v_minor (vars c').
Proof. exact (shape_back dataset from_ds dist overlap). Qed.
Print Assumptions C91_shape_refuted.

(** The test whether a crater is inside the region uses its original location, not the measured
    one that is listed: a crater measured wholly outside the region counts in full. *)
Theorem C91_fraction_refuted : forall st, exists c l, ex_made c /\ listable c /\
  (exists p, v_loc (vars c) = Some p /\ 15 + 10 < flat (10, 20) p /\ measured_radius (vars c) = Some 10) /\
  to_scc dataset from_ds flat overlap true st (Some ((10, 20), 15)) "observed" (Some 1%Z) (CraterList [Some c]) None = (Some [l], None) /\
  s_frac l = 1.
Proof. exact (fun st => outside_counts dataset from_ds st overlap). Qed.
Print Assumptions C91_fraction_refuted.

(** Without an interval, the default, no list can be written: the call always raises an exception
    (the file name formats None as a number) and the file is left as it was. *)
Theorem C91_interval_refuted : forall go st region kind s file, exists e,
  to_scc dataset from_ds dist overlap go st region kind None s file = (file, Some e).
Proof. exact (@scc_no_interval dataset from_ds dist overlap). Qed.
Print Assumptions C91_interval_refuted.
End Props.

(** An export of one kind of crater writes exactly one file for each saved interval, with its
    number and its craters, whether the files are read one by one or together with the same
    craters in each. *)
Theorem C92_files : forall d kind observed emplaced files iv,
  (kind = "observed"%string /\ exported_from observed files) \/ (kind = "emplaced"%string /\ exported_from emplaced files) ->
  export d kind observed emplaced iv = (numbered kind files, None).
Proof. exact export_kind. Qed.
Print Assumptions C92_files.
Example C92_files_ex : exported_from (Together (outer_join two_files)) two_files /\ exported_from (Apart (one_by_one grown_files)) grown_files.
Proof. exact (conj two_exported apart_exported). Qed.

(** An export of both kinds writes the files of one and then those of the other. *)
Theorem C92_both : forall d observed emplaced fo fe iv, exported_from observed fo -> exported_from emplaced fe ->
  export d "both" observed emplaced iv = ((numbered "observed" fo ++ numbered "emplaced" fe)%list, None).
Proof. exact export_both. Qed.
Print Assumptions C92_both.
Example C92_both_ex : snd (export CSV "both" (Together (outer_join two_files)) (Apart (one_by_one grown_files)) None) = None.
Proof. exact (f_equal snd (export_both CSV _ _ _ _ None two_exported apart_exported)). Qed.

(** A table of a kind of crater of which nothing is saved is not written. *)
Theorem C92_none : forall observed fo iv, exported_from observed fo ->
  export CSV "both" observed NoneSaved iv = (numbered "observed" fo, None) /\
  (forall o, export CSV "emplaced" o NoneSaved iv = ([], None)) /\ (forall e, export CSV "observed" NoneSaved e iv = ([], None)).
Proof.
  exact (fun o fo iv X => conj (export_csv_only o fo iv X)
    (conj (fun a => export_csv_none "emplaced" a NoneSaved iv (or_intror (conj eq_refl eq_refl)))
          (fun b => export_csv_none "observed" NoneSaved b iv (or_introl (conj eq_refl eq_refl))))).
Qed.
Print Assumptions C92_none.

(** When the files are opened together and the intervals do not all have the same craters, the
    export fails at the first interval that lacks one: the files of the intervals before it are
    written, and no others. *)
Theorem C92_stops_partial : forall d kind files iv observed emplaced, history files -> ~ same_ids files ->
  (kind = "observed"%string /\ observed = Together (outer_join files)) \/
  (kind = "emplaced"%string /\ emplaced = Together (outer_join files)) ->
  exists pre i cs post, files = (pre ++ (i, cs) :: post)%list /\
    export d kind observed emplaced iv = (numbered kind pre, Some TypeError) /\
    exists j ds c, In (j, ds) files /\ In c ds /\ ~ In (f_id (fixed c)) (map (fun c => f_id (fixed c)) cs).
Proof. exact export_stops. Qed.
Print Assumptions C92_stops_partial.
Example C92_stops_ex : history grown_files /\ ~ same_ids grown_files.
Proof. exact (conj grown_history grown_differ). Qed.

(** Nothing is exported of a run with one crater in the first interval and two in the second. *)
Theorem C92_grown_refuted : forall d emplaced, history grown_files /\
  exists w, export d "observed" (Together (outer_join grown_files)) emplaced None = (w, Some TypeError) /\ w = [].
Proof. exact (fun d e => conj grown_history (grown_stops d e)). Qed.
Print Assumptions C92_grown_refuted.
(** Each missing crater is read as a crater without any attribute, which cannot be made. *)
Theorem C92_blank : forall norm_loc hash project f2t t2f t2p p2t,
  maker norm_loc hash project f2t t2f t2p p2t false None no_args = Err TypeError.
Proof. exact blank_fails. Qed.
Print Assumptions C92_blank.

(** In crater lists, a kind of which nothing is saved gets an empty list numbered with the last
    interval of the other kind, whatever interval was asked for. *)
Theorem C92_number_refuted : forall observed fo i cs iv, exported_from observed (fo ++ [(i, cs)])%list ->
  export SCC "both" observed NoneSaved iv = ((numbered "observed" (fo ++ [(i, cs)]) ++ [("emplaced"%string, i, [])])%list, None).
Proof. exact export_scc_none. Qed.
Print Assumptions C92_number_refuted.
Example C92_number_ex : exported_from (Together (outer_join two_files)) ([(1%Z, [timed_one; round_one])] ++ [(2%Z, [timed_one; oval_one])]).
Proof. exact two_exported. Qed.
