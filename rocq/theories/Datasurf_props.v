(** C105: surfaces made from elevation files. *)
From Coq Require Import Reals List Arith Bool Lra.
From Verif Require Dem_model Dem_spec.
From Verif Require Import Common RSum Region_model Region_spec Datasurf_model Datasurf_spec Datasurf_proofs Datasurf_values.
Import ListNotations.
Open Scope R_scope.

(** C105: a surface that is built has, after every way of building it, the elevations of the local files in the
    local region and of the file of the whole body elsewhere, each once, no other data, the same
    elevations in its file, and the setting for prompts that was given. *)
Theorem C105_built m areas v dem lola world g force same again ask saved user file : region m v ->
  (force = true \/ same = false \/ file = None) -> usable world lola g -> fits_file m file ->
  exists s F N, construct m areas v dem lola world force same again ask saved user file = (s, Ok tt) /\
    elevations s F N /\ nothing_else s /\ from_sources m v dem g F N /\ st_file s = Some (F, N) /\ st_ask s = ask.
Proof. exact (fun Rg => construct_built m areas v dem lola Rg world g force same again ask saved user file). Qed.
Print Assumptions C105_built.
Example C105_built_case : exists s F N, construct strip [1; 1; 1; 1] strip_end plain "LOLA" shelf false false true true (fun _ => None) None None = (s, Ok tt) /\
    elevations s F N /\ nothing_else s /\ from_sources strip strip_end plain (heights 7) F N /\ st_file s = Some (F, N) /\ st_ask s = true.
Proof. exact (C105_built strip [1; 1; 1; 1] strip_end plain "LOLA" shelf (heights 7) false false true true (fun _ => None) None None strip_region (or_intror (or_introl eq_refl)) (conj eq_refl eq_refl) I). Qed.

(** C105: the elevations are determined by the sources. *)
Theorem C105_determined m v dem g F N F' N' : region m v -> from_sources m v dem g F N -> from_sources m v dem g F' N' -> F' = F /\ N' = N.
Proof. exact (sources_unique m v dem g F N F' N'). Qed.
Print Assumptions C105_determined.
Example C105_determined_case : from_sources strip strip_end plain (heights 7) [5; 5; 7; 7] [5; 5; 5; 7; 7].
Proof. exact sample_sources. Qed.

(** C105: a reset brings back the elevations of the file, whatever has been done to the data, and drops all other data. *)
Theorem C105_reset m areas v lola world s f n : region m v -> st_dem s = None -> st_file s = Some (f, n) ->
  List.length f = m_nface m -> List.length n = m_nnode m ->
  exists d, reset m areas v lola world s = (with_data d s, Ok tt) /\ elevations (with_data d s) f n /\ nothing_else (with_data d s).
Proof. exact (fun Rg => reset_ok m areas v lola Rg world s f n). Qed.
Print Assumptions C105_reset.
Example C105_reset_case : exists d, reset strip [1; 1; 1; 1] strip_end "LOLA" shelf (mkState (strip_data [1; 2; 3; 4] [9; 9; 9; 9; 9]) None false true (Some ([5; 5; 7; 7], [5; 5; 5; 7; 7])) None) =
    (mkState d None false true (Some ([5; 5; 7; 7], [5; 5; 5; 7; 7])) None, Ok tt) /\ d "face_elevation"%string = Some [5; 5; 7; 7].
Proof.
  destruct (C105_reset strip [1; 1; 1; 1] strip_end "LOLA" shelf (mkState (strip_data [1; 2; 3; 4] [9; 9; 9; 9; 9]) None false true (Some ([5; 5; 7; 7], [5; 5; 5; 7; 7])) None) [5; 5; 7; 7] [5; 5; 5; 7; 7] strip_region eq_refl eq_refl eq_refl eq_refl) as (d & A & B & _).
  exists d. split; [exact A | exact (proj1 B)].
Qed.

(** C105: a surface made again with the same parameters has the elevations that were saved, without reading any elevation file. *)
Theorem C105_reused m areas v dem lola world ask saved user f n : region m v -> List.length f = m_nface m -> List.length n = m_nnode m ->
  exists s, construct m areas v dem lola world false true true ask saved user (Some (f, n)) = (s, Ok tt) /\
    elevations s f n /\ nothing_else s /\ st_file s = Some (f, n) /\ st_ask s = ask.
Proof. exact (fun Rg => construct_reused m areas v dem lola Rg world ask saved user f n). Qed.
Print Assumptions C105_reused.
Example C105_reused_case : exists s, construct strip [1; 1; 1; 1] strip_end plain "LOLA" (fun _ => None) false true true true (fun _ => None) None (Some ([5; 5; 7; 7], [5; 5; 5; 7; 7])) = (s, Ok tt) /\
    elevations s [5; 5; 7; 7] [5; 5; 5; 7; 7] /\ nothing_else s /\ st_file s = Some ([5; 5; 7; 7], [5; 5; 5; 7; 7]) /\ st_ask s = true.
Proof. exact (C105_reused strip [1; 1; 1; 1] strip_end plain "LOLA" (fun _ => None) true (fun _ => None) None [5; 5; 7; 7] [5; 5; 5; 7; 7] strip_region eq_refl eq_refl). Qed.

(** C105: the mesh is made again exactly if that is asked for, if its parameters have changed, or
    if the saved elevations are absent or of other sizes than the mesh in memory. *)
Theorem C105_regrid force same loaded s : regrid_needed force same loaded s = true <->
  force = true \/ same = false \/ (st_dem s = None /\ (st_file s = None \/ exists f n nf nn, st_file s = Some (f, n) /\ loaded = Some (nf, nn) /\ (List.length f <> nf \/ List.length n <> nn))).
Proof. exact (regrid_iff force same loaded s). Qed.
Print Assumptions C105_regrid.
Example C105_regrid_case : regrid_needed false true (Some (4%nat, 5%nat)) (mkState (fun _ => None) None false true (Some ([1; 2], [3])) None) = true.
Proof. apply C105_regrid. right; right. split; [reflexivity |]. right. exists [1; 2], [3], 4%nat, 5%nat. split; [reflexivity |]. split; [reflexivity |]. left. discriminate. Qed.

(** C105 refuted: the file given as superdomain_dem_file has no effect on a surface that is built on construction.  The argument
    is stored after the surface has been built, so that the elevations outside are those of the Moon's
    file, on any body; the construction fails if that one cannot be read, although the given one can. *)
Theorem C105_user_file_refuted m areas v dem lola world force same again ask saved user1 user2 file :
  let c u := construct m areas v dem lola world force same again ask saved u file in
  snd (c user1) = snd (c user2) /\ st_data (fst (c user1)) = st_data (fst (c user2)) /\ st_file (fst (c user1)) = st_file (fst (c user2)).
Proof. exact (construct_user m areas v dem lola world force same again ask saved user1 user2 file). Qed.
Print Assumptions C105_user_file_refuted.
Example C105_user_file_refuted_case : exists s F N, construct strip [1; 1; 1; 1] strip_end plain "LOLA" shelf false false true true (fun _ => None) (Some "mars.tif"%string) None = (s, Ok tt) /\
    elevations s F N /\ nothing_else s /\ from_sources strip strip_end plain (heights 7) F N /\ st_file s = Some (F, N) /\ st_ask s = true.
Proof. exact (C105_built strip [1; 1; 1; 1] strip_end plain "LOLA" shelf (heights 7) false false true true (fun _ => None) (Some "mars.tif"%string) None strip_region (or_intror (or_introl eq_refl)) (conj eq_refl eq_refl) I). Qed.

(** C105: it is used by a surface whose superdomain is set later. *)
Theorem C105_later m areas v dem lola world g again saved ask u : region m v -> usable world u g ->
  exists s F N, load m areas v dem lola world false false again None saved (deferred ask (Some u) None) = (s, Ok tt) /\
    elevations s F N /\ nothing_else s /\ from_sources m v dem g F N /\ st_file s = Some (F, N) /\ st_ask s = ask.
Proof. exact (fun Rg => load_later m areas v dem lola Rg world g again saved ask u). Qed.
Print Assumptions C105_later.
Example C105_later_case : exists s F N, load strip [1; 1; 1; 1] strip_end plain "LOLA" shelf false false true None (fun _ => None) (deferred true (Some "mars.tif"%string) None) = (s, Ok tt) /\
    elevations s F N /\ nothing_else s /\ from_sources strip strip_end plain (heights 3) F N /\ st_file s = Some (F, N) /\ st_ask s = true.
Proof. exact (C105_later strip [1; 1; 1; 1] strip_end plain "LOLA" shelf (heights 3) true (fun _ => None) true "mars.tif" strip_region (conj eq_refl eq_refl)). Qed.

(** C105 refuted: a surface of another size cannot be made in a directory that has been used.  The saved elevations are
    not removed with the other output, and saving the new ones over those of another size raises ValueError. *)
Theorem C105_resized_refuted m areas v dem lola world g force same again loaded saved s f n : region m v ->
  regrid_needed force same loaded s = true -> st_cache s = false -> usable world (chosen lola s) g -> st_file s = Some (f, n) ->
  List.length f <> m_nface m \/ List.length n <> m_nnode m ->
  snd (load m areas v dem lola world force same again loaded saved s) = Err ValueError.
Proof. exact (fun Rg => load_resized m areas v dem lola Rg world g force same again loaded saved s f n). Qed.
Print Assumptions C105_resized_refuted.
Example C105_resized_refuted_case : snd (load strip [1; 1; 1; 1] strip_end plain "LOLA" shelf false false true None (fun _ => None) (deferred true None (Some ([1; 2], [3])))) = Err ValueError.
Proof. refine (C105_resized_refuted strip [1; 1; 1; 1] strip_end plain "LOLA" shelf (heights 7) false false true None (fun _ => None) (deferred true None (Some ([1; 2], [3]))) [1; 2] [3] strip_region eq_refl eq_refl (conj eq_refl eq_refl) eq_refl (or_introl _)). discriminate. Qed.

(** C105 refuted: after an attempt that failed because the file of the whole body could not be read, no other can succeed: it raises
    UnboundLocalError even if the file is there.  Besides, prompts before overwriting stay switched off. *)
Theorem C105_retry_refuted m areas v dem lola world1 world2 again1 again2 saved ask user : region m v ->
  (forall g, ~ usable world1 (match user with None => lola | Some u => u end) g) ->
  exists s e, load m areas v dem lola world1 false false again1 None saved (deferred ask user None) = (s, Err e) /\ st_ask s = false /\
    snd (load m areas v dem lola world2 false false again2 None saved s) = Err UnboundLocalError.
Proof. exact (fun Rg => retry_fails m areas v dem lola Rg world1 world2 again1 again2 saved ask user). Qed.
Print Assumptions C105_retry_refuted.
Example C105_retry_refuted_case : exists s e, load strip [1; 1; 1; 1] strip_end plain "LOLA" (fun _ => None) false false true None (fun _ => None) (deferred true None None) = (s, Err e) /\ st_ask s = false /\
    snd (load strip [1; 1; 1; 1] strip_end plain "LOLA" shelf false false true None (fun _ => None) s) = Err UnboundLocalError.
Proof. exact (C105_retry_refuted strip [1; 1; 1; 1] strip_end plain "LOLA" (fun _ => None) shelf true true (fun _ => None) true None strip_region (fun g H => match proj1 H in _ = o return match o with None => True | _ => False end with eq_refl => I end)). Qed.

(** C105: outside the local region, with heights in metres, values are kept and missing ones are their average. *)
Theorem C105_outside nodata units raw : global_scale units = 1 -> (forall y, In (Fin y) raw -> Rabs y <= fmax) -> filled 1 nodata raw (global_samples nodata units raw).
Proof. exact (metres_ok nodata units raw). Qed.
Print Assumptions C105_outside.
Example C105_outside_case : filled 1 (Some (Fin (-9999))) [Fin 1; Fin (-9999); NaN; Fin 3] (global_samples (Some (Fin (-9999))) ["METER"%string] [Fin 1; Fin (-9999); NaN; Fin 3]).
Proof.
  refine (C105_outside (Some (Fin (-9999))) ["METER"%string] [Fin 1; Fin (-9999); NaN; Fin 3] eq_refl _).
  pose proof kilometres_mark. intros y [E | [E | [E | [E | []]]]]; try discriminate E; injection E as <-; unfold Rabs; destruct (Rcase_abs _); lra.
Qed.

(** C105: with heights in kilometres this holds of files in which the mark of missing data does not occur.
    Missing: files in which it does, for which the claim is refuted below. *)
Theorem C105_outside_km_partial nodata units raw : global_scale units = 1000 ->
  (forall y, In (Fin y) raw -> Rabs (y * 1000) <= fmax /\ nodata <> Some (Fin y) /\ nodata <> Some (Fin (y * 1000))) -> filled 1000 nodata raw (global_samples nodata units raw).
Proof. exact (kilometres_ok nodata units raw). Qed.
Print Assumptions C105_outside_km_partial.
Example C105_outside_km_case : filled 1000 None [Fin 1; NaN; Fin 3] (global_samples None ["kilometer"%string] [Fin 1; NaN; Fin 3]).
Proof.
  refine (C105_outside_km_partial None ["kilometer"%string] [Fin 1; NaN; Fin 3] eq_refl _).
  pose proof kilometres_mark. intros y [E | [E | [E | []]]]; try discriminate E; injection E as <-; (split; [unfold Rabs; destruct (Rcase_abs _); lra | split; discriminate]).
Qed.

(** C105 refuted: in a file in kilometres missing heights are not recognised.  They are multiplied by 1000 before they
    are compared with the mark: -9999 becomes an elevation of -9999 km. *)
Theorem C105_outside_refuted : exists nodata raw out, global_samples nodata ["KILOMETER"%string] raw = out /\ nth_error raw 1 = Some (Fin (-9999)) /\ nodata = Some (Fin (-9999)) /\
  nth_error out 1 = Some (-9999000) /\ ~ filled 1000 nodata raw out.
Proof. exact (ex_intro _ _ (ex_intro _ _ (ex_intro _ _ (conj (proj1 kilometres_bad) (conj eq_refl (conj eq_refl (conj eq_refl (eq_ind _ (fun l => ~ filled 1000 _ _ l) (proj2 kilometres_bad) _ (proj1 kilometres_bad))))))))). Qed.
Print Assumptions C105_outside_refuted.

(** C105: inside, pixels with data keep their heights in metres, and the others have the average of these.
    Missing: pixels without data in files in kilometres, and regions without any data. *)
Theorem C105_inside_partial nodata units pixels : in_range nodata -> (forall x, In (Some x) pixels -> Rabs (x * local_scale units) < fmax) ->
  (local_scale units = 1 \/ ~ In None pixels) -> forall k o, nth_error pixels k = Some o ->
  nth_error (local_elevations nodata units pixels) k =
    Some (match o with Some x => Fin (local_scale units * x) | None => match present pixels with [] => NaN | l => Fin (local_scale units * average l) end end).
Proof. exact (local_ok nodata units pixels). Qed.
Print Assumptions C105_inside_partial.
Example C105_inside_case : nth_error (local_elevations (Some (Fin (-32768))) ["METER"%string] [Some 4; None; Some 8]) 1 = Some (Fin (1 * average [4; 8])).
Proof.
  pose proof kilometres_mark as K.
  refine (C105_inside_partial (Some (Fin (-32768))) ["METER"%string] [Some 4; None; Some 8] _ _ (or_introl eq_refl) 1%nat None eq_refl).
  - cbn. rewrite Rabs_left; lra.
  - intros x [E | [E | [E | []]]]; try discriminate E; injection E as <-; change (local_scale ["METER"%string]) with 1; unfold Rabs; destruct (Rcase_abs _); lra.
Qed.

(** C105 refuted: a pixel without data, in local files in kilometres, gets the elevation minus infinity.  The mark of missing data
    overflows when it is scaled and is then taken for data. *)
Theorem C105_inside_refuted nodata units pixels k : local_scale units = 1000 -> match nodata with None => True | Some (Fin x) => Rabs x < fmax | Some v => v = NaN end ->
  nth_error pixels k = Some None -> nth_error (local_elevations nodata units pixels) k = Some (Inf true).
Proof. exact (local_infinite nodata units pixels k). Qed.
Print Assumptions C105_inside_refuted.
Example C105_inside_refuted_case : nth_error (local_elevations None ["KILOMETER"%string] [Some 4; None; Some 8]) 1 = Some (Inf true).
Proof. exact (C105_inside_refuted None ["KILOMETER"%string] [Some 4; None; Some 8] 1%nat eq_refl I eq_refl). Qed.

(** C105: the same unit is read in the same way inside and outside, if it is KILOMETER or does not contain that word. *)
Theorem C105_units_partial u : u = "KILOMETER"%string \/ contains "KILOMETER" (Exports_model.upper u) = false -> local_scale [u] = global_scale [u].
Proof. exact (units_agree u). Qed.
Print Assumptions C105_units_partial.
Example C105_units_case : local_scale ["METER"%string] = global_scale ["METER"%string].
Proof. exact (C105_units_partial "METER" (or_intror eq_refl)). Qed.
(** C105 refuted: files with the unit kilometer, or KILOMETERS, are read as metres in the local region and as kilometres outside. *)
Theorem C105_units_refuted : local_scale ["kilometer"%string] = 1 /\ global_scale ["kilometer"%string] = 1000 /\ local_scale ["KILOMETERS"%string] = 1 /\ global_scale ["KILOMETERS"%string] = 1000.
Proof. exact units_differ. Qed.
Print Assumptions C105_units_refuted.

(** C105: for a list of files that can be opened the pixel size is the smallest of theirs. *)
Theorem C105_pixel_size (res : string -> result R) l : l <> [] -> (forall f, In f l -> exists p, res f = Ok p) ->
  exists p, set_files res (AList (map Some l)) = Ok p /\ (exists f, In f l /\ res f = Ok p) /\ (forall f q, In f l -> res f = Ok q -> p <= q).
Proof. exact (list_ok res l). Qed.
Print Assumptions C105_pixel_size.
Example C105_pixel_size_case : exists p, set_files (fun f => Ok (if String.eqb f "a" then 20 else 10)) (AList [Some "a"; Some "b"]%string) = Ok p /\
  (exists f, In f ["a"; "b"]%string /\ Ok (if String.eqb f "a" then 20 else 10) = Ok p) /\ (forall f q, In f ["a"; "b"]%string -> Ok (if String.eqb f "a" then 20 else 10) = Ok q -> p <= q).
Proof. exact (C105_pixel_size (fun f => Ok (if String.eqb f "a" then 20 else 10)) ["a"; "b"]%string ltac:(discriminate) (fun f _ => ex_intro _ _ eq_refl)). Qed.
(** C105 refuted: a single file, although the check of the argument admits it, is not accepted.  A path is not iterable, and of a text the
    file named by its first character is opened. *)
Theorem C105_single_file_refuted (res : string -> result R) :
  (forall s, set_files res (APath s) = Err TypeError) /\ (forall c s e, res (String c EmptyString) = Err e -> set_files res (Text (String c s)) = Err e).
Proof. exact (conj (path_fails res) (text_fails res)). Qed.
Print Assumptions C105_single_file_refuted.

(** C105 refuted: the file chosen for the whole Moon ends at 60 degrees north and south, unless the faces far away are larger
    than ten times the pixels of the 96 per degree map; every face nearer to a pole then gets the average elevation. *)
Theorem C105_poles_refuted scale pix : 0 < scale * pix -> scale * pix / 10 < PI / 180 * moon / 96 ->
  exists f, global_file moon scale pix = Ok f /\ ~ Dem_spec.covers f 0 75.
Proof. exact (global_gap scale pix). Qed.
Print Assumptions C105_poles_refuted.
Example C105_poles_refuted_case : exists f, global_file moon 20 100 = Ok f /\ ~ Dem_spec.covers f 0 75.
Proof. refine (C105_poles_refuted 20 100 _ _); [lra |]. pose proof PI2_3_2. unfold moon. lra. Qed.
(** C105: otherwise the file covers the Moon. *)
Theorem C105_whole_partial scale pix : PI / 180 * moon / 96 <= scale * pix / 10 -> exists res, global_file moon scale pix = Ok (Dem_model.Globe res).
Proof. exact (global_whole scale pix). Qed.
Print Assumptions C105_whole_partial.
Example C105_whole_case : exists res, global_file moon 1000 100 = Ok (Dem_model.Globe res).
Proof. refine (C105_whole_partial 1000 100 _). pose proof PI_4. unfold moon. lra. Qed.

(** C105: a surface made again without a reset has the data that were saved, whatever they are, and the file for the whole body
    and the setting for prompts that were given. *)
Theorem C105_continued m areas v dem lola world ask saved user f n :
  construct m areas v dem lola world false true false ask saved user (Some (f, n)) = (mkState saved None false ask (Some (f, n)) user, Ok tt).
Proof. exact (construct_continued m areas v dem lola world ask saved user f n). Qed.
Print Assumptions C105_continued.
Example C105_continued_case : st_data (fst (construct strip [1; 1; 1; 1] strip_end plain "LOLA" shelf false true false true (strip_data [1; 2; 3; 4] [9; 9; 9; 9; 9]) None (Some ([5; 5; 7; 7], [5; 5; 5; 7; 7]))))
  = strip_data [1; 2; 3; 4] [9; 9; 9; 9; 9].
Proof. rewrite C105_continued. reflexivity. Qed.
(** C105: in whatever way a surface is built, it keeps the file for the whole body and the setting for prompts that were given. *)
Theorem C105_arguments m areas v dem lola world force same again ask saved user file s :
  construct m areas v dem lola world force same again ask saved user file = (s, Ok tt) -> st_super s = user /\ st_ask s = ask.
Proof. exact (construct_keeps m areas v dem lola world force same again ask saved user file s). Qed.
Print Assumptions C105_arguments.
Example C105_arguments_case : exists s, construct strip [1; 1; 1; 1] strip_end plain "LOLA" shelf false true false true (fun _ => None) (Some "mars.tif"%string) (Some ([5; 5; 7; 7], [5; 5; 5; 7; 7])) = (s, Ok tt).
Proof. eexists. apply C105_continued. Qed.
(** C105: a reset with no elevations to restore leaves a flat surface with no other data. *)
Theorem C105_flat m areas v lola world s : st_dem s = None -> st_file s = None ->
  exists d, reset m areas v lola world s = (with_data d s, Ok tt) /\
    elevations (with_data d s) (repeat 0 (m_nface m)) (repeat 0 (m_nnode m)) /\ nothing_else (with_data d s).
Proof. exact (reset_flat m areas v lola world s). Qed.
Print Assumptions C105_flat.
Example C105_flat_case : st_dem (deferred true None None) = None /\ st_file (deferred true None None) = None. Proof. split; reflexivity. Qed.
(** C105: the average of heights with infinities of both signs is not a number. *)
Theorem C105_mean_infinite l : In (Inf true) l -> In (Inf false) l -> mean l = NaN.
Proof. exact (mean_signs l). Qed.
Print Assumptions C105_mean_infinite.
Example C105_mean_infinite_case : mean [Inf true; Fin 1; Inf false] = NaN. Proof. apply C105_mean_infinite; simpl; auto. Qed.
