(** Specification vocabulary for exported crater tables. *)
From Coq Require Import Reals NArith Sorted.
From Verif Require Import Common Conf_model Crater_model Crater_spec Export_model.
Open Scope R_scope.

(** Whether two axes are equal. *)
Definition shape_dec (a b : option R) : {a = b} + {a <> b}.
Proof. decide equality. apply Req_EM_T. Defined.

(** The columns of a crater: the name of the column and the value of the crater, if it has one.
    The two axes of a circle are given by its diameter. *)
Definition text_value (o : option string) : option cell :=
  match o with Some s => if String.eqb s "" then None else Some (XText s) | None => None end.
Definition csv_columns (c : crater) : list (string * option cell) :=
  let f := fixed c in let v := vars c in
  let number (o : option R) := option_map XNum o in
  let round := shape_dec (f_major f) (f_minor f) in
  let mround := shape_dec (v_major v) (v_minor v) in
  [("id", Some (XId (f_id f)));
   ("semimajor_axis", if round then None else number (f_major f));
   ("semiminor_axis", if round then None else number (f_minor f));
   ("orientation", number (f_orient f)); ("transient_diameter", number (f_td f));
   ("projectile_diameter", number (f_pd f)); ("projectile_velocity", number (f_pv f));
   ("projectile_angle", number (f_pang f)); ("projectile_mass", number (f_pm f));
   ("longitude", option_map (fun p => XNum (fst p)) (f_loc f)); ("latitude", option_map (fun p => XNum (snd p)) (f_loc f));
   ("morphology_type", text_value (f_mt f)); ("time", option_map XTime (f_time f));
   ("radius", number (d_radius f)); ("diameter", number (d_diameter f));
   ("transient_radius", number (d_tr f)); ("projectile_radius", number (d_pr f));
   ("projectile_density", number (d_rho f)); ("projectile_vertical_velocity", number (d_vv f));
   ("projectile_direction", number (f_orient f));
   ("measured_orientation", number (v_orient v));
   ("measured_longitude", option_map (fun p => XNum (fst p)) (v_loc v));
   ("measured_latitude", option_map (fun p => XNum (snd p)) (v_loc v));
   ("measured_rim_height", number (v_rim v)); ("measured_floor_depth", number (v_floor v));
   ("degradation_state", number (v_deg v));
   ("measured_diameter", if mround then number (measured_diameter v) else None);
   ("measured_semimajor_axis", if mround then None else number (v_major v));
   ("measured_semiminor_axis", if mround then None else number (v_minor v));
   ("production_time", option_map (fun p => XNum (fst p)) (v_ptime v));
   ("production_time_stdev", option_map (fun p => XNum (snd p)) (v_ptime v));
   ("production_D", option_map (fun p => XNum (fst (fst p))) (v_pND v));
   ("production_N", option_map (fun p => XNum (snd (fst p))) (v_pND v));
   ("production_N_stdev", option_map (fun p => XNum (snd p)) (v_pND v));
   ("name", text_value (v_name v)); ("production_sequence", option_map XInt (v_pseq v))]%string.

(** The value of a crater in the column of that name, if it has one. *)
Definition csv_value (k : string) (c : crater) : option cell :=
  match pget k (csv_columns c) with Some o => o | None => option_map XNum (match pget k (f_extra (fixed c)) with Some o => o | None => None end) end.
(** What the table shows for it: blank if it has none. *)
Definition shown (c : crater) (k : string) : entry :=
  match csv_value k c with Some x => ECell x | None => ECell (XText "") end.

(** Attributes a morphology model adds have names of their own. *)
Definition own_names : list string :=
  (["location"; "measured_location"; "production_ND"]%string ++
   ["id"; "semimajor_axis"; "semiminor_axis"; "orientation"; "transient_diameter"; "projectile_diameter";
    "projectile_velocity"; "projectile_angle"; "projectile_mass"; "longitude"; "latitude"; "morphology_type"; "time";
    "radius"; "diameter"; "transient_radius"; "projectile_radius"; "projectile_density";
    "projectile_vertical_velocity"; "projectile_direction"; "measured_orientation"; "measured_longitude";
    "measured_latitude"; "measured_rim_height"; "measured_floor_depth"; "degradation_state"; "measured_diameter";
    "measured_semimajor_axis"; "measured_semiminor_axis"; "production_time"; "production_time_stdev"; "production_D";
    "production_N"; "production_N_stdev"; "name"; "production_sequence"]%string)%list.
Definition extra_ok (c : crater) : Prop :=
  NoDup (map fst (f_extra (fixed c))) /\ forall k, In k (map fst (f_extra (fixed c))) -> ~ In k own_names.

(** A crater that has a size, a location and a measured location. *)
Definition exportable (c : crater) : Prop :=
  f_major (fixed c) <> None /\ f_minor (fixed c) <> None /\ f_loc (fixed c) <> None /\ v_loc (vars c) <> None.
(** Its measured axes are positive and ordered (true of every crater made, C25), and there is no
    minor axis without a major one. *)
Definition measured_pair (c : crater) : Prop :=
  axes_ok (vars c) /\ (v_major (vars c) = None -> v_minor (vars c) = None).
Definition regular (c : crater) : Prop := extra_ok c /\ exportable c /\ measured_pair c.

(** Line [i] of a table shows the craters [cs] under the header [h]. *)
Definition shows (h : list string) (cs : list crater) (t : table) : Prop :=
  t = (map (fun k => ECell (XText k)) h :: map (fun c => map (shown c) h) cs)%list.

(** A crater is lost in column [k]: it has a value there that the table does not show. *)
Definition complete_table (h : list string) (cs : list crater) : Prop :=
  forall c k, In c cs -> csv_value k c <> None -> In k h.

(** A crater with a size, a location and a measured location that can be listed. *)
Definition listable (c : crater) : Prop :=
  exists M m, v_major (vars c) = Some M /\ v_minor (vars c) = Some m /\ 0 < m <= M /\
    f_loc (fixed c) <> None /\ v_loc (vars c) <> None.
(** The line lists the measured diameter (in kilometres) and location of the crater. *)
Definition lists (c : crater) (l : scc_line) : Prop :=
  measured_diameter (vars c) = Some (1000 * s_diam l) /\ v_loc (vars c) = Some (s_lon l, s_lat l).
(** A crater read from such a line: circular, of the listed diameter, at the listed place. *)
Definition read_from (norm_loc : R * R -> R * R) (c c' : crater) : Prop :=
  d_diameter (fixed c') = measured_diameter (vars c) /\ f_loc (fixed c') = v_loc (vars c) /\
  measured_diameter (vars c') = measured_diameter (vars c) /\
  v_loc (vars c') = option_map norm_loc (v_loc (vars c)) /\ v_major (vars c') = v_minor (vars c').
(** Scaling laws and a projectile that give sizes and speeds that are not negative and keep the
    location they are given. *)
Definition usable (project : option R -> option R -> option R -> option R -> option (R * R) -> option R -> result proj)
    (f2t : R -> R * string) (t2p : R -> R) : Prop :=
  (forall l, exists j, project None None None None (Some l) None = Ok j /\ j_loc j = l /\ 0 <= j_v j /\ 0 <= j_rho j) /\
  forall d, 0 < d -> 0 <= fst (f2t d) /\ 0 <= t2p (fst (f2t d)).

(** The saved intervals of the files that were written, each with its craters. *)
Definition numbered (kind : string) (files : list (Z * list crater)) : list written :=
  map (fun p => (kind, fst p, snd p)) files.
(** A saved history: intervals in increasing order, craters in the order of their ids, each id
    once. *)
Definition history (files : list (Z * list crater)) : Prop :=
  NoDup (map fst files) /\
  forall i cs, In (i, cs) files -> Sorted.StronglySorted N.lt (map (fun c => f_id (fixed c)) cs).
(** The same crater ids in every interval. *)
Definition same_ids (files : list (Z * list crater)) : Prop :=
  forall i cs j ds, In (i, cs) files -> In (j, ds) files ->
    map (fun c => f_id (fixed c)) cs = map (fun c => f_id (fixed c)) ds.
(** A saved history that can be read in full: file by file, or together with the same craters in
    every file. *)
Definition exported_from (s : saved) (files : list (Z * list crater)) : Prop :=
  history files /\ (s = Apart (one_by_one files) \/ s = Together (outer_join files) /\ same_ids files).
