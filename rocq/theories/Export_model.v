(** Model of the crater tables that are exported and imported:
    cratermaker/components/counting/__init__.py (export 500-591, _validate_export_args 963-991,
    to_csv_file 1341-1411, to_scc_file 1413-1505) and
    cratermaker/components/crater/__init__.py (as_dict 169-196 and 492-502, from_scc_file
    1311-1338, from_xarray 1341-1385, _convert_tuple_vars 1409-1447).
    Numbers are reals; what a cell looks like as text, and the quoting done by Python's csv
    module, are not modelled: a cell of the file is the value that was written. *)
From Coq Require Import Reals NArith.
From Verif Require Import Common Sorting Conf_model Crater_model.
Open Scope R_scope.

Inductive cell := XId (n : N) | XNum (x : R) | XInt (z : Z) | XTime (t : num) | XText (s : string).
(** The values of the dictionary of a crater: None, a single value, or a tuple. *)
Inductive entry := ENone | ECell (c : cell) | ETuple (l : list cell).

Definition onum (o : option R) : entry := match o with Some x => ECell (XNum x) | None => ENone end.
Definition otext (o : option string) : entry := match o with Some s => ECell (XText s) | None => ENone end.
Definition opair (o : option (R * R)) : entry :=
  match o with Some (a, b) => ETuple [XNum a; XNum b] | None => ENone end.

(** dataclasses.asdict of CraterFixed, in the order of its fields (crater/__init__.py:33-66),
    with those of a subclass at the end. *)
Definition fixed_items (f : fixedf) : pairs entry :=
  ([("id", ECell (XId (f_id f))); ("semimajor_axis", onum (f_major f)); ("semiminor_axis", onum (f_minor f));
    ("orientation", onum (f_orient f)); ("transient_diameter", onum (f_td f));
    ("projectile_diameter", onum (f_pd f)); ("projectile_velocity", onum (f_pv f));
    ("projectile_angle", onum (f_pang f)); ("projectile_mass", onum (f_pm f));
    ("location", opair (f_loc f)); ("morphology_type", otext (f_mt f));
    ("time", match f_time f with Some t => ECell (XTime t) | None => ENone end);
    ("radius", onum (d_radius f)); ("diameter", onum (d_diameter f)); ("transient_radius", onum (d_tr f));
    ("projectile_radius", onum (d_pr f)); ("projectile_density", onum (d_rho f));
    ("projectile_vertical_velocity", onum (d_vv f)); ("projectile_direction", onum (f_orient f))]%string
   ++ map (fun p => (fst p, onum (snd p))) (f_extra f))%list.

(** CraterVariable.as_dict: crater/__init__.py:169-196. *)
Definition some_item (k : string) (o : option entry) : pairs entry :=
  match o with Some e => [(k, e)] | None => [] end.
Definition var_items (v : var) : pairs entry :=
  let '(odiam, omaj, omin) := old_measured v in
  ([("measured_orientation", onum (v_orient v)); ("measured_location", opair (v_loc v));
    ("measured_rim_height", onum (v_rim v)); ("measured_floor_depth", onum (v_floor v));
    ("degradation_state", onum (v_deg v))]%string
   ++ match v_major v, odiam with
      | None, _ => []
      | Some _, Some d => [("measured_diameter"%string, ECell (XNum d))]
      | Some _, None => [("measured_semimajor_axis"%string, onum omaj); ("measured_semiminor_axis"%string, onum omin)]
      end
   ++ some_item "production_time" (option_map (fun p => ETuple [XNum (fst p); XNum (snd p)]) (v_ptime v))
   ++ some_item "production_ND"
        (option_map (fun p => ETuple [XNum (fst (fst p)); XNum (snd (fst p)); XNum (snd p)]) (v_pND v))
   ++ some_item "name" (option_map (fun s => ECell (XText s)) (v_name v))
   ++ some_item "production_sequence" (option_map (fun z => ECell (XInt z)) (v_pseq v)))%list.

(** Crater.as_dict: crater/__init__.py:492-502, with nothing ignored (the lazily computed
    entries a morphology model adds, morphology/__init__.py:53-72, are not modelled). *)
Definition as_dict (c : crater) : pairs entry :=
  pupdate (pupdate [] (fixed_items (fixed c))) (var_items (vars c)).

(** crater/__init__.py:1410-1415 tuple_map. *)
Definition tuple_map : list (string * list string) :=
  [("location", ["longitude"; "latitude"]);
   ("measured_location", ["measured_longitude"; "measured_latitude"]);
   ("production_ND", ["production_D"; "production_N"; "production_N_stdev"]);
   ("production_time", ["production_time"; "production_time_stdev"])]%string.

(** crater/__init__.py:1416 entries that are neither None nor an empty text. *)
Definition kept (e : entry) : bool :=
  match e with ENone => false | ECell (XText s) => negb (String.eqb s "") | _ => true end.

(** input_dict[tup][idx]: crater/__init__.py:1446. *)
Definition element (e : entry) (i : nat) : result cell :=
  match e with
  | ETuple l => match nth_error l i with Some c => Ok c | None => Err IndexError end
  | _ => Err TypeError
  end.
(** crater/__init__.py:1445-1446 the inner loop. *)
Fixpoint spread (e : entry) (i : nat) (names : list string) (d : pairs entry) : result (pairs entry) :=
  match names with
  | [] => Ok d
  | k :: r => rbind (element e i) (fun c => spread e (S i) r (pset k (ECell c) d))
  end.
(** crater/__init__.py:1442-1446 the outer loop, inverse=False. *)
Fixpoint convert (input : pairs entry) (tm : list (string * list string)) (d : pairs entry) : result (pairs entry) :=
  match tm with
  | [] => Ok d
  | (tup, names) :: r =>
      match pget tup input with
      | None => convert input r d
      | Some e => rbind (spread e 0 names (pdel tup d)) (convert input r)
      end
  end.
Definition convert_tuple_vars (input : pairs entry) : result (pairs entry) :=
  convert input tuple_map (filter (fun p => kept (snd p)) input).

(** counting/__init__.py:1386-1389 and 1394-1397: the axes are dropped and the diameter is put
    after the id (the first entry of the dictionary is left out of the update). *)
Definition circular_item (key ka kb : string) (a : R) (d : pairs entry) : result (pairs entry) :=
  let d := pdel kb (pdel ka d) in
  match pget "id" d with
  | None => Err KeyError
  | Some i => Ok (pupdate [("id"%string, i); (key, ECell (XNum (2 * a)))] (tl d))
  end.

(** counting/__init__.py:1377-1402 the row of a crater as a dictionary. *)
Definition csv_dict (c : crater) : result (pairs entry) :=
  rbind (convert_tuple_vars (as_dict c)) (fun d =>
  rbind (match pget "measured_semimajor_axis" d, pget "measured_semiminor_axis" d with
         | Some (ECell (XNum a)), Some (ECell (XNum b)) =>
             if Req_EM_T a b
             then circular_item "measured_diameter" "measured_semimajor_axis" "measured_semiminor_axis" a d
             else Ok d
         | _, _ => Ok d
         end) (fun d =>
  match pget "semimajor_axis" d, pget "semiminor_axis" d with
  | Some (ECell (XNum a)), Some (ECell (XNum b)) =>
      if Req_EM_T a b then circular_item "diameter" "semimajor_axis" "semiminor_axis" a d else Ok d
  | Some _, Some _ => Ok d
  | _, _ => Err KeyError
  end)).

Definition empty_cell : entry := ECell (XText "").
(** A table, line by line. *)
Definition table : Type := list (list entry).

Section Exports.
Context (dataset : Type) (from_xarray_ : dataset -> option Z -> result (list crater)).

(** What an export can be given (counting/__init__.py:963-991): nothing (the craters of the
    counting object), a dictionary of craters by id, a dictionary of datasets by interval, a
    dataset, a list of objects (None: an object that is not a crater) or anything else. *)
Inductive source :=
| FromSelf
| CraterDict (l : list (N * crater))
| DatasetDict (l : list (Z * dataset))
| OneDataset (d : dataset)
| CraterList (l : list (option crater))
| OtherSource.

(** What the writing loop iterates over. *)
Inductive item := ICrater (c : crater) | IDataset (d : dataset).

(** The two crater collections of a counting object: observed is a dictionary by id, emplaced
    a list (counting/__init__.py:68-69, 1536-1543). *)
Record counted := mk_counted { observed_ : list (N * crater); emplaced_ : list crater }.

Fixpoint only_craters (l : list (option crater)) : result (list item) :=
  match l with
  | [] => Ok []
  | None :: _ => Err TypeError
  | Some c :: r => rbind (only_craters r) (fun q => Ok (ICrater c :: q))
  end.

(** counting/__init__.py:963-991 _validate_export_args. *)
Definition validate_export (st : counted) (crater_type : string) (interval : option Z) (s : source)
    : result (list item) :=
  let go (s : source) :=
    match s with
    | CraterDict [] | DatasetDict [] => Err IndexError  (* list(craters.values())[0] *)
    | CraterDict _ => Err UnboundLocalError  (* list(crater_ds.values()) *)
    | DatasetDict l => Ok (map (fun p => IDataset (snd p)) l)  (* crater_ds is not used again *)
    | OneDataset d => rbind (from_xarray_ d interval) (fun l => Ok (map ICrater l))
    | CraterList l => only_craters l
    | FromSelf | OtherSource => Err TypeError
    end in
  if String.eqb crater_type "observed" then
    go (match s with FromSelf => CraterDict (observed_ st) | _ => s end)
  else if String.eqb crater_type "emplaced" then
    go (match s with FromSelf => CraterList (map Some (emplaced_ st)) | _ => s end)
  else Err ValueError.

(** counting/__init__.py:1373-1409 the loop that writes the rows: the table as far as it was
    written, and the exception that ended it, if any. *)
Fixpoint csv_rows (header : option (list string)) (items : list item) : table * option exn :=
  match items with
  | [] => ([], None)
  | IDataset _ :: _ => ([], Some AttributeError)  (* crater.as_dict *)
  | ICrater c :: r =>
      match csv_dict c with
      | Err e => ([], Some e)
      | Ok d =>
          let h := match header with Some h => h | None => map fst d end in
          let row := map (fun k => match pget k d with Some e => e | None => empty_cell end) h in
          let '(t, e) := csv_rows (Some h) r in
          (match header with
           | Some _ => row :: t
           | None => map (fun k => ECell (XText k)) h :: row :: t
           end, e)
      end
  end.

(** counting/__init__.py:1341-1411 to_csv_file.  [file]: the file of that name, if it exists;
    [go]: the overwrite check (core/base.py:447-485) allows it. *)
Definition to_csv (go : bool) (st : counted) (crater_type : string) (interval : option Z) (s : source)
    (file : option table) : option table * option exn :=
  match validate_export st crater_type interval s with
  | Err e => (file, Some e)
  | Ok items => if go then let '(t, e) := csv_rows None items in (Some t, e) else (file, None)
  end.

(** *** SCC files *)
(** The region of a local surface: location and radius; [dist]: surface.compute_distances;
    [overlap]: area of the outline of a crater inside the region over the area of the outline
    (1449-1454). *)
Context (dist : R * R -> R * R -> R) (overlap : (R * R) * R -> crater -> R).

(** counting/__init__.py:1435-1447 overlap_fraction. *)
Definition overlap_fraction (region : option ((R * R) * R)) (c : crater) : result R :=
  match region with
  | None => Ok 1
  | Some (loc, rad) =>
      match f_loc (fixed c), measured_radius (vars c) with
      | Some l, Some r => Ok (if Rlt_dec rad (dist loc l + r) then overlap (loc, rad) c else 1)
      | _, _ => Err TypeError
      end
  end.

(** A line of the crater section: diameter in km, fraction, longitude and latitude. *)
Record scc_line := mk_scc { s_diam : R; s_frac : R; s_lon : R; s_lat : R }.

(** counting/__init__.py:1500-1503 the f-string of one crater, evaluated from left to right. *)
Definition scc_row (region : option ((R * R) * R)) (i : item) : result scc_line :=
  match i with
  | IDataset _ => Err AttributeError
  | ICrater c =>
      match measured_diameter (vars c) with
      | None => Err TypeError
      | Some d =>
          rbind (overlap_fraction region c) (fun f =>
          match v_loc (vars c) with
          | None => Err TypeError
          | Some (lon, lat) => Ok (mk_scc (d * (1 / 1000)) f lon lat)
          end)
      end
  end.
(** counting/__init__.py:1499-1503 the loop. *)
Fixpoint scc_rows (region : option ((R * R) * R)) (items : list item) : list scc_line * option exn :=
  match items with
  | [] => ([], None)
  | i :: r => match scc_row region i with
              | Err e => ([], Some e)
              | Ok x => let '(t, e) := scc_rows region r in (x :: t, e)
              end
  end.
(** counting/__init__.py:1413-1505 to_scc_file: the crater section of the file.  Line 1451
    formats the interval as an integer, before the file is opened. *)
Definition to_scc (go : bool) (st : counted) (region : option ((R * R) * R)) (crater_type : string)
    (interval : option Z) (s : source) (file : option (list scc_line)) : option (list scc_line) * option exn :=
  match validate_export st crater_type interval s with
  | Err e => (file, Some e)
  | Ok items =>
      match interval with
      | None => (file, Some TypeError)
      | Some _ => if go then let '(t, e) := scc_rows region items in (Some t, e) else (file, None)
      end
  end.

(** crater/__init__.py:1334-1336 the loop of from_scc_file: one call of maker for each line. *)
Definition scc_args (l : scc_line) : margs :=
  mk_margs None None None (Some (s_diam l * 1000)) None None None None None None None None None None None None
    (Some (s_lon l, s_lat l)) None None None None None None None None None None None None None None None None.
Fixpoint from_scc (make : margs -> result crater) (t : list scc_line) : result (list crater) :=
  match t with
  | [] => Ok []
  | l :: r => rbind (make (scc_args l)) (fun c => rbind (from_scc make r) (fun q => Ok (c :: q)))
  end.
End Exports.
Arguments FromSelf {dataset}. Arguments CraterDict {dataset}. Arguments DatasetDict {dataset}.
Arguments OneDataset {dataset}. Arguments CraterList {dataset}. Arguments OtherSource {dataset}.
Arguments ICrater {dataset}. Arguments IDataset {dataset}.

(** *** Exporting the saved craters of all intervals *)
(** A saved dataset: its intervals, with what it has for each crater id (None: no values, the
    missing entries of an outer join, core/base.py:424-431). *)
Definition saved_table : Type := list (Z * list (option crater)).
(** What read_saved_output gives for one kind of crater (core/base.py:248-294, 404-444): no
    file, an empty dataset (the interval was not saved), one dataset, or a dictionary of
    datasets by interval. *)
Inductive saved := NoneSaved | EmptySaved | Together (t : saved_table) | Apart (l : list (Z * saved_table)).

(** The datasets of the intervals opened together (core/base.py:424-431, join="outer"): every
    interval gets an entry for every id of any of them, in the order of the ids.  Saved craters
    are sorted by id (counting/__init__.py:449).  Whether xarray can combine the files, or they
    are read one by one (432-440), is up to xarray; both cases are modelled. *)
Definition outer_join (files : list (Z * list crater)) : saved_table :=
  let ids := sort N.leb (nodup N.eq_dec (map (fun c => f_id (fixed c)) (List.concat (map snd files)))) in
  map (fun p => (fst p, map (fun i => find (fun c => N.eqb (f_id (fixed c)) i) (snd p)) ids)) files.
(** The files read one by one, in a dictionary sorted by interval: core/base.py:432-441. *)
Definition one_by_one (files : list (Z * list crater)) : list (Z * saved_table) :=
  map (fun p => (fst p, [(fst p, map Some (snd p))])) files.

Fixpoint zget {A} (i : Z) (l : list (Z * A)) : option A :=
  match l with [] => None | (j, a) :: r => if Z.eqb i j then Some a else zget i r end.

(** The loop of from_xarray (crater/__init__.py:1373-1383); reading a saved crater gives it back
    (C52), and an entry without values calls maker without a location, which raises a TypeError
    (Crater_model.maker; 1129). *)
Fixpoint entries (l : list (option crater)) : result (list crater) :=
  match l with
  | [] => Ok []
  | None :: _ => Err TypeError
  | Some c :: r => rbind (entries r) (fun q => Ok (c :: q))
  end.
(** from_xarray of a dataset at an interval: crater/__init__.py:1363-1369. *)
Definition table_at (t : saved_table) (i : Z) : result (list crater) :=
  match zget i t with Some l => entries l | None => Ok [] end.
(** from_xarray: crater/__init__.py:1356-1372, with an interval given. *)
Definition read_at (s : saved) (i : Z) : result (list crater) :=
  match s with
  | NoneSaved | EmptySaved => Ok []
  | Together t => table_at t i
  | Apart l => match zget i l with Some t => table_at t i | None => Ok [] end
  end.

Inductive driver := CSV | SCC.
(** A file an export writes: kind of crater, interval and craters. *)
Definition written : Type := string * Z * list crater.

(** counting/__init__.py:546-587 the body of the loop over the kinds of crater, for the drivers
    CSV and SCC (the writers above are taken to succeed).  Gives the value of the variable
    interval after it. *)
Fixpoint export_intervals (d : driver) (kind : string) (s : saved) (is : list Z)
    : list written * option exn :=
  match is with
  | [] => ([], None)
  | i :: r =>
      match read_at s i with
      | Err e => ([], Some e)
      | Ok l =>
          let '(w, e) := export_intervals d kind s r in
          (match d, s with
           | CSV, NoneSaved => w
           | _, _ => (kind, i, l) :: w
           end, e)
      end
  end.
(** counting/__init__.py:547-556. *)
Definition intervals_of (s : saved) (interval : option Z) : list Z :=
  match s with
  | Apart l => map fst l
  | Together t => map fst t
  | NoneSaved | EmptySaved => [match interval with Some i => i | None => 0%Z end]
  end.
(** The loop variable of line 557 keeps its last value. *)
Definition last_interval (is : list Z) (interval : option Z) : option Z :=
  match rev is with [] => interval | i :: _ => Some i end.
(** counting/__init__.py:546-587. *)
Fixpoint export_loop (d : driver) (kinds : list (string * saved)) (interval : option Z)
    : list written * option exn :=
  match kinds with
  | [] => ([], None)
  | (kind, s) :: r =>
      let is := intervals_of s interval in
      match export_intervals d kind s is with
      | (w, Some e) => (w, Some e)
      | (w, None) => let '(w', e) := export_loop d r (last_interval is interval) in ((w ++ w')%list, e)
      end
  end.
(** counting/__init__.py:524-590 export for a driver the object knows.  [observed], [emplaced]:
    what read_saved_output(interval=interval) gives. *)
Definition export (d : driver) (crater_type : string) (observed emplaced : saved) (interval : option Z)
    : list written * option exn :=
  if String.eqb crater_type "both" then export_loop d [("observed", observed); ("emplaced", emplaced)]%string interval
  else if String.eqb crater_type "observed" then export_loop d [("observed"%string, observed)] interval
  else if String.eqb crater_type "emplaced" then export_loop d [("emplaced"%string, emplaced)] interval
  else ([], Some ValueError).
