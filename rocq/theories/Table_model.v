(** Model of reading craters from a table that a user wrote: crater/__init__.py
    (from_file 1230-1257, from_csv_file 1260-1308, _convert_tuple_vars 1406-1444 with inverse=True).
    A dictionary is a function from keys.  Python's csv reader is modelled from the fields of each line on;
    float() and int() of a text are [number] and [integer]; the maker of craters is [maker] (Crater_model has it).
    Simplification: the conversions of a row are tried at once, since each can only raise ValueError. *)
From Coq Require Import Reals ZArith List.
From Verif Require Import Common.
Import ListNotations.
Open Scope string_scope.

(** Values in the dictionary of a row. *)
Inductive value := VNone | VText (s : string) | VNum (x : R) | VInt (z : Z) | VList (l : list value).
Definition dict := string -> option value.
Definition nothing : dict := fun _ => None.
Definition set (d : dict) (k : string) (v : option value) : dict := fun j => if String.eqb j k then v else d j.
Definition blank (v : value) : bool := match v with VNone => true | VText s => String.eqb s "" | _ => false end.
Definition present (d : dict) (k : string) : bool := match d k with Some _ => true | None => false end.

(** csv.DictReader: the fields by column, None for the columns that a short line leaves out; a later column of the
    same name wins. *)
Fixpoint by_column (header : list string) (fields : list string) (d : dict) : dict :=
  match header, fields with
  | [], _ => d
  | h :: hs, f :: fs => by_column hs fs (set d h (Some (VText f)))
  | h :: hs, [] => by_column hs [] (set d h (Some VNone))
  end.
(** The fields beyond the header, which the reader puts under the key None. *)
Definition extra (header fields : list string) : list string := skipn (List.length header) fields.

(** 1407-1412 *)
Definition tuple_map : list (string * list string) :=
  [("location", ["longitude"; "latitude"]);
   ("measured_location", ["measured_longitude"; "measured_latitude"]);
   ("production_ND", ["production_D"; "production_N"; "production_N_stdev"]);
   ("production_time", ["production_time"; "production_time_stdev"])].
(** 1413, and 1285 of from_csv_file *)
Definition drop_blank (d : dict) : dict := fun k => match d k with Some v => if blank v then None else Some v | None => None end.
(** 1417-1429: the input, which loses the columns that are taken, and the new dictionary *)
Definition or_zero (v : option value) : value := match v with None => VNum 0 | Some v => if blank v then VNum 0 else v end.
Definition alias_ND (s : dict * dict) : dict * dict :=
  let '(inp, new) := s in
  match inp "production_D", inp "production_N" with
  | Some a, Some b =>
      (set (set (set inp "production_D" None) "production_N" None) "production_N_stdev" None,
       set new "production_ND" (Some (VList [a; b; or_zero (inp "production_N_stdev")])))
  | _, _ => s
  end.
Definition alias_time (s : dict * dict) : dict * dict :=
  let '(inp, new) := s in
  match inp "production_time" with
  | Some a => (set (set inp "production_time" None) "production_time_stdev" None,
               set new "production_time" (Some (VList [a; or_zero (inp "production_time_stdev")])))
  | None => s
  end.
(** 1436-1438: new_dict[tup][idx] = input_dict[var] *)
Fixpoint set_item (i : nat) (x : value) (l : list value) : list value :=
  match l, i with [], _ => [] | _ :: r, O => x :: r | a :: r, S j => a :: set_item j x r end.
Fixpoint fill (inp : dict) (tup : string) (i : nat) (cols : list string) (new : dict) : result dict :=
  match cols with
  | [] => Ok new
  | v :: r =>
      rbind (if String.eqb v tup then Ok new
             else match inp v with
                  | None | Some VNone => Ok new
                  | Some x => match new tup with
                              | None => Err KeyError
                              | Some (VList l) => Ok (set new tup (Some (VList (set_item i x l))))
                              | Some _ => Err TypeError
                              end
                  end) (fill inp tup (S i) r)
  end.
(** 1431-1438 *)
Definition rebuild_one (inp : dict) (t : string * list string) (new : dict) : result dict :=
  if existsb (present inp) (snd t) then
    fill inp (fst t) 0 (snd t)
      (if present inp (fst t) then new else set new (fst t) (Some (VList (repeat VNone (List.length (snd t))))))
  else Ok new.
Fixpoint rebuild (inp : dict) (l : list (string * list string)) (new : dict) : result dict :=
  match l with [] => Ok new | t :: r => rbind (rebuild_one inp t new) (rebuild inp r) end.
Definition tuples (inp : dict) : result dict :=
  let '(inp', new) := alias_time (alias_ND (inp, drop_blank inp)) in rebuild inp' tuple_map new.

Section Table.
Variable number : string -> option R.
Variable integer : string -> option Z.

(** 1286-1303: the values of a row as numbers *)
Definition is_integer_key (k : string) : bool := orb (String.eqb k "id") (String.eqb k "production_sequence").
(** 1291-1294: float(v) of the elements that are not blank raises ValueError *)
Definition bad_element (v : value) : bool :=
  match v with VText s => if String.eqb s "" then false else match number s with None => true | Some _ => false end | _ => false end.
Definition element (v : value) : value :=
  match v with VText s => match number s with Some x => VNum x | None => v end | _ => v end.
Definition fails (k : string) (v : value) : bool :=
  if is_integer_key k then match v with VText s => match integer s with None => true | Some _ => false end | _ => true end
  else match v with VList l => existsb bad_element l | _ => false end.
Definition converted (k : string) (v : value) : option value :=
  if is_integer_key k then match v with VText s => option_map VInt (integer s) | _ => None end
  else match v with
       | VList l => if existsb blank l then None else Some (VList (map element l))
       | VText s => match number s with Some x => Some (VNum x) | None => Some (VText s) end
       | _ => Some v
       end.
(** 1282-1303 of one row: the arguments for the maker.  The extra fields end in the arguments under the key None:
    TypeError, unless one of them is blank, when they are dropped (1295-1298, 1304). *)
Definition arguments (header fields : list string) : result dict :=
  rbind (tuples (by_column header fields nothing)) (fun d0 =>
  let d := drop_blank d0 in
  if existsb (fun k => match d k with Some v => fails k v | None => false end) (header ++ map fst tuple_map)%list
  then Err ValueError
  else
    let more := map VText (extra header fields) in
    if existsb bad_element more then Err ValueError
    else
      let args : dict := fun k => match d k with Some v => converted k v | None => None end in
      match more with
      | [] => if present args "check_redundant_inputs" then Err TypeError else Ok args
      | _ => if existsb blank more then
               if present args "check_redundant_inputs" then Err TypeError else Ok args
             else Err TypeError
      end).

Variable crater : Type.
Variable maker : dict -> result crater.
(** 1280-1308: the lines after the header; the reader skips lines without fields *)
Fixpoint rows (header : list string) (lines : list (list string)) : result (list crater) :=
  match lines with
  | [] => Ok []
  | [] :: more => rows header more
  | fields :: more => rbind (rbind (arguments header fields) maker) (fun c => rbind (rows header more) (fun cs => Ok (c :: cs)))
  end.
Definition from_csv (lines : list (list string)) : result (list crater) :=
  match filter (fun l => match l with [] => false | _ => true end) lines with
  | [] => Ok []
  | header :: more => rows header more
  end.
(** 1244-1257: by the extension in lower case; [nc] and [scc] read the other kinds of file, the latter only if the
    extension is written in lower case (1331-1332).  [options]: further arguments were given, which only the reader
    of nc files takes *)
Definition from_file (found : bool) (extension : string) (lower_case : bool) (nc scc : result (list crater))
    (lines : list (list string)) (options : bool) : result (list crater) :=
  if found then
    if String.eqb extension "nc" then nc
    else if String.eqb extension "csv" then if options then Err TypeError else from_csv lines
    else if String.eqb extension "scc" then
      if options then Err TypeError else if lower_case then scc else Err ValueError
    else Err UnboundLocalError
  else Err FileNotFoundError.
End Table.
