(** Model of the saved output files of core/base.py: file names with interval numbers,
    listing the saved intervals and reading one of them back. *)
From Verif Require Import Common Sorting Conf_model.
From Coq Require Import NArith ZArith Ascii.
Open Scope string_scope.

(* ------------------------------ file names ------------------------------ *)
(** Decimal digits, most significant first. *)
Fixpoint dec (fuel : nat) (n : N) : list N :=
  match fuel with
  | O => []
  | S f => if (n <? 10)%N then [n] else (dec f (n / 10) ++ [n mod 10])%list%N
  end.
Definition digits_of (n : N) : list N := dec (S (N.to_nat (N.size n))) n.
Definition chr (d : N) : ascii := ascii_of_N (48 + d).
Fixpoint show (l : list N) : string := match l with [] => "" | d :: r => String (chr d) (show r) end.
(** f"{interval:06d}" for a non-negative interval: core/base.py:400. *)
Definition pad6 (n : N) : string := show (repeat 0%N (6 - List.length (digits_of n)) ++ digits_of n)%list.

(** A kind of output file: what comes before the prefix, the prefix and the extension.
    components/surface/__init__.py:109-118, 2062-2068, components/surface/datasurface.py:110,
    components/counting/__init__.py:72-85 and 482. *)
Record scheme := { pre : string; prefix_ : string; ext : string }.
Definition schemes : list scheme :=
  [ {| pre := ""; prefix_ := "surface"; ext := "nc" |};
    {| pre := ""; prefix_ := "local_surface"; ext := "nc" |};
    {| pre := "local_"; prefix_ := "surface"; ext := "nc" |};
    {| pre := "observed_"; prefix_ := "craters"; ext := "nc" |};
    {| pre := "emplaced_"; prefix_ := "craters"; ext := "nc" |} ].
(** output_filename: core/base.py:381-402, with what the caller puts in front. *)
Definition file_name (s : scheme) (n : N) : string := pre s ++ prefix_ s ++ pad6 n ++ "." ++ ext s.

(** s[len(p):] if s.startswith(p). *)
Fixpoint strip (p s : string) : option string :=
  match p, s with
  | EmptyString, _ => Some s
  | String a p, String b s => if Ascii.eqb a b then strip p s else None
  | String _ _, EmptyString => None
  end.
Definition starts (p s : string) : bool := match strip p s with Some _ => true | None => false end.
(** s.endswith(p). *)
Fixpoint ends (p s : string) : bool :=
  String.eqb p s || match s with EmptyString => false | String _ r => ends p r end.
(** Path.glob with the pattern pre prefix * . ext, on file names. *)
Definition glob_match (s : scheme) (name : string) : bool :=
  match strip (pre s ++ prefix_ s) name with Some r => ends ("." ++ ext s) r | None => false end.

(** s.split(sep)[-1]: [skip] characters of a separator remain; [cur] is the last piece so far. *)
Fixpoint last_piece (sep : string) (skip : nat) (cur s : string) : string :=
  match s with
  | EmptyString => cur
  | String _ r =>
      match skip with
      | S O => last_piece sep O r r
      | S k => last_piece sep k cur r
      | O => if starts sep s
             then match String.length sep with
                  | S (S k) => last_piece sep (S k) cur r
                  | _ => last_piece sep O r r
                  end
             else last_piece sep O cur r
      end
  end.
(** s.split(sep)[0]. *)
Fixpoint first_piece (sep s : string) : string :=
  if starts sep s then "" else match s with EmptyString => "" | String c r => String c (first_piece sep r) end.

Definition digit (c : ascii) : option N :=
  let n := N_of_ascii c in if ((48 <=? n) && (n <=? 57))%N then Some (n - 48)%N else None.
(** int(s), for strings of digits; others raise ValueError (signs, blanks and underscores,
    which int() also accepts, are not modelled). *)
Fixpoint int_from (acc : N) (s : string) : option N :=
  match s with
  | EmptyString => Some acc
  | String c r => match digit c with Some d => int_from (10 * acc + d)%N r | None => None end
  end.
Definition int_ (s : string) : option N := match s with EmptyString => None | _ => int_from 0 s end.
(** re.findall(r"\d+", s): the maximal runs of digits; [cur] is the current run. *)
Fixpoint runs (cur s : string) : list string :=
  match s with
  | EmptyString => match cur with EmptyString => [] | _ => [cur] end
  | String c r =>
      match digit c with
      | Some _ => runs (cur ++ String c "") r
      | None => match cur with EmptyString => runs "" r | _ => cur :: runs "" r end
      end
  end.

(* ------------------------------- reading ------------------------------- *)
Section Read.
Variable content : Type.
(** A directory, as a dictionary from file names to contents.  A file that exists is
    replaced (unlink, then write). *)
Definition dir : Type := pairs content.
Definition save_file (s : scheme) (n : N) (c : content) (d : dir) : dir := pset (file_name s n) c d.
(** The files that match the pattern; the order in which glob lists them is not specified,
    so the readers below take any listing. *)
Definition matching (s : scheme) (d : dir) : list (string * content) := filter (fun f => glob_match s (fst f)) d.

Fixpoint ints (s : scheme) (l : list (string * content)) : option (list N) :=
  match l with
  | [] => Some []
  | f :: r => match int_ (first_piece ("." ++ ext s) (last_piece (prefix_ s) O (fst f) (fst f))), ints s r with
              | Some n, Some l => Some (n :: l)
              | _, _ => None
              end
  end.
(** get_saved_interval_numbers, for one pattern: core/base.py:224-241.  The outer option is
    Python's None (no file). *)
Definition saved_numbers (s : scheme) (listing : list (string * content)) : result (option (list N)) :=
  match listing with
  | [] => Ok None
  | [f] => match rev (runs "" (fst f)) with
           | [] => Ok (Some [])
           | r :: _ => match int_ r with Some n => Ok (Some [n]) | None => Err ValueError end
           end
  | _ => match ints s listing with Some l => Ok (Some (sort N.leb l)) | None => Err ValueError end
  end.

Inductive output := NoFiles | EmptyDataset | OneFile (c : content) | AllFiles (l : list content).
Fixpoint index_of (n : N) (l : list N) : option nat :=
  match l with [] => None | m :: r => if N.eqb n m then Some O else option_map S (index_of n r) end.
(** Python's l[i]. *)
Definition py_nth (l : list (string * content)) (i : Z) : result output :=
  let k := if (i <? 0)%Z then (i + Z.of_nat (List.length l))%Z else i in
  if (k <? 0)%Z then Err IndexError
  else match nth_error l (Z.to_nat k) with Some f => Ok (OneFile (snd f)) | None => Err IndexError end.
(** read_saved_output, for one pattern: core/base.py:269-289, with _output_file_processor
    404-444 (opening one file, or all of them).  The two listings are those of the two calls
    of glob.  Files are sorted by name. *)
Definition read_saved (s : scheme) (interval : option Z) (listing1 listing2 : list (string * content)) : result output :=
  rbind (saved_numbers s listing1) (fun numbers =>
  match listing2, numbers with
  | [], _ => Ok NoFiles
  | _, None => Err TypeError
  | _, Some nums =>
      let files := sort (fun a b : string * content => String.leb (fst a) (fst b)) listing2 in
      match interval, nums with
      | None, _ => Ok (AllFiles (map snd files))
      | Some _, [] => Ok (AllFiles (map snd files))
      | Some i, _ =>
          if (i <? 0)%Z then py_nth files i
          else match index_of (Z.to_N i) nums with
               | Some k => py_nth files (Z.of_nat k)
               | None => Ok EmptyDataset
               end
      end
  end).
End Read.
