(** C117: craters read from a table are those written in it. *)
From Coq Require Import Reals ZArith List.
From Verif Require Import Common Table_model Table_spec Table_proofs.
Import ListNotations.
Open Scope string_scope.

Section Props.
Variable number : string -> option R.
Variable integer : string -> option Z.
Variable crater : Type.
Variable maker : dict -> result crater.
Notation arguments := (arguments number integer).

(** A row of a table whose columns are named as the fields of craters gives the maker exactly the
    arguments that its cells stand for, or ValueError if a cell that must be a number is not one. *)
Theorem C117_row_partial : forall header fields, NoDup header -> (List.length fields <= List.length header)%nat ->
  plain (cell header fields) header ->
  (readable number integer (cell header fields) /\
   exists args, arguments header fields = Ok args /\ forall k, args k = argument number integer (cell header fields) k) \/
  (~ readable number integer (cell header fields) /\ arguments header fields = Err ValueError).
Proof. exact (row number integer). Qed.

(** Blank cells, cells left out at the end of a line and columns left out are the same, and the
    order of the columns does not matter. *)
Theorem C117_blank : forall h f h' f', NoDup h -> NoDup h' -> (List.length f <= List.length h)%nat -> (List.length f' <= List.length h')%nat ->
  plain (cell h f) h -> plain (cell h' f') h' -> (forall k, cell h f k = cell h' f' k) ->
  (exists a a', arguments h f = Ok a /\ arguments h' f' = Ok a' /\ forall k, a k = a' k) \/
  (arguments h f = Err ValueError /\ arguments h' f' = Err ValueError).
Proof. exact (blank_absent number integer). Qed.

(** A row with only one of the two coordinates is read without a location (and its crater is then
    placed at random). *)
Theorem C117_location_refuted : forall h f a, NoDup h -> (List.length f <= List.length h)%nat -> plain (cell h f) h ->
  arguments h f = Ok a -> cell h f "longitude" = None \/ cell h f "latitude" = None -> a "location" = None.
Proof. exact (half_location number integer). Qed.

(** A name that looks like a number is read as one. *)
Theorem C117_name_refuted : forall h f a s x, NoDup h -> (List.length f <= List.length h)%nat -> plain (cell h f) h ->
  arguments h f = Ok a -> cell h f "name" = Some s -> number s = Some x -> a "name" = Some (VNum x).
Proof. exact (number_name number integer). Qed.

(** A column named location beside that of the longitude ends the reading with TypeError or KeyError,
    even where it is blank. *)
Theorem C117_location_column_refuted : forall h f lon, NoDup h -> In "location" h -> cell h f "longitude" = Some lon ->
  exists e, arguments h f = Err e /\ (e = TypeError \/ e = KeyError).
Proof. exact (location_column number integer). Qed.

(** A line longer than the header is refused with TypeError, unless one of the further fields is
    blank: then all of them are ignored. *)
Theorem C117_too_long_refuted : forall h f a, arguments h (firstn (List.length h) f) = Ok a -> extra h f <> [] ->
  (forall s, In s (extra h f) -> s = "" \/ number s <> None) ->
  (In "" (extra h f) -> arguments h f = Ok a) /\ (~ In "" (extra h f) -> arguments h f = Err TypeError).
Proof. exact (too_long number integer). Qed.

(** A table gives one crater for each line after the header that is not empty, in order. *)
Theorem C117_table : forall lines h more cs, filter nonempty lines = h :: more ->
  (from_csv number integer crater maker lines = Ok cs <-> Forall2 (fun f c => one number integer crater maker h f = Ok c) more cs).
Proof. exact (csv_ok number integer crater maker). Qed.

(** Nothing is read of a table with a line that cannot be read: the exception is that of the first
    such line. *)
Theorem C117_table_fails : forall lines h more e, filter nonempty lines = h :: more ->
  (from_csv number integer crater maker lines = Err e <->
   exists a f b cs, more = (a ++ f :: b)%list /\ Forall2 (fun f c => one number integer crater maker h f = Ok c) a cs /\
     one number integer crater maker h f = Err e).
Proof. exact (csv_err number integer crater maker). Qed.

(** By the name of the file: other extensions end with UnboundLocalError, and an scc file must be
    named in lower case although the extension is compared without case. *)
Theorem C117_file_refuted : forall nc scc lines, let read := from_file number integer crater maker in
  (forall l o, read true "nc" l nc scc lines o = nc) /\
  (forall l, read true "csv" l nc scc lines false = from_csv number integer crater maker lines) /\
  (read true "scc" true nc scc lines false = scc /\ read true "scc" false nc scc lines false = Err ValueError) /\
  (forall e l o, e <> "nc" -> e <> "csv" -> e <> "scc" -> read true e l nc scc lines o = Err UnboundLocalError) /\
  (forall e l o, read false e l nc scc lines o = Err FileNotFoundError).
Proof.
  intros nc scc lines read. repeat split. intros e l o A B C. unfold read, from_file.
  apply String.eqb_neq in A, B, C. rewrite A, B, C. reflexivity.
Qed.
End Props.
Print Assumptions C117_row_partial.
Print Assumptions C117_blank.
Print Assumptions C117_location_refuted.
Print Assumptions C117_name_refuted.
Print Assumptions C117_location_column_refuted.
Print Assumptions C117_too_long_refuted.
Print Assumptions C117_table.
Print Assumptions C117_table_fails.
Print Assumptions C117_file_refuted.

Example C117_row_partial_ex : let h := ["diameter"; "longitude"; "latitude"; "name"] in let f := ["1000"; "10"; "20"; "Tycho"] in
  exists a, arguments ex_number ex_integer h f = Ok a /\ a "diameter" = Some (VNum 1000) /\
    a "location" = Some (VList [VNum 10; VNum 20]) /\ a "name" = Some (VText "Tycho") /\ a "time" = None.
Proof. eexists. split; [reflexivity|]. repeat split. Qed.
Example C117_blank_ex : exists a a', arguments ex_number ex_integer ["diameter"; "latitude"; "longitude"; "time"] ["1000"; "20"; "10"] = Ok a /\
  arguments ex_number ex_integer ["longitude"; "latitude"; "diameter"] ["10"; "20"; "1000"] = Ok a' /\
  a "location" = a' "location" /\ a "time" = None.
Proof. eexists _, _. repeat split. Qed.
Example C117_location_refuted_ex : exists a, arguments ex_number ex_integer ["diameter"; "longitude"; "latitude"] ["1000"; "10"; ""] = Ok a /\
  a "location" = None /\ a "longitude" = Some (VNum 10).
Proof. eexists. repeat split. Qed.
Example C117_name_refuted_ex : exists a, arguments ex_number ex_integer ["diameter"; "name"] ["1000"; "10"] = Ok a /\ a "name" = Some (VNum 10).
Proof. eexists. repeat split. Qed.
Example C117_location_column_refuted_ex :
  arguments ex_number ex_integer ["location"; "longitude"; "latitude"] [""; "10"; "20"] = Err KeyError.
Proof. reflexivity. Qed.
Example C117_too_long_refuted_ex : arguments ex_number ex_integer ["diameter"] ["1000"; "10"] = Err TypeError /\
  exists a, arguments ex_number ex_integer ["diameter"] ["1000"; ""; "10"] = Ok a /\ a "diameter" = Some (VNum 1000).
Proof. split; [reflexivity|]. eexists. repeat split. Qed.
Example C117_table_ex : from_csv ex_number ex_integer (option value) (fun a => Ok (a "diameter")) [["diameter"]; ["1000"]; []; ["20"]]
  = Ok [Some (VNum 1000); Some (VNum 20)].
Proof. reflexivity. Qed.
Example C117_table_fails_ex : from_csv ex_number ex_integer (option value) (fun a => Ok (a "diameter"))
  [["diameter"; "longitude"]; ["1000"]; ["20"; "east"]] = Err ValueError.
Proof. reflexivity. Qed.
Example C117_file_refuted_ex : from_file ex_number ex_integer nat (fun _ => Ok 1%nat) true "txt" true (Ok []) (Ok []) [] false = Err UnboundLocalError.
Proof. reflexivity. Qed.
