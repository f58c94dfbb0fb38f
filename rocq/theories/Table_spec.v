(** What a user reads in a table: the text in a column, and the arguments it stands for. *)
From Coq Require Import Reals ZArith List.
From Verif Require Import Common Table_model.
Import ListNotations.
Open Scope string_scope.

(** The text of a row in a column, unless it is blank. *)
Definition cell (header fields : list string) (k : string) : option string :=
  match find (fun p => String.eqb (fst p) k) (combine header fields) with
  | Some (_, s) => if String.eqb s "" then None else Some s
  | None => None
  end.

Section Spec.
Variable number : string -> option R.
Variable integer : string -> option Z.
Variable text : string -> option string.   (* the columns of a row *)

Definition num (k : string) : option value := match text k with Some s => option_map VNum (number s) | None => None end.
Definition num_or_zero (k : string) : option value := match text k with Some s => option_map VNum (number s) | None => Some (VNum 0) end.
Definition together (l : list (option value)) : option value :=
  fold_right (fun v r => match v, r with Some x, Some (VList y) => Some (VList (x :: y)) | _, _ => None end) (Some (VList [])) l.
(** The columns that are parts of a pair or a triple. *)
Definition parts : list string :=
  [ "longitude"; "latitude"; "measured_longitude"; "measured_latitude"; "production_D"; "production_N";
    "production_N_stdev"; "production_time"; "production_time_stdev" ].
(** The argument with a name. *)
Definition argument (k : string) : option value :=
  if String.eqb k "location" then together [num "longitude"; num "latitude"]
  else if String.eqb k "measured_location" then together [num "measured_longitude"; num "measured_latitude"]
  else if String.eqb k "production_ND" then together [num "production_D"; num "production_N"; num_or_zero "production_N_stdev"]
  else if String.eqb k "production_time" then together [num "production_time"; num_or_zero "production_time_stdev"]
  else if is_integer_key k then match text k with Some s => option_map VInt (integer s) | None => None end
  else match text k with
       | Some s => match number s with Some x => Some (VNum x) | None => Some (VText s) end
       | None => None
       end.
(** The texts that must be numbers are. *)
Definition readable : Prop :=
  (forall k s, In k parts -> text k = Some s -> number s <> None) /\
  (forall k s, is_integer_key k = true -> text k = Some s -> integer s <> None).
(** Columns of whole pairs are not for tables; neither is an option of the maker. *)
Definition plain (header : list string) : Prop :=
  ~ In "location" header /\ ~ In "measured_location" header /\ ~ In "production_ND" header /\
  text "check_redundant_inputs" = None.

(** The lines that have fields, and the crater of one line. *)
Definition nonempty (l : list string) : bool := match l with [] => false | _ => true end.
Variable crater : Type.
Variable maker : dict -> result crater.
Definition one (header fields : list string) : result crater := rbind (arguments number integer header fields) maker.
End Spec.
