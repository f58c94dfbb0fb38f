(** Model of _convert_tuple_vars, cratermaker/components/crater/__init__.py:1406-1444. *)
From Coq Require Import Reals.
From Verif Require Import Common.

(** Dictionary values. *)
Inductive cell := CNone | CEmpty | CNum (x : R) | CText (s : string) | CTup (l : list cell).
Definition dict := string -> option cell.

Definition upd (d : dict) (k : string) (v : option cell) : dict :=
  fun k' => if String.eqb k' k then v else d k'.

(** 1407-1412 tuple_map, in order. *)
Definition tuple_map : list (string * list string) :=
  [("location", ["longitude"; "latitude"]);
   ("measured_location", ["measured_longitude"; "measured_latitude"]);
   ("production_ND", ["production_D"; "production_N"; "production_N_stdev"]);
   ("production_time", ["production_time"; "production_time_stdev"])]%string.

(** 1413 entries that are None or "" are dropped. *)
Definition drop_blank (d : dict) : dict :=
  fun k => match d k with Some CNone | Some CEmpty => None | v => v end.

(** input_dict[tup][idx]; a text at a tuple key is not modelled (TypeError). *)
Definition item (c : cell) (i : nat) : result cell :=
  match c with
  | CTup l => match nth_error l i with Some v => Ok v | None => Err IndexError end
  | CEmpty => Err IndexError
  | _ => Err TypeError
  end.

(** 1438-1442 one tuple flattened. *)
Fixpoint flat_cols (c : cell) (i : nat) (cols : list string) (new : dict) : result dict :=
  match cols with
  | [] => Ok new
  | v :: r => rbind (item c i) (fun x => flat_cols c (S i) r (upd new v (Some x)))
  end.
Definition flat_one (inp : dict) (new : dict) (t : string * list string) : result dict :=
  match inp (fst t) with
  | None => Ok new
  | Some c => flat_cols c 0 (snd t) (upd new (fst t) None)
  end.
Fixpoint fold_res {A B} (f : B -> A -> result B) (l : list A) (b : B) : result B :=
  match l with [] => Ok b | a :: r => rbind (f b a) (fold_res f r) end.
Definition flatten (inp : dict) : result dict := fold_res (flat_one inp) tuple_map (drop_blank inp).

(** 1417-1430 aliases: production columns become lists and leave the input. *)
Definition or_zero (c : option cell) : cell :=
  match c with None | Some CNone | Some CEmpty => CNum 0%R | Some v => v end.
Definition alias_ND (s : dict * dict) : dict * dict :=
  let '(inp, new) := s in
  match inp "production_D"%string, inp "production_N"%string with
  | Some a, Some b =>
      (upd (upd (upd inp "production_D" None) "production_N" None) "production_N_stdev" None,
       upd new "production_ND" (Some (CTup [a; b; or_zero (inp "production_N_stdev"%string)])))
  | _, _ => s
  end.
Definition alias_time (s : dict * dict) : dict * dict :=
  let '(inp, new) := s in
  match inp "production_time"%string with
  | Some a =>
      (upd (upd inp "production_time" None) "production_time_stdev" None,
       upd new "production_time" (Some (CTup [a; or_zero (inp "production_time_stdev"%string)])))
  | None => s
  end.

(** 1433-1437 one tuple rebuilt. *)
Fixpoint set_item (i : nat) (x : cell) (l : list cell) : list cell :=
  match l, i with
  | [], _ => []
  | _ :: r, O => x :: r
  | a :: r, S j => a :: set_item j x r
  end.
Definition present (d : dict) (k : string) : bool := match d k with Some _ => true | None => false end.
Fixpoint fill (inp : dict) (tup : string) (i : nat) (cols : list string) (l : list cell) : list cell :=
  match cols with
  | [] => l
  | v :: r =>
      let l' := if String.eqb v tup then l
                else match inp v with Some CNone | None => l | Some x => set_item i x l end in
      fill inp tup (S i) r l'
  end.
(** When the tuple key itself is among the input keys the existing value is written
    into; the files never have both, and that case is not modelled (TypeError). *)
Definition rebuild_one (inp : dict) (new : dict) (t : string * list string) : result dict :=
  if existsb (present inp) (snd t) then
    match inp (fst t) with
    | None => Ok (upd new (fst t)
                    (Some (CTup (fill inp (fst t) 0 (snd t) (repeat CNone (List.length (snd t)))))))
    | Some _ => Err TypeError
    end
  else Ok new.
Definition rebuild (inp : dict) : result dict :=
  let '(inp', new) := alias_time (alias_ND (inp, drop_blank inp)) in
  fold_res (rebuild_one inp') tuple_map new.
