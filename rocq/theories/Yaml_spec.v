(** What a user expects of a configuration file: the value that a piece of data shows. *)
From Coq Require Import Reals ZArith List.
From Verif Require Import Common Yaml_model.
Import ListNotations.
Open Scope string_scope.

(** The data that show a value: the same number, text, list or dictionary, whatever the library it is from. *)
Inductive shows : data -> obj -> Prop :=
| s_null : shows DNull None_
| s_bool b : shows (DBool b) (Bool b)
| s_npbool b : shows (DBool b) (NpBool b)
| s_int z : shows (DInt z) (Int z)
| s_npint z : shows (DInt z) (NpInt z)
| s_float x : shows (DFloat x) (Float x)
| s_npfloat x : shows (DFloat x) (NpFloat x)
| s_str s : shows (DStr s) (Str s)
| s_npstr s : shows (DStr s) (NpStr s)
| s_path s : shows (DStr s) (PathOf s)
| s_array d : shows d (Arr d)
| s_list l m : Forall2 shows l m -> shows (DSeq l) (Lst m)
| s_tuple l m : Forall2 shows l m -> shows (DSeq l) (Tup m)
| s_dict l m : Forall2 (fun p q => fst p = fst q /\ shows (snd p) (snd q)) l m -> shows (DMap l) (Dict m).

(** Values made of None, truth values, numbers, texts, lists and dictionaries. *)
Inductive plain : obj -> Prop :=
| pl_none : plain None_
| pl_bool b : plain (Bool b)
| pl_int z : plain (Int z)
| pl_float x : plain (Float x)
| pl_str s : plain (Str s)
| pl_list l : Forall plain l -> plain (Lst l)
| pl_dict l : Forall (fun p => plain (snd p)) l -> plain (Dict l).
(** Some part of a value, inside lists, tuples and dictionaries, is one of a kind. *)
Inductive part (P : obj -> Prop) : obj -> Prop :=
| p_here o : P o -> part P o
| p_list l o : In o l -> part P o -> part P (Lst l)
| p_tuple l o : In o l -> part P o -> part P (Tup l)
| p_dict l k o : In (k, o) l -> part P o -> part P (Dict l).
Definition np_text (o : obj) : Prop := exists s, o = NpStr s.
Definition strange (o : obj) : Prop := (exists b, o = NpBool b) \/ (exists t, o = Other t).

(** The value of an attribute, and the data under a key of a file. *)
Definition lookup {A} (k : string) (l : list (string * A)) : option A :=
  option_map snd (find (fun p => String.eqb (fst p) k) l).
(** A file that shows the attributes: those that are not None, and nothing else. *)
Definition faithful (s : sim) : Prop :=
  exists l, conf s = File l /\
  forall k, match lookup k (attrs s) with
            | None | Some None_ => lookup k l = None
            | Some v => exists d, lookup k l = Some d /\ shows d v
            end.
Definition good (v : obj) : Prop := ~ part np_text v /\ ~ part strange v.

(** Assignments in order; a simulation with one value per attribute, all of them good.  (No array is None.) *)
Definition assignments (store : string -> obj -> obj) (l : list (string * obj)) (s : sim) : sim :=
  fold_left (fun s p => fst (assign store (fst p) (snd p) s)) l s.
Definition unique (a : attributes) : Prop := NoDup (map fst a).
Definition tidy (s : sim) : Prop := unique (attrs s) /\ forall k v, In (k, v) (attrs s) -> good v /\ v <> Arr DNull.
(** Examples: what some of the setters keep. *)
Definition ex_store (k : string) (v : obj) : obj :=
  match v with None_ => if String.eqb k "save_actions" then Lst [] else if String.eqb k "ask_overwrite" then Bool true else None_ | _ => v end.
