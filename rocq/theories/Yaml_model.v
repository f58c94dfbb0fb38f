(** Model of the values in the configuration file: core/base.py (_convert_for_yaml 995-1013, _to_config 1016-1020),
    core/simulation.py (__setattr__ 286-297, to_config 1277-1321 without the components, which Conf_model has).
    The YAML library is idealised: safe_dump of plain data followed by safe_load gives the data back, with tuples
    written as lists, and safe_dump refuses every other type, also subclasses of the plain ones (its representers go
    by the exact type).  Keys are texts; floats are reals. *)
From Coq Require Import Reals ZArith List.
From Verif Require Import Common.
Import ListNotations.
Open Scope string_scope.

(** What a YAML file can hold. *)
Inductive data := DNull | DBool (b : bool) | DInt (z : Z) | DFloat (x : R) | DStr (s : string)
| DSeq (l : list data) | DMap (l : list (string * data)).

(** Python values.  An array is given by its nested lists of plain values (tolist); [Other t] is any other object,
    with t its text. *)
Inductive obj := None_ | Bool (b : bool) | Int (z : Z) | Float (x : R) | Str (s : string)
| Lst (l : list obj) | Tup (l : list obj) | Dict (l : list (string * obj))
| NpInt (z : Z) | NpFloat (x : R) | NpBool (b : bool) | NpStr (s : string) | Arr (d : data)
| PathOf (s : string) | Other (text : string).

(** safe_load *)
Fixpoint load (d : data) : obj :=
  match d with
  | DNull => None_ | DBool b => Bool b | DInt z => Int z | DFloat x => Float x | DStr s => Str s
  | DSeq l => Lst (map load l)
  | DMap l => Dict (map (fun p => (fst p, load (snd p))) l)
  end.

(** base.py:995-1013; np.bool_ is neither an np.integer nor a bool, and np.str_ is a str *)
Fixpoint convert (o : obj) : obj :=
  match o with
  | Dict l => Dict (map (fun p => (fst p, convert (snd p))) l)
  | Lst l => Lst (map convert l)
  | Tup l => Tup (map convert l)
  | Arr d => load d
  | NpInt z => Int z
  | NpFloat x => Float x
  | PathOf s => Str s
  | Str _ | Int _ | Float _ | Bool _ | NpStr _ => o
  | None_ => None_
  | NpBool b => Str (if b then "True" else "False")
  | Other t => Str t
  end.

(** safe_dump; None is the RepresenterError *)
Fixpoint all {A} (l : list (option A)) : option (list A) :=
  match l with
  | [] => Some []
  | Some x :: r => option_map (cons x) (all r)
  | None :: _ => None
  end.
Fixpoint dump (o : obj) : option data :=
  match o with
  | None_ => Some DNull | Bool b => Some (DBool b) | Int z => Some (DInt z) | Float x => Some (DFloat x)
  | Str s => Some (DStr s)
  | Lst l | Tup l => option_map DSeq (all (map dump l))
  | Dict l => option_map DMap (all (map (fun p => option_map (pair (fst p)) (dump (snd p))) l))
  | NpInt _ | NpFloat _ | NpBool _ | NpStr _ | Arr _ | PathOf _ | Other _ => None
  end.

(** base.py:1016-1020: the attributes that are set and whose converted value is not None *)
Definition is_none (o : obj) : bool := match o with None_ => true | _ => false end.
Definition attributes := list (string * obj).
Definition config (a : attributes) : attributes :=
  filter (fun p => negb (is_none (snd p))) (map (fun p => (fst p, convert (snd p))) a).

(** A simulation with its file; a file of which the dump failed is [Broken]. *)
Inductive file := Missing | Broken | File (l : list (string * data)).
Record sim := mkSim { attrs : attributes; conf : file }.
Definition put (k : string) (v : obj) (a : attributes) : attributes :=
  (k, v) :: filter (fun p => negb (String.eqb (fst p) k)) a.
(** simulation.py:1315-1321: the file is opened for writing before the dump; [true] is an exception *)
Definition write (s : sim) : sim * bool :=
  match all (map (fun p => option_map (pair (fst p)) (dump (snd p))) (config (attrs s))) with
  | Some l => (mkSim (attrs s) (File l), false)
  | None => (mkSim (attrs s) Broken, true)
  end.
(** simulation.py:286-297: the assignment of a parameter; [store] is what the setter keeps of the value (for
    save_actions, an empty list for None, base.py:558-583; for ask_overwrite, True for None, 592-598; for time and
    interval the value, simulation.py:1560-1613).  Setters that refuse a value are left out. *)
Definition assign (store : string -> obj -> obj) (k : string) (v : obj) (s : sim) : sim * bool :=
  let s' := mkSim (put k (store k v) (attrs s)) (conf s) in
  if is_none (convert v) then (s', false) else write s'.
