(** Whether a simulation uses the quasi-Monte Carlo craters it was given: do_quasimc and its use in
    populate (core/simulation.py), the list itself in production/__init__.py.
    Simplifications: a production model is always present and stays; the treatment of an assigned
    list (modelled in Quasi_model) is a parameter that may fail and gives each crater kept a time, so
    reading the list does not treat it again; of populate only the choice of these craters is kept:
    the random ones and what the merge does with them are in Populate_model and Times_model. *)
From Coq Require Import List Reals.
From Verif Require Import Common.
Import ListNotations.
Open Scope R_scope.

Section Flag.
Variable crater : Type.
Variable time : crater -> R.
(** _process_quasimc_craters *)
Variable process : list crater -> result (list crater).

Record sim := mk_sim { flag : option bool; quasi : list crater }.
(** simulation.py:102 and production/__init__.py:68, 80-81, with the list given at construction *)
Definition new_sim (l : list crater) : sim := mk_sim None l.
(** What can be assigned to do_quasimc: a bool, None or anything else. *)
Inductive value := Truth (b : bool) | Nothing | Anything.
(** What can be assigned to quasimc_craters: a list of craters, None or anything else. *)
Inductive craters := List (l : list crater) | Absent | Wrong.

(** do_quasimc: simulation.py:1857-1872 *)
Definition do_quasimc (s : sim) : bool * sim :=
  match flag s with
  | Some b => (b, s)
  | None => let b := match quasi s with [] => false | _ => true end in (b, mk_sim (Some b) (quasi s))
  end.
(** its assignment: simulation.py:1874-1878; isinstance(value, (bool, None)) is itself a TypeError
    unless the value is a bool *)
Definition set_do_quasimc (s : sim) (v : value) : result sim :=
  match v with Truth b => Ok (mk_sim (Some b) (quasi s)) | Nothing => Err TypeError | Anything => Err TypeError end.
(** quasimc_craters = value: simulation.py:1892-1895, production/__init__.py:1322-1329 *)
Definition set_craters (s : sim) (v : craters) : result sim :=
  match v with
  | Absent => Ok (mk_sim (flag s) [])
  | List [] => Ok (mk_sim (flag s) [])
  | List l => rbind (process l) (fun l' => Ok (mk_sim (flag s) l'))
  | Wrong => Err TypeError
  end.
(** The choice of quasimc_merge: production/__init__.py:921-922 *)
Definition in_period (time_start time_end : R) (c : crater) : bool :=
  if Rle_dec (time c) time_start then if Rlt_dec time_end (time c) then true else false else false.
(** populate from [time_start] to [time_end], the given craters it merges: simulation.py:795-812 *)
Definition populate (s : sim) (time_start time_end : R) : list crater * sim :=
  let (b, s') := do_quasimc s in
  (if b then filter (in_period time_start time_end) (quasi s') else [], s').
End Flag.
