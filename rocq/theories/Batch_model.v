(** Model of the list of craters emplaced in an interval: how it is emptied, saved, and
    loaded again (counting/__init__.py: __init__, reset, save; simulation.py: run, emplace, save,
    reset; base.py: read_saved_output; crater/__init__.py: from_xarray).
    A crater is its id: two entries with one id are the same crater emplaced twice.  Which of the
    craters asked for are put on the surface, and which are observed afterwards, are arguments
    (Emplace_model and Tags_model decide them). *)
From Coq Require Import List Bool Arith.
From Verif Require Import Sorting.
Import ListNotations.

Definition crater := nat.

(** Files of one kind, by interval number, the last written first. *)
Definition files := list (nat * list crater).

(** counting/__init__.py:493-495: an existing file is deleted and written anew *)
Definition put (i : nat) (l : list crater) (fs : files) : files :=
  (i, l) :: filter (fun e => negb (fst e =? i)) fs.

(** base.py:278-283 with interval = -1 and 404-419: the file with the largest number
    (file names have six digits, so their order is that of the numbers) *)
Fixpoint latest (fs : files) : option (nat * list crater) :=
  match fs with
  | [] => None
  | e :: r => match latest r with
              | None => Some e
              | Some e' => if fst e' <? fst e then Some e else Some e'
              end
  end.

(** counting/__init__.py:421-447 to_xarray: the craters in the order of their ids *)
Definition to_xarray (l : list crater) : list crater := sort Nat.leb l.

(** crater/__init__.py:1373-1383: selecting an id that occurs more than once gives lists
    instead of numbers, and the crater is skipped (1376-1377) *)
Definition read (l : list crater) : list crater :=
  filter (fun c => count_occ Nat.eq_dec l c =? 1) l.

(** crater/__init__.py:1363-1372 from_xarray of one file at an interval *)
Definition from_xarray (i : nat) (f : option (nat * list crater)) : list crater :=
  match f with
  | Some (j, l) => if i =? j then read l else []
  | None => []
  end.

Record sim := mkSim {
  emplaced : list crater;   (* counting.emplaced, in the order of emplacement *)
  observed : list crater;   (* the keys of counting.observed *)
  interval : nat;
  is_new : bool;
  started : bool;           (* time is not None *)
  e_files : files;          (* emplaced_cratersNNNNNN.nc *)
  o_files : files }.        (* observed_cratersNNNNNN.nc *)

Inductive kind := Observed | Emplaced | Both.

(** counting/__init__.py:479-495: nothing is written for an empty list *)
Definition write_file (i : nat) (l : list crater) (fs : files) : files :=
  match l with [] => fs | _ => put i (to_xarray l) fs end.

(** counting/__init__.py:449-498 save: neither list is changed *)
Definition save (k : kind) (s : sim) : sim :=
  mkSim (emplaced s) (observed s) (interval s) (is_new s) (started s)
    (match k with Observed => e_files s | _ => write_file (interval s) (emplaced s) (e_files s) end)
    (match k with Emplaced => o_files s | _ => write_file (interval s) (observed s) (o_files s) end).

(** morphology/__init__.py:614, 616-617: the craters are appended; [seen] is what is observed afterwards *)
Definition append (cs seen : list crater) (s : sim) : sim :=
  mkSim (emplaced s ++ cs) seen (interval s) (is_new s) (started s) (e_files s) (o_files s).

(** simulation.py:864-865 emplace *)
Definition emplace (cs seen : list crater) (s : sim) : sim :=
  append cs seen (mkSim (emplaced s) (observed s) (interval s) false (started s) (e_files s) (o_files s)).

(** simulation.py:589 *)
Definition forget (s : sim) : sim :=
  mkSim [] (observed s) (interval s) (is_new s) (started s) (e_files s) (o_files s).

(** the assignment sim.interval = i, and simulation.py:644 *)
Definition set_interval (i : nat) (s : sim) : sim :=
  mkSim (emplaced s) (observed s) i (is_new s) (started s) (e_files s) (o_files s).

(** simulation.py:588-645: one turn of the loop of run, populate emplacing [cs] *)
Definition turn (t : list crater * list crater) (s : sim) : sim :=
  let s1 := append (fst t) (snd t) (forget s) in
  save Both (set_interval (interval s1 + 1) s1).

(** simulation.py:549-551 *)
Definition start (s : sim) : sim :=
  if started s then s
  else mkSim (emplaced s) (observed s) 0 (is_new s) true (e_files s) (o_files s).

(** simulation.py:549-648 run, [ts] being the turns that are made *)
Definition run (ts : list (list crater * list crater)) (s : sim) : sim :=
  let s1 := start s in
  let s2 := if is_new s1 then save Both s1 else s1 in
  fold_left (fun s t => turn t s) ts s2.

(** simulation.py:1361-1370 and counting/__init__.py:151-165: the files are deleted; the save
    that follows finds both lists empty *)
Definition reset (s : sim) : sim := save Both (mkSim [] [] 0 true false [] []).

(** counting/__init__.py:69-96 __init__ with reset=False, in a new Simulation object that
    reads the interval and time of the configuration (Restart_model) *)
Definition resume (s : sim) : sim :=
  let '(obs, emp) := match latest (o_files s) with
                     | Some (i, l) => (read l, from_xarray i (latest (e_files s)))
                     | None => ([], [])
                     end in
  mkSim emp obs (interval s) false (started s) (e_files s) (o_files s).

Inductive op :=
| OEmplace (cs seen : list crater)
| OSave (k : kind)
| OSetInterval (i : nat)
| ORun (ts : list (list crater * list crater))
| OResume
| OReset.

Definition step (s : sim) (o : op) : sim :=
  match o with
  | OEmplace cs seen => emplace cs seen s
  | OSave k => save k s
  | OSetInterval i => set_interval i s
  | ORun ts => run ts s
  | OResume => resume s
  | OReset => reset s
  end.

Definition session (ops : list op) (s : sim) : sim := fold_left step ops s.

(** A new simulation (simulation.py:238-246): everything empty. *)
Definition fresh : sim := mkSim [] [] 0 true false [] [].
