(** Model of the life cycle of a simulation: Simulation.__init__, reset, save, to_config and
    the bookkeeping of run (core/simulation.py), together with what they leave on disk.
    The programs return the new state and the list of the writes they make, in order, so that
    a crash is a prefix of that list.
    Simplifications: a surface is the list of the periods it has been through; the component
    configurations, the plots and the export files are left out (Conf_model has the former);
    the prompts of the components about deleting files are answered with yes (Base_model has
    the prompts); the grid is its identifier; the surface file is written in one go (it is
    moved into place, surface/__init__.py:1265-1283) and so is the grid; a configuration file
    is either empty or complete, since it is opened with "w" and closed after the dump; the
    files of emplaced craters are left out. *)
From Coq Require Import Reals List String Bool Arith.
From Verif Require Import Common.
Import ListNotations.
Open Scope R_scope.

(** simulation.py:581-646 what one iteration of run does to the surface: the period, the
    increase of N(1), whether a crater was formed, and the craters observed afterwards. *)
Record period : Type := mkPeriod {
  p_start : R; p_end : R; p_dt : R; p_dn1 : R; p_forms : bool; p_seen : list nat }.

(** simulation.py:1560-1613 interval, time, elapsed_time, elapsed_n1 *)
Record counters : Type := mkCounters {
  c_interval : nat; c_time : option R; c_elapsed : R; c_n1 : R }.
(** simulation.py:1365-1368 the values after a reset *)
Definition counters0 : counters := mkCounters 0 None 0 0.

Section Restart.
(** the state of the random number generator *)
Variable G : Type.

(** The configuration file: the counters and the state of the generator. *)
Record conf : Type := mkConf { f_counters : counters; f_rng : G }.
Inductive file : Type := Absent | Empty | Written (f : conf).

Record disk : Type := mkDisk {
  d_conf : file;                          (* cratermaker.yaml *)
  d_grid : option nat;                    (* the identifier of the grid in surface/grid.nc *)
  d_surf : list (nat * list period);      (* surface/surfaceNNNNNN.nc *)
  d_seen : list (nat * list nat) }.       (* counting/observed_cratersNNNNNN.nc *)

(** One change of the disk. *)
Inductive write : Type :=
| WTruncate                               (* cratermaker.yaml opened with "w" *)
| WConf (f : conf)
| WGrid (id : nat)
| WSurf (i : nat) (c : list period)
| WClearSurf
| WUnlinkSeen (i : nat)
| WSeen (i : nat) (l : list nat)
| WClearSeen.

(** [put i x l]: the files [l] with the file of interval [i] replaced. *)
Definition drop {A} (i : nat) (l : list (nat * A)) : list (nat * A) :=
  filter (fun e => negb (fst e =? i)%nat) l.
Definition put {A} (i : nat) (x : A) (l : list (nat * A)) : list (nat * A) := (i, x) :: drop i l.
(** base.py:246-295 read_saved_output(interval=-1): the file with the largest number (the last
    in the order of the names, which is the order of the numbers up to 999999). *)
Fixpoint latest {A} (l : list (nat * A)) : option (nat * A) :=
  match l with
  | [] => None
  | e :: l' => match latest l' with
               | None => Some e
               | Some b => if (fst b <=? fst e)%nat then Some e else Some b
               end
  end.

Definition apply (d : disk) (w : write) : disk :=
  match w with
  | WTruncate => mkDisk Empty (d_grid d) (d_surf d) (d_seen d)
  | WConf f => mkDisk (Written f) (d_grid d) (d_surf d) (d_seen d)
  | WGrid id => mkDisk (d_conf d) (Some id) (d_surf d) (d_seen d)
  | WSurf i c => mkDisk (d_conf d) (d_grid d) (put i c (d_surf d)) (d_seen d)
  | WClearSurf => mkDisk (d_conf d) (d_grid d) [] (d_seen d)
  | WUnlinkSeen i => mkDisk (d_conf d) (d_grid d) (d_surf d) (drop i (d_seen d))
  | WSeen i l => mkDisk (d_conf d) (d_grid d) (d_surf d) (put i l (d_seen d))
  | WClearSeen => mkDisk (d_conf d) (d_grid d) (d_surf d) []
  end.
Definition apply_all (d : disk) (ws : list write) : disk := fold_left apply ws d.

(** A Simulation object. *)
Record sim : Type := mkSim {
  s_counters : counters; s_surf : list period; s_seen : list nat; s_rng : G;
  s_readonly : bool; s_new : bool }.

(** simulation.py:1277-1321 to_config *)
Definition to_config (s : sim) : list write :=
  if s_readonly s then [] else [WTruncate; WConf (mkConf (s_counters s) (s_rng s))].

(** simulation.py:286-297 __setattr__ of a parameter: the value, then to_config *)
Definition set_counters (c : counters) (s : sim) : sim * list write :=
  let s' := mkSim c (s_surf s) (s_seen s) (s_rng s) (s_readonly s) (s_new s) in (s', to_config s').

(** counting/__init__.py:451-498 save, for the observed craters *)
Definition save_seen (i : nat) (l : list nat) : list write :=
  match l with [] => [] | _ => [WUnlinkSeen i; WSeen i l] end.
(** simulation.py:867-884 save *)
Definition save (s : sim) : list write :=
  WSurf (c_interval (s_counters s)) (s_surf s)
  :: save_seen (c_interval (s_counters s)) (s_seen s) ++ to_config s.

(** simulation.py:550-553, 578-579: the start of run *)
Definition begin_run (ts : R) (s : sim) : sim * list write :=
  let c := s_counters s in
  let '(s1, w1) :=
    match c_time c with
    | Some _ => (s, [])
    | None =>
      let '(a, wa) := set_counters (mkCounters (c_interval c) (Some ts) (c_elapsed c) (c_n1 c)) s in
      let '(b, wb) := set_counters (mkCounters 0 (Some ts) (c_elapsed c) (c_n1 c)) a in
      (b, wa ++ wb)%list
    end in
  (s1, w1 ++ (if s_new s1 then save s1 else []))%list.

(** simulation.py:581-646: one iteration of run. [p] is what populate did, [g] the generator
    afterwards. *)
Definition iterate (p : period) (g : G) (s : sim) : sim * list write :=
  let s0 := mkSim (s_counters s) (s_surf s ++ [p]) (p_seen p) g (s_readonly s) (s_new s && negb (p_forms p)) in
  let c := s_counters s in
  let el := c_elapsed c + p_dt p in
  let n1 := c_n1 c + p_dn1 p in
  let '(s1, w1) := set_counters (mkCounters (c_interval c) (c_time c) el (c_n1 c)) s0 in
  let '(s2, w2) := set_counters (mkCounters (c_interval c) (c_time c) el n1) s1 in
  let '(s3, w3) := set_counters (mkCounters (c_interval c) (Some (p_end p)) el n1) s2 in
  let '(s4, w4) := set_counters (mkCounters (c_interval c + 1) (Some (p_end p)) el n1) s3 in
  (s4, w1 ++ w2 ++ w3 ++ w4 ++ save s4)%list.

(** simulation.py:1323-1372 reset, [skip_surface] being skip_component=["surface"] *)
Definition reset (skip_surface : bool) (s : sim) : sim * list write :=
  let s1 := mkSim counters0 (if skip_surface then s_surf s else []) [] (s_rng s) (s_readonly s) true in
  (s1, WClearSeen :: (if skip_surface then [] else [WClearSurf; WSurf 0 []]) ++ save s1)%list.

(** simulation.py:107-124 the prompt: [answer] is the reply in lower case *)
Definition decide_reset (arg : option bool) (ask : bool) (answer : string) (d : disk) : bool :=
  match arg with
  | Some b => b
  | None =>
    if ask && (match d_conf d with Absent => false | _ => true end)
    then (answer =? "a")%string || (answer =? "y")%string
    else false
  end.

(** simulation.py:69-248 __init__: [id] identifies the grid the arguments and the
    configuration ask for, [fresh] is the generator made from the arguments. *)
Definition construct (arg : option bool) (ask : bool) (answer : string) (id : nat) (fresh : G)
  (d : disk) : result (sim * list write) :=
  let r := decide_reset arg ask answer d in
  (* 125-133, 145-157 and general_utils.py:137-146: an empty file is read as None *)
  match (if r then Ok counters0
         else match d_conf d with
              | Absent => Ok counters0
              | Empty => Err TypeError
              | Written f => Ok (f_counters f)
              end) with
  | Err e => Err e
  | Ok c =>
    (* 145-157 setting the common arguments writes the configuration when it may be written *)
    let w0 := if r then [WTruncate; WConf (mkConf counters0 fresh)] else [] in
    (* surface/__init__.py:1076-1110 _load_from_files *)
    let regrid := match d_grid d with Some i => negb (i =? id)%nat | None => true end in
    let new := r || regrid in
    let w1 := (if regrid then [WGrid id] else []) ++ (if new then [WClearSurf; WSurf 0 []] else []) in
    let surf := if new then [] else match latest (d_surf d) with Some e => snd e | None => [] end in
    (* counting/__init__.py:87-96 *)
    let seen := if new then [] else match latest (d_seen d) with Some e => snd e | None => [] end in
    let s := mkSim c surf seen fresh (negb new) new in
    (* 238-246 *)
    let '(s', w2) := if new then reset true s else (s, []) in
    Ok (s', (w0 ++ w1 ++ w2 ++ to_config s'))%list
  end.

(** What a user does with an open simulation. *)
Inductive op : Type :=
| ORun (ts : R) (l : list (period * G))    (* run, its iterations *)
| OReset.

Fixpoint iterations (l : list (period * G)) (s : sim) : sim * list write :=
  match l with
  | [] => (s, [])
  | (p, g) :: l' => let '(s1, w1) := iterate p g s in
                    let '(s2, w2) := iterations l' s1 in (s2, w1 ++ w2)%list
  end.
Definition do_op (o : op) (s : sim) : sim * list write :=
  match o with
  | ORun ts l => let '(s1, w1) := begin_run ts s in
                 let '(s2, w2) := iterations l s1 in (s2, w1 ++ w2)%list
  | OReset => reset false s
  end.
Fixpoint do_ops (l : list op) (s : sim) : sim * list write :=
  match l with
  | [] => (s, [])
  | o :: l' => let '(s1, w1) := do_op o s in
               let '(s2, w2) := do_ops l' s1 in (s2, w1 ++ w2)%list
  end.
End Restart.
