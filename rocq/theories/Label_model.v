(** Model of the labels of plots and of stepping through the saved intervals in the 3D viewer:
    core/simulation.py (labelmaker 942-1023, the key events of pyvista_plotter 1215-1275,
    save 867-884, time_variables 1764-1783, elapsed_n1 in run 634-642, __str__ 250-263),
    core/base.py (get_time_variables 321-379, read_saved_output 248-294) and the units of
    production/__init__.py 1349-1410.
    Simplifications: f64 is idealised as R; the formatted numbers are those of Format_model;
    a label is the list of its parts and its separator; a saved file is its interval number
    and its time variables (none before the first run: 876, 1777); the surface data, the
    picture itself and the file it is drawn from are those of C06 and C106. *)
From Coq Require Import Reals List ZArith.
From Verif Require Import Common Format_model Run_model.
Import ListNotations.
Open Scope string_scope.
Open Scope R_scope.

(** time_variables: simulation.py:1764-1783. *)
Record times := mkTimes { t_time : R; t_elapsed : R; t_n1 : R }.
(** The state of a simulation that labels depend on. *)
Record state := mkState { s_interval : nat; s_times : option times; s_smallest : R }.

(** The saved surface files, in the order of their names. *)
Definition files := list (nat * option times).
Fixpoint put (i : nat) (x : option times) (l : files) : files :=
  match l with
  | [] => [(i, x)]
  | (j, y) :: r => if (i <? j)%nat then (i, x) :: l else if (i =? j)%nat then (i, x) :: r else (j, y) :: put i x r
  end.
(** save: simulation.py:867-884, surface/__init__.py:3286-3296. *)
Definition save (s : state) (d : files) : files := put (s_interval s) (s_times s) d.
Fixpoint file (i : nat) (d : files) : option (nat * option times) :=
  match d with [] => None | (j, y) :: r => if (i =? j)%nat then Some (j, y) else file i r end.
(** read_saved_output(interval): core/base.py:278-289.  A negative number counts from the last
    file; of an interval that was not saved the dataset is empty. *)
Definition read (i : Z) (d : files) : result (option (nat * option times)) :=
  match d with
  | [] => Ok None
  | _ => if (i <? 0)%Z then
           match nth_error (rev d) (Z.to_nat (- i - 1)) with Some f => Ok (Some f) | None => Err IndexError end
         else Ok (file (Z.to_nat i) d)
  end.
(** get_time_variables(interval): core/base.py:358-372.  The number asked for is looked up in the
    interval coordinate of the dataset. *)
Definition time_variables (i : Z) (d : files) : result (option times) :=
  rbind (read i d) (fun f => Ok (match f with
                                 | None => None
                                 | Some (j, y) => if (Z.of_nat j =? i)%Z then y else None
                                 end)).

Section Label.
(** production.csfd and production.chronology, D_conversion_factor and N_conversion_factor. *)
Variables (csfd chron : R -> R) (Dconv Nconv : R).

(** N_unit: production/__init__.py:1398-1410, as printed in labels (simulation.py:1020). *)
Definition N_unit : string :=
  if Req_EM_T Nconv 1 then "per m²"
  else if Req_EM_T Nconv 1000000 then "per km²"
  else if Req_EM_T Nconv 1000000000000 then "per 10$^6$ km²"
  else "UNKNOWN UNIT".

(** The arguments of labelmaker: 942-952. *)
Record wishes := mkWishes {
  w_interval : bool; w_time : bool; w_age : bool; w_N : bool; w_D : option R; w_compact : bool }.
Inductive part := Interval (i : Z) | Time (my : R) | Age (my : R) | Number (D : R) (N : R) (unit : string).
Inductive separator := NewLine | ThreeSpaces.

(** N_diam_val: 989-996. *)
Definition N_diam_val (w : wishes) (s : state) : R :=
  match w_D w with
  | Some D => D
  | None => if Rlt_dec (s_smallest s) 100 then 1 else if Rlt_dec (s_smallest s) 10000 then 20 else 64
  end.
(** 984-1023: the label of these time variables. *)
Definition label_of (w : wishes) (s : state) (i : Z) (tv : option times) : separator * list part :=
  let D := N_diam_val w s in
  (if w_compact w then NewLine else ThreeSpaces,
   ((if w_interval w then [Interval i] else [])
    ++ match tv with
       | None => []
       | Some t =>
           (if w_time w then [Time (fixed 0 (t_time t))] else [])
           ++ (if w_age w then [Age (fixed 0 (t_elapsed t))] else [])
           ++ (if w_N w then [Number (fixed 0 D) (significant (t_n1 t * (csfd (D * Dconv) / csfd DSTD))) N_unit] else [])
       end)%list).
(** labelmaker: 975-1023. *)
Definition labelmaker (w : wishes) (interval : option Z) (s : state) (d : files) : result (separator * list part) :=
  match interval with
  | None => Ok (label_of w s (Z.of_nat (s_interval s)) (s_times s))
  | Some i => rbind (time_variables i d) (fun tv => Ok (label_of w s i tv))
  end.

(** elapsed_n1 after a run: 634-642, from 1603-1609 (zero at first). *)
Definition elapsed_n1 (periods : list (R * R)) : R :=
  fold_left (fun n p => n + fn csfd chron DSTD (fst p) (snd p) * Nconv) periods 0.
(** __str__: 262. *)
Definition printed_n1 (t : times) : R * string := (t_n1 t, "# per 10⁶ km²").
End Label.

(** One step of a session: the simulation changes, or it saves. *)
Inductive op := Change (s : state) | Save.
Definition step (x : state * files) (o : op) : state * files :=
  match o with Change s => (s, snd x) | Save => (fst x, save (fst x) (snd x)) end.
Definition session (ops : list op) (s : state) : state * files := fold_left step ops (s, []).

(** The 3D viewer: 1208-1275.  [v_shown] is the interval the picture was asked for. *)
Inductive caption := Default (compact : bool) | Given (text : string) | NoCaption.
Record viewer := mkViewer { v_pos : Z; v_max : Z; v_shown : Z; v_caption : caption }.
(** pyvista_plotter: 1243-1263.  Without an interval the current one is saved and shown. *)
Definition open_viewer (current : nat) (interval : option Z) (c : caption) : viewer :=
  let i := match interval with Some i => i | None => Z.of_nat current end in
  mkViewer i (Z.of_nat current) i c.
(** IntervalState.update: 1220-1230. *)
Definition update (forward : bool) (pos top : Z) : option Z :=
  if forward then if (top <? pos + 1)%Z then None else Some (pos + 1)%Z
  else if (pos - 1 <? 0)%Z then None else Some (pos - 1)%Z.
(** update_interval: 1232-1237, called by the right and the left arrow (1272-1273).  The picture
    is drawn anew by pyvista_plotter with the number that update returned, maybe None; the label
    is not handed on and compact has been taken out of the keywords (1256). *)
Definition key (current : nat) (v : viewer) (forward : bool) : viewer :=
  let u := update forward (v_pos v) (v_max v) in
  mkViewer (match u with Some i => i | None => v_pos v end) (v_max v)
           (match u with Some i => i | None => Z.of_nat current end) (Default true).
Definition keys (current : nat) (l : list bool) (v : viewer) : viewer := fold_left (key current) l v.
