(** Model of what plots show and where they are saved:
    surface/__init__.py (LocalSurface.plot 3335-3560, Surface.plot 839-905), surface/hireslocal.py (plot 247-333),
    counting/__init__.py (save 449-498, plot 593-758), core/simulation.py (plot 1025-1117, save 867-884),
    core/base.py (get_saved_interval_numbers 212-246, read_saved_output 248-294).
    Simplifications: the state of a surface and of the crater lists are values of [data] and lists of [crater];
    rasters, colours and projection are not modelled (C101 has the rasters); f64 is idealised as R; of the
    arguments passed on to matplotlib only the line style of craters is followed. *)
From Coq Require Import Reals ZArith List.
From Verif Require Import Common.
Import ListNotations.
Open Scope string_scope.
Open Scope R_scope.

Section Plot.
Variables data crater : Type.

(* ------------------------------ saved intervals ------------------------------ *)
(** The saved files of one kind, in the order of their interval numbers. *)
Definition files (A : Type) := list (nat * A).
Fixpoint put {A} (i : nat) (x : A) (l : files A) : files A :=
  match l with
  | [] => [(i, x)]
  | (j, y) :: r => if (i <? j)%nat then (i, x) :: l else if (i =? j)%nat then (i, x) :: r else (j, y) :: put i x r
  end.
Fixpoint file {A} (i : nat) (l : files A) : option (nat * A) :=
  match l with [] => None | (j, y) :: r => if (i =? j)%nat then Some (j, y) else file i r end.
Definition last_number {A} (l : files A) : option nat :=
  match rev l with [] => None | (j, _) :: _ => Some j end.
(** read_saved_output(interval): core/base.py:278-289; Ok None is an empty dataset or no dataset. *)
Definition read_files {A} (i : Z) (l : files A) : result (option (nat * A)) :=
  match l with
  | [] => Ok None
  | _ => if (i <? 0)%Z then
           match nth_error (rev l) (Z.to_nat (- i - 1)) with Some f => Ok (Some f) | None => Err IndexError end
         else Ok (file (Z.to_nat i) l)
  end.

(** The memory of a simulation and its files. *)
Record world := mkWorld {
  w_surf : data; w_obs : list crater; w_emp : list crater;
  f_surf : files data; f_obs : files (list crater); f_emp : files (list crater) }.
Definition put_craters (i : nat) (c : list crater) (l : files (list crater)) : files (list crater) :=
  match c with [] => l | _ => put i c l end.
(** Simulation.save (core/simulation.py:867-884): the surface, then the crater lists that are not empty
    (counting/__init__.py:481-496). *)
Definition save (i : nat) (w : world) : world :=
  mkWorld (w_surf w) (w_obs w) (w_emp w) (put i (w_surf w) (f_surf w))
          (put_craters i (w_obs w) (f_obs w)) (put_craters i (w_emp w) (f_emp w)).
(** What a user does between plots: change the state in memory, or save it. *)
Inductive op := Change (s : data) (o e : list crater) | Save (i : nat).
Definition step (w : world) (a : op) : world :=
  match a with
  | Change s o e => mkWorld s o e (f_surf w) (f_obs w) (f_emp w)
  | Save i => save i w
  end.
Definition history (w : world) (l : list op) : world := fold_left step l w.

(* ------------------------------ LocalSurface.plot ------------------------------ *)
(** 3396-3404: the data that are drawn, and the interval afterwards. *)
Definition surface_shown (w : world) (interval : option Z) : result (data * option Z) :=
  match interval with
  | None => Ok (w_surf w, None)
  | Some i =>
      match last_number (f_surf w) with
      | None => Err TypeError
      | Some n => if (i =? Z.of_nat n)%Z then Ok (w_surf w, Some i)
                  else rbind (read_files i (f_surf w)) (fun f =>
                       match f with
                       | Some (j, d) => Ok (d, Some (Z.of_nat j))
                       | None => Err AttributeError
                       end)
      end
  end.

(** The two styles, and any other text. *)
Inductive style := Map | Hillshade | Other (s : string).
Definition style_text (s : style) : string := match s with Map => "map" | Hillshade => "hillshade" | Other t => t end.
(** What is drawn of the data: the coloured variable, whether there is relief, the colour bar and the dots per
    inch: 3406-3479. *)
Record drawing := mkDrawing { d_variable : option string; d_relief : bool; d_colorbar : bool; d_dpi : R }.
Definition drawn (has : string -> bool) (st : style) (variable : option string) (colorbar : bool)
                 (minimum : option R) (width : R) : result drawing :=
  let missing := match variable with Some v => negb (has v) | None => false end in
  if missing then Err ValueError
  else
    let variable := match variable, st with None, Map => Some "face_elevation" | v, _ => v end in
    rbind (match st with
           | Map => Ok colorbar
           | Hillshade => Ok (andb colorbar (match variable with Some _ => true | None => false end))
           | Other _ => if colorbar then Err UnboundLocalError else Ok false
           end) (fun bar =>
    rbind (match st with Map => Ok false | Hillshade => Ok true | Other _ => Err ValueError end) (fun relief =>
    match minimum with
    | None => Err UnboundLocalError
    | Some m => Ok (mkDrawing variable relief bar (Rmax m width))
    end)).

(** The name of the image file: 3540-3551.  [six] is the format of interval numbers. *)
Variable six : Z -> string.
Definition surface_file (prefix ext : string) (st : style) (variable : option string) (interval : option Z) : string :=
  prefix ++ "_" ++ style_text st
  ++ match variable with Some v => "_" ++ v | None => "" end
  ++ match interval with Some i => six i | None => "" end ++ "." ++ ext.
(** LocalSurface.plot: the data shown, what is drawn and the file that is written if any.  The argument
    filename is replaced (3540-3551). *)
Record picture := mkPicture { p_data : data; p_drawing : drawing; p_file : option string }.
Definition surface_plot (has : string -> bool) (prefix ext : string) (w : world) (st : style)
    (variable : option string) (interval : option Z) (colorbar : bool) (minimum : option R) (width : R)
    (saved : bool) (filename : option string) : result picture :=
  rbind (surface_shown w interval) (fun x =>
  rbind (drawn has st variable colorbar minimum width) (fun d =>
  Ok (mkPicture (fst x) d (if saved then Some (surface_file prefix ext st (d_variable d) (snd x)) else None)))).

(** close_when_done: 3418-3419, 3555-3556. *)
Definition closes (close : option bool) (saved show : bool) : bool :=
  andb (match close with Some c => c | None => andb saved (negb show) end) (orb saved show).
(** Surface.plot (839-905) does not pass close_when_done on; HiResLocalSurface.plot (247-333) does. *)
Definition surface_closes (hires : bool) (close : option bool) (saved show : bool) : bool :=
  closes (if hires then close else None) saved show.

(* ------------------------------ the scale bar: 3495-3520 ------------------------------ *)
Definition nice_values : list Z := [1; 10; 100; 200; 500; 1000; 2000; 5000; 10000; 20000; 50000; 100000]%Z.
Definition largest (l : list Z) : result Z :=
  match l with [] => Err ValueError | x :: r => Ok (fold_left Z.max r x) end.
Definition scale_length (xmax : R) : result Z :=
  largest (filter (fun v => if Rle_dec (IZR v) (xmax / 2 / sqrt 2) then true else false) nice_values).
Inductive unit_text := Metres | Kilometres.
Definition scale_text (v : Z) : Z * unit_text :=
  if (v <? 1000)%Z then (v, Metres) else ((v / 1000)%Z, Kilometres).
(** The rectangle: lower left corner, width and height. *)
Definition scale_rectangle (xmin xmax ymin ymax : R) (v : Z) : R * R * R * R :=
  let h := 0.2 * IZR v in
  (xmax - IZR v + xmin * 0.05, - (ymax - h + ymin * 0.05), IZR v, h).

(* ------------------------------ Counting.plot ------------------------------ *)
(** 690-722: which observed and emplaced craters are drawn, and the interval afterwards. *)
Definition is_current {A} (l : files A) (i : Z) : bool :=
  match last_number l with Some n => (Z.of_nat n =? i)%Z | None => false end.
Definition counting_shown (w : world) (interval : option Z) : result (option (list crater) * option (list crater) * option Z) :=
  match interval with
  | None => Ok (Some (w_obs w), Some (w_emp w), None)
  | Some i =>
      let o_cur := is_current (f_obs w) i in
      let e_cur := is_current (f_emp w) i in
      if andb o_cur e_cur then Ok (Some (w_obs w), Some (w_emp w), Some i)
      else
        rbind (read_files i (f_obs w)) (fun fo =>
        rbind (read_files i (f_emp w)) (fun fe =>
        let (obs, i') := if o_cur then (Some (w_obs w), i)
                         else match fo with Some (j, c) => (Some c, Z.of_nat j) | None => (None, i) end in
        if e_cur then Ok (obs, Some (w_emp w), Some i')
        else match fe with
             | Some _ => Err AttributeError      (* emplaced.interval, of None *)
             | None => Ok (obs, None, Some i')
             end))
  end.
(** 684-688, 719-722. *)
Definition counting_file (prefix own ext : string) (st : style) (variable : option string) (interval : option Z) : string :=
  prefix ++ "_" ++ own
  ++ match variable with Some v => "_" ++ v | None => "" end
  ++ match interval with Some i => six i | None => "" end ++ "." ++ ext.

(** A layer of crater outlines: 736-766.  The line style that the user gives is taken out of the arguments by the
    first layer drawn. *)
Record layer := mkLayer { l_craters : list crater; l_measured : bool; l_color : string; l_width : R }.
Definition add_layer (color : option string) (c : option (list crater)) (measured : bool)
    (x : list layer * option R) : list layer * option R :=
  match color, c with
  | Some col, Some (c0 :: r) =>
      ((fst x ++ [mkLayer (c0 :: r) measured col (match snd x with Some lw => lw | None => 0.1 end)])%list, None)
  | _, _ => x
  end.
Definition layers (emplaced_color original_color observed_color : option string)
    (obs emp : option (list crater)) (linewidth : option R) : list layer :=
  fst (add_layer observed_color obs true
        (add_layer original_color obs false
          (add_layer emplaced_color emp false ([], linewidth)))).

Record counted := mkCounted { c_data : data; c_layers : list layer; c_file : option string }.
Definition counting_plot (has : string -> bool) (prefix own ext : string) (w : world) (st : style)
    (variable : option string) (interval : option Z) (colorbar : bool) (minimum : option R) (width : R)
    (saved : bool) (emplaced_color original_color observed_color : option string) (linewidth : option R) : result counted :=
  rbind (counting_shown w interval) (fun x =>
  let '(obs, emp, i) := x in
  rbind (surface_plot has prefix ext w st variable i colorbar minimum width false None) (fun p =>
  Ok (mkCounted (p_data p) (layers emplaced_color original_color observed_color obs emp linewidth)
        (if saved then Some (counting_file prefix own ext st variable i) else None)))).

(* ------------------------------ Simulation.plot ------------------------------ *)
(** core/simulation.py:1086-1117: without an interval the state is saved first, under the current number [now]. *)
Definition simulation_plot (has : string -> bool) (prefix ext : string) (now : nat) (w : world) (st : style)
    (variable : option string) (interval : option Z) (colorbar : bool) (minimum : option R) (width : R) (saved : bool)
    : world * result picture :=
  match interval with
  | None => let w' := save now w in
            (w', surface_plot has prefix ext w' st variable (Some (Z.of_nat now)) colorbar minimum width saved None)
  | Some i => (w, surface_plot has prefix ext w st variable (Some i) colorbar minimum width saved None)
  end.
End Plot.
