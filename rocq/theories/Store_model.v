(** Model of the grid file and the data files of a surface
    (components/surface/__init__.py: _load_from_files 1076-1110, _write_grid_file 1112-1160,
    _generate_grid 1162-1181, _is_same_grid 1184-1195, _regrid_if_needed 1197-1225, _save_data
    1232-1285, _add_new_data 1287-1358, _hashvars and _id 1427-1442, reset 220-247, add_data
    2120-2191, save 3252-3310, read_saved_output 4336-4388).
    Simplifications: a grid is what the generator makes of the parameters; a data file holds
    arrays on faces or on nodes, without attributes and times; the extra files of local surfaces
    are left out; the answer to the prompt of a reset is yes to all or no to all. *)
From Coq Require Import Reals ZArith List String Bool Arith.
From Verif Require Import Common.
Import ListNotations.
Open Scope string_scope.

(** A number among the parameters: a float, given by its bits, so that there are countably many. *)
Definition num := Z.
(** The parameters of a mesh: icosphere.py:72-76, arbitrary_resolution.py:57-62,
    hireslocal.py:830-835, datasurface.py:599-605. *)
Inductive mesh :=
| Ico (level : Z)
| Arb (pix : num)
| Hires (pix radius : num) (place : num * num) (scale : option num)
| Data (pix radius : num) (place : num * num) (scale : option num) (files : list string).
Record params := mkParams { s_target : string; s_radius : num; s_mesh : mesh }.

(** str() of the values *)
Record printer := mkPrinter {
  show : num -> string; show_level : Z -> string; show_place : num * num -> string;
  show_scale : option num -> string; show_files : list string -> string }.

Definition component_name (m : mesh) : string :=
  match m with Ico _ => "icosphere" | Arb _ => "arbitrary_resolution" | Hires _ _ _ _ => "hireslocal" | Data _ _ _ _ _ => "datasurface" end.
(** surface/__init__.py:1427-1431 and the overrides above *)
Definition hashvars (pr : printer) (p : params) : list string :=
  ([component_name (s_mesh p); s_target p; show pr (s_radius p)] ++
   match s_mesh p with
   | Ico g => [show_level pr g]
   | Arb x => [show pr x]
   | Hires x r l s => [show pr x; show pr r; show_place pr l; show_scale pr s]
   | Data x r l s fs => [show pr x; show pr r; show_place pr l; show_scale pr s; show_files pr fs]
   end)%list.
(** surface/__init__.py:1434-1442 _id *)
Definition id_of (pr : printer) (hash : string -> string) (p : params) : string :=
  hash (String.concat ":" (hashvars pr p) ++ "v2026.2.0").

(** Arrays on faces or nodes, by name. *)
Inductive where_ := Face | Node.
Definition array := (where_ * list R)%type.
Definition dataset := list (string * array).
Definition get (n : string) (d : dataset) : option array :=
  match find (fun e => fst e =? n) d with Some e => Some (snd e) | None => None end.
Definition same_where (a b : where_) : bool := match a, b with Face, Face | Node, Node => true | _, _ => false end.
Definition conform (d1 d2 : dataset) : bool :=
  forallb (fun e1 => forallb (fun e2 => negb (same_where (fst (snd e1)) (fst (snd e2)))
                                      || Nat.eqb (List.length (snd (snd e1))) (List.length (snd (snd e2)))) d2) d1.
(** xarray: new.merge(old, compat="override"), which refuses dimensions of different sizes *)
Definition merge (new old : dataset) : result dataset :=
  if conform new old
  then Ok (new ++ filter (fun e => match get (fst e) new with Some _ => false | None => true end) old)%list
  else Err ValueError.
Definition put_var (n : string) (a : array) (d : dataset) : dataset := (n, a) :: filter (fun e => negb (fst e =? n)) d.

Section Store.
Variable G : Type.
Variables n_face n_node : G -> nat.
Variable generator : params -> G.
Variable pr : printer.
Variable hash : string -> string.
Definition size (g : G) (w : where_) : nat := match w with Face => n_face g | Node => n_node g end.

(** The directory of the surface: the grid file with its identifier, and the files by interval. *)
Record disk := mkDisk { d_grid : option (string * G); d_data : list (nat * dataset) }.
Definition file (i : nat) (d : disk) : option dataset :=
  match find (fun e => Nat.eqb (fst e) i) (d_data d) with Some e => Some (snd e) | None => None end.
Inductive write :=
| Unlink                       (* grid_file.unlink *)
| Move (id : string) (g : G)   (* shutil.move of the new grid *)
| Delete (i : nat)
| Put (i : nat) (f : dataset).
Definition write1 (d : disk) (w : write) : disk :=
  match w with
  | Unlink => mkDisk None (d_data d)
  | Move id g => mkDisk (Some (id, g)) (d_data d)
  | Delete i => mkDisk (d_grid d) (filter (fun e => negb (Nat.eqb (fst e) i)) (d_data d))
  | Put i f => mkDisk (d_grid d) ((i, f) :: filter (fun e => negb (Nat.eqb (fst e) i)) (d_data d))
  end.
Definition write_all (ws : list write) (d : disk) : disk := fold_left write1 ws d.

(** surface/__init__.py:1197-1225 _regrid_if_needed, with 1162-1181 and 1138-1158: the old file
    is unlinked, the new one is written elsewhere and moved. *)
Definition regrid_needed (p : params) (force : bool) (d : disk) : bool :=
  force || match d_grid d with None => true | Some (id, _) => negb (id =? id_of pr hash p) end.
Definition grid_writes (p : params) (force : bool) (d : disk) : list write :=
  if regrid_needed p force d then [Unlink; Move (id_of pr hash p) (generator p)] else [].

(** surface/__init__.py:118-131 _data_variable_init *)
Definition initial (g : G) (w : where_) : array := (w, repeat 0%R (size g w)).
Definition initial_data (g : G) : dataset := [("face_elevation", initial g Face); ("node_elevation", initial g Node)].
(** surface/__init__.py:1232-1285 _save_data *)
Definition save_data (i : nat) (new : dataset) (d : disk) : result write :=
  match file i d with
  | None => Ok (Put i new)
  | Some old => rbind (merge new old) (fun m => Ok (Put i m))
  end.
(** surface/__init__.py:220-247 reset of a surface with grid [g]: the data files are deleted
    unless the user declines; then the two elevations are initialised and saved to interval 0,
    one after the other. *)
Definition reset_writes (g : G) (go : bool) (d : disk) : result (list write) :=
  let w1 := if go then map (fun e => Delete (fst e)) (d_data d) else [] in
  rbind (save_data 0 [("node_elevation", initial g Node)] (write_all w1 d)) (fun w2 =>
  rbind (save_data 0 [("face_elevation", initial g Face)] (write_all (w1 ++ [w2]) d)) (fun w3 =>
  Ok (w1 ++ [w2; w3])%list)).

(** The last saved interval *)
Definition last_file (d : disk) : option dataset :=
  match d_data d with
  | [] => None
  | e :: l => file (fold_left (fun m e => Nat.max m (fst e)) l (fst e)) d
  end.

(** surface/__init__.py:1076-1110 _load_from_files of a new surface: the writes, then the grid
    and the dataset in memory.  [go]: the user accepts the removal of the files. *)
Definition construct (p : params) (force reset ask go : bool) (d : disk) : result (list write * (G * dataset)) :=
  let regrid := regrid_needed p force d in
  let w1 := grid_writes p force d in
  let reset := reset || regrid in
  let w2 := if reset then (w1 ++ [Delete 0])%list else w1 in
  let d2 := write_all w2 d in
  match d_grid d2 with
  | None => Err ValueError
  | Some (_, g) =>
    if reset
    then rbind (reset_writes g (negb (ask && negb regrid && negb (match d_data d2 with [] => true | _ => false end)) || go) d2)
               (fun w3 => Ok ((w2 ++ w3)%list, (g, initial_data g)))
    else Ok (w2, (g, match last_file d2 with None => [] | Some f => f end))
  end.

(** What one can do with a surface; the state is the directory and the grid and data in memory. *)
Inductive op :=
| New (p : params) (force reset ask go : bool)
| AddData (n : string) (a : array)          (* surface/__init__.py:2120-2191, a new array of the right size *)
| Save (i : nat)                            (* surface/__init__.py:3252-3310 *)
| Reset (go : bool)
| SaveRegion (i : nat) (faces nodes : list nat).  (* save of an extracted region, 3252-3310, 4442-4446 *)
Definition state := (disk * option (G * dataset))%type.
Definition restrict (faces nodes : list nat) (a : array) : array :=
  (fst a, map (fun k => nth k (snd a) 0%R) (match fst a with Face => faces | Node => nodes end)).
Definition restrict_all (faces nodes : list nat) (ds : dataset) : dataset := map (fun e => (fst e, restrict faces nodes (snd e))) ds.

(** The writes of an operation and the memory after it. *)
Definition plan (o : op) (s : state) : result (list write * option (G * dataset)) :=
  let '(d, m) := s in
  match o, m with
  | New p force reset ask go, _ => rbind (construct p force reset ask go d) (fun r => Ok (fst r, Some (snd r)))
  | _, None => Err AttributeError
  | AddData n a, Some (g, ds) =>
    if Nat.eqb (List.length (snd a)) (size g (fst a)) then Ok ([], Some (g, put_var n a ds)) else Err ValueError
  | Save i, Some (g, ds) => rbind (save_data i ds d) (fun w => Ok ([w], Some (g, ds)))
  | Reset go, Some (g, ds) => rbind (reset_writes g go d) (fun w => Ok (w, Some (g, initial_data g)))
  | SaveRegion i faces nodes, Some (g, ds) =>
    rbind (save_data i (restrict_all faces nodes ds) d) (fun w => Ok ([w], Some (g, ds)))
  end.
Definition step (o : op) (s : state) : result state :=
  rbind (plan o s) (fun r => Ok (write_all (fst r) (fst s), snd r)).
(** The process is killed after the first [k] writes of an operation. *)
Definition crash (o : op) (k : nat) (s : state) : result state :=
  rbind (plan o s) (fun r => Ok (write_all (firstn k (fst r)) (fst s), None)).
End Store.
