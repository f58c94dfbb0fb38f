(** Model of where a simulation keeps its files: core/base.py (_simdir_init 963-992, simdir 601-618, output_dir 620-632,
    export_dir 635-647, plot_dir 650-662, common_args 776-785), core/simulation.py (__init__ 105, 129-148).
    Simplifications: no symbolic links, one root, directories can always be made; a text is given as the path that
    pathlib reads in it. *)
From Coq Require Import List.
From Verif Require Import Common.
Import ListNotations.
Open Scope string_scope.

(** Directories are the names from the root; paths may have steps up and are relative or absolute. *)
Definition dir := list string.
Inductive path := Rel (l : list string) | Abs (l : list string).
(** What the operating system does with a path, and pathlib's resolve *)
Definition walk (up : dir) (n : string) : dir :=
  if String.eqb n ".." then tl up else if String.eqb n "." then up else n :: up.
Definition locate (cwd : dir) (p : path) : dir :=
  match p with
  | Rel l => rev (fold_left walk l (rev cwd))
  | Abs l => rev (fold_left walk l [])
  end.
(** p / name *)
Definition below (p : path) (n : string) : path := match p with Rel l => Rel (l ++ [n])%list | Abs l => Abs (l ++ [n])%list end.
(** relative_to; None is the ValueError *)
Fixpoint strip (d p : dir) : option (list string) :=
  match d, p with
  | [], _ => Some p
  | a :: d', b :: p' => if String.eqb a b then strip d' p' else None
  | _, [] => None
  end.

(** What a user gives as simdir: base.py:613-618. *)
Inductive value := VNone | VText (p : path) | VPath (p : path) | VOther.
(** base.py:963-992: the path kept and the directory made *)
Definition simdir_init (cwd : dir) (given : option path) : path * option dir :=
  let p := match given with None => cwd | Some p => locate cwd p end in
  (match strip cwd p with Some r => Rel r | None => Abs p end,
   match given with None => None | Some _ => Some p end).
Definition set_simdir (cwd : dir) (v : value) (old : option path) : option path * option dir :=
  match v with
  | VPath p => (Some p, None)
  | VText p => let (q, d) := simdir_init cwd (Some p) in (Some q, d)
  | VNone => let (q, d) := simdir_init cwd None in (Some q, d)
  | VOther => (old, None)
  end.
(** core/simulation.py:105 and 129-148: the argument; then, if there is a stored configuration, its value merged with
    that of the simulation, which wins if it is not None *)
Definition new_simdir (cwd : dir) (v : value) : option path := fst (set_simdir cwd v None).
Definition resumed_simdir (cwd : dir) (v : value) (stored : path) : option path :=
  let mine := new_simdir cwd v in
  fst (set_simdir cwd (match mine with Some p => VPath p | None => VText stored end) mine).
(** common_args: a component gets the path of the simulation *)
Definition component_simdir (cwd : dir) (s : option path) : option path :=
  fst (set_simdir cwd (match s with Some p => VPath p | None => VNone end) None).
(** base.py:620-662: the directory in which a component writes, for the working directory of that moment *)
Definition written_in (now : dir) (simdir : path) (name : string) : dir := locate now (below simdir name).
