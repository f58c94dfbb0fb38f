(** Model of cleanup: utils/general_utils.py:472-504, with the names of constants.py:8-17.
    The file system is the list of its files, each by the names from the root (Paths_model); empty directories are left
    out, and so are files that cannot be removed. *)
From Coq Require Import List.
From Verif Require Import Common Paths_model.
Import ListNotations.
Open Scope string_scope.

Definition config_name : string := "cratermaker.yaml".
Definition component_names : list string :=
  ["counting"; "target"; "scaling"; "production"; "morphology"; "projectile"; "surface"].
Definition files := list (list string).
Definition is_file (f g : list string) : bool := match strip f g with Some [] => true | _ => false end.
Definition is_below (d f : list string) : bool := match strip d f with Some (_ :: _) => true | _ => false end.
(** shutil.rmtree of a directory that may not exist: 502-503; of a file, NotADirectoryError ([true]) *)
Definition remove_tree (d : dir) (s : files * bool) : files * bool :=
  let (fs, failed) := s in
  if failed then s
  else if existsb (is_file d) fs then (fs, true)
  else (filter (fun f => negb (is_below d f)) fs, false).
Definition cleanup (cwd : dir) (given : option path) (fs : files) : files * bool :=
  let d := match given with None => cwd | Some p => locate cwd p end in
  let fs1 := filter (fun f => negb (is_file (d ++ [config_name])%list f)) fs in
  fold_left (fun s n => remove_tree (d ++ [n])%list s)
            (flat_map (fun c => [c; c ++ "_images"]) component_names) (fs1, false).
