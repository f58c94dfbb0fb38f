(** What cleanup should remove: the files that a simulation in a directory writes. *)
From Coq Require Import List.
From Verif Require Import Common Paths_model Cleanup_model.
Import ListNotations.
Open Scope string_scope.

(** A file below a directory. *)
Definition below_dir (d f : list string) : Prop := exists n r, f = (d ++ n :: r)%list.
(** The names that cleanup goes through, and those in which simulations write (counting/__init__.py:71,
    surface/__init__.py:110, core/base.py:620-662, core/simulation.py:1754). *)
Definition cleaned : list string :=
  ["counting"; "counting_images"; "target"; "target_images"; "scaling"; "scaling_images"; "production"; "production_images";
   "morphology"; "morphology_images"; "projectile"; "projectile_images"; "surface"; "surface_images"].
Definition written_names : list string := ["surface"; "surface_images"; "counting"; "counting_images"].
Definition state_file (d f : list string) : Prop :=
  f = (d ++ ["cratermaker.yaml"])%list \/ exists n, In n written_names /\ below_dir (d ++ [n])%list f.
Definition export_file (d f : list string) : Prop := below_dir (d ++ ["export"])%list f.
(** The directory that is cleaned. *)
Definition place (cwd : dir) (given : option path) : dir := match given with None => cwd | Some p => locate cwd p end.
(** No file has the name of a directory to be removed. *)
Definition no_clash (d : dir) (fs : files) : Prop := forall n, In n cleaned -> ~ In (d ++ [n])%list fs.
