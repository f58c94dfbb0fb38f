(** Where the files of a simulation should be. *)
From Coq Require Import List.
From Verif Require Import Common Paths_model.
Import ListNotations.
Open Scope string_scope.

(** A directory by its names; one inside another. *)
Definition normal (d : dir) : Prop := forall n, In n d -> n <> ".." /\ n <> ".".
Definition inside (d p : dir) : Prop := exists r, p = (d ++ r)%list.
(** The directory that a user names, in the working directory of that moment. *)
Definition named (cwd : dir) (v : value) : option dir :=
  match v with VNone => Some cwd | VText p | VPath p => Some (locate cwd p) | VOther => None end.
