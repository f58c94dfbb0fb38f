(** Vocabulary for the theorems about Files_model. *)
From Verif Require Import Common Conf_model Files_model.
From Coq Require Import NArith Sorted.
Open Scope string_scope.

Section S.
Context {content : Type}.
(** The directory after saving the given intervals, in order. *)
Fixpoint after_saves (s : scheme) (saves : list (N * content)) (d : dir content) : dir content :=
  match saves with [] => d | (n, c) :: r => after_saves s r (save_file content s n c d) end.
(** What was saved last under interval [n]. *)
Fixpoint last_saved (n : N) (saves : list (N * content)) : option content :=
  match saves with
  | [] => None
  | (m, c) :: r => match last_saved n r with
                   | Some x => Some x
                   | None => if N.eqb n m then Some c else None
                   end
  end.
(** [listing] is what glob may return for the directory. *)
Definition lists (s : scheme) (d : dir content) (listing : list (string * content)) : Prop :=
  Permutation.Permutation listing (matching content s d).
(** A directory without files of this kind. *)
Definition no_files (s : scheme) (d : dir content) : Prop := matching content s d = [].
(** [ns] are the intervals saved, in increasing order, each once. *)
Definition exactly_saved (ns : list N) (saves : list (N * content)) : Prop :=
  StronglySorted N.lt ns /\ forall n, In n ns <-> In n (map fst saves).
(** All interval numbers are written with the same number of characters. *)
Definition same_width (saves : list (N * content)) : Prop :=
  forall n m, In n (map fst saves) -> In m (map fst saves) -> String.length (pad6 n) = String.length (pad6 m).
End S.
