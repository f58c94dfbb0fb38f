(** C119: all files of a simulation are in the directory it was given. *)
From Coq Require Import List.
From Verif Require Import Common Paths_model Paths_spec Paths_proofs.
Import ListNotations.
Open Scope string_scope.

(** The directory of a new simulation is the one named, as long as the working directory is the same: whatever steps
    up there are in the path, and also for none. *)
Theorem C119_place_partial : forall cwd v s, normal cwd -> new_simdir cwd v = Some s -> named cwd v = Some (locate cwd s).
Proof. exact text_place. Qed.
Print Assumptions C119_place_partial.
Example C119_place_partial_ex :
  new_simdir ["home"; "me"] (VText (Rel ["run"; ".."; "moon"])) = Some (Rel ["moon"]) /\
  new_simdir ["home"; "me"] (VText (Rel [".."; "moon"])) = Some (Abs ["home"; "moon"]).
Proof. split; reflexivity. Qed.

(** Each component writes in a directory of its own in the directory of the simulation: different names, different
    directories. *)
Theorem C119_components : forall now s n, n <> ".." -> n <> "." ->
  written_in now s n = (locate now s ++ [n])%list /\ inside (locate now s) (written_in now s n) /\
  forall m, m <> ".." -> m <> "." -> written_in now s m = written_in now s n -> m = n.
Proof.
  exact (fun now s n A B => conj (written now s n A B) (conj (ex_intro _ [n] (written now s n A B))
    (fun m C D E => eq_trans (eq_sym (last_last (locate now s) m "")) (eq_trans (f_equal (fun l => last l "")
       (eq_trans (eq_sym (written now s m C D)) (eq_trans E (written now s n A B)))) (last_last (locate now s) n ""))))).
Qed.
Print Assumptions C119_components.
Example C119_components_ex : written_in ["home"] (Rel ["moon"]) "surface_images" = ["home"; "moon"; "surface_images"].
Proof. reflexivity. Qed.

(** If the working directory changes later, the files go elsewhere exactly if the directory was inside the working
    directory when the simulation was made (which is so by default). *)
Theorem C119_moved_refuted : forall cwd now v s, normal cwd -> (match v with VPath _ => False | _ => True end) ->
  new_simdir cwd v = Some s ->
  locate now s = locate cwd s <-> now = cwd \/ ~ inside cwd (locate cwd s).
Proof. exact moved. Qed.
Print Assumptions C119_moved_refuted.
Example C119_moved_refuted_ex : exists s, new_simdir ["home"; "me"] (VText (Abs ["home"; "me"; "moon"])) = Some s /\
  written_in ["tmp"] s "surface" = ["tmp"; "moon"; "surface"].
Proof. eexists. split; reflexivity. Qed.

(** A Path object is kept as it is: the same holds for relative ones, and absolute ones stay where they are. *)
Theorem C119_path_object_refuted : forall cwd now l,
  new_simdir cwd (VPath (Abs l)) = Some (Abs l) /\ locate now (Abs l) = locate cwd (Abs l) /\
  new_simdir cwd (VPath (Rel l)) = Some (Rel l) /\ (normal l -> locate now (Rel l) = (now ++ l)%list).
Proof. exact path_moved. Qed.
Print Assumptions C119_path_object_refuted.
Example C119_path_object_refuted_ex : written_in ["tmp"] (Rel ["moon"]) "surface" = ["tmp"; "moon"; "surface"].
Proof. reflexivity. Qed.

(** The directory is made at once if it is given as a text, and not if it is given as a Path. *)
Theorem C119_made_refuted : forall cwd v old, match v with
  | VText p => snd (set_simdir cwd v old) = Some (locate cwd p)
  | _ => snd (set_simdir cwd v old) = None end.
Proof. exact made. Qed.
Print Assumptions C119_made_refuted.
Example C119_made_refuted_ex : snd (set_simdir ["home"] (VText (Rel ["a"; "b"])) None) = Some ["home"; "a"; "b"].
Proof. reflexivity. Qed.

(** A resumed simulation stays in the directory it is given, whatever directory its file names, and its components
    have the same one. *)
Theorem C119_resumed : forall cwd v stored s, new_simdir cwd v = Some s ->
  resumed_simdir cwd v stored = Some s /\ component_simdir cwd (Some s) = Some s.
Proof. exact resumed. Qed.
Print Assumptions C119_resumed.
Example C119_resumed_ex : resumed_simdir ["home"; "moon"] VNone (Rel ["moon"]) = Some (Rel []).
Proof. reflexivity. Qed.

(** A value of another type is not refused: a new simulation has no directory, and an assignment does nothing. *)
Theorem C119_type_refuted : forall cwd old, set_simdir cwd VOther old = (old, None) /\ new_simdir cwd VOther = None.
Proof. exact other_kind. Qed.
Print Assumptions C119_type_refuted.
Example C119_type_refuted_ex : fst (set_simdir ["home"] VOther (Some (Rel ["moon"]))) = Some (Rel ["moon"]).
Proof. reflexivity. Qed.
