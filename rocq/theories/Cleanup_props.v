(** C120: cleanup removes what a simulation wrote and nothing else. *)
From Coq Require Import List.
From Verif Require Import Common Paths_model Paths_spec Cleanup_model Cleanup_spec Cleanup_proofs.
Import ListNotations.
Open Scope string_scope.

(** Exactly the configuration file and what is in the directories of the components and of their images is removed,
    if no file has the name of such a directory. *)
Theorem C120_removed : forall cwd g fs, no_clash (place cwd g) fs ->
  snd (cleanup cwd g fs) = false /\
  forall f, In f (fst (cleanup cwd g fs)) <->
    In f fs /\ f <> (place cwd g ++ ["cratermaker.yaml"])%list /\ forall n, In n cleaned -> ~ below_dir (place cwd g ++ [n])%list f.
Proof. exact cleaned_exactly. Qed.
Print Assumptions C120_removed.
Example C120_removed_ex :
  cleanup ["home"] (Some (Rel ["run"]))
    [["home"; "run"; "cratermaker.yaml"]; ["home"; "run"; "surface"; "grid.nc"]; ["home"; "run"; "notes.txt"]; ["home"; "surface"; "x"]] =
  ([["home"; "run"; "notes.txt"]; ["home"; "surface"; "x"]], false).
Proof. reflexivity. Qed.

(** So the saved state and the plots of a simulation are gone. *)
Theorem C120_state_gone : forall cwd g fs f, no_clash (place cwd g) fs -> state_file (place cwd g) f -> ~ In f (fst (cleanup cwd g fs)).
Proof. exact state_gone. Qed.
Print Assumptions C120_state_gone.
Example C120_state_gone_ex : state_file ["home"] ["home"; "counting_images"; "a.png"].
Proof. right. exists "counting_images". split; [cbn; tauto|]. exists "a.png", []. reflexivity. Qed.

(** Files elsewhere always stay. *)
Theorem C120_outside : forall cwd g fs f, In f fs -> ~ inside (place cwd g) f -> In f (fst (cleanup cwd g fs)).
Proof. exact outside_stay. Qed.
Print Assumptions C120_outside.
Example C120_outside_ex : ~ inside ["home"; "run"] ["home"; "surface"; "x"].
Proof. intros (r & E). discriminate. Qed.

(** The exported files, which the documentation says are removed, always stay. *)
Theorem C120_exports_refuted : forall cwd g fs f, In f fs -> export_file (place cwd g) f -> In f (fst (cleanup cwd g fs)).
Proof. exact exports_stay. Qed.
Print Assumptions C120_exports_refuted.
Example C120_exports_refuted_ex : cleanup ["run"] None [["run"; "export"; "surface000001.gpkg"]; ["run"; "surface"; "a.nc"]] =
  ([["run"; "export"; "surface000001.gpkg"]], false).
Proof. reflexivity. Qed.

(** Files of the user in a directory with the name of a component are removed, although no simulation writes there. *)
Theorem C120_foreign_refuted : forall d r n, In n ["target"; "scaling"; "production"; "morphology"; "projectile"] ->
  let f := (d ++ n :: "notes.txt" :: r)%list in
  In n cleaned /\ ~ state_file d f /\ fst (cleanup d None [f]) = [].
Proof. exact foreign. Qed.
Print Assumptions C120_foreign_refuted.
Example C120_foreign_refuted_ex : fst (cleanup ["home"] None [["home"; "target"; "notes.txt"]]) = [].
Proof. reflexivity. Qed.

(** A file with the name of such a directory ends the cleaning with an exception, and stays. *)
Theorem C120_clash_refuted : forall cwd g fs n, In n cleaned -> In (place cwd g ++ [n])%list fs ->
  snd (cleanup cwd g fs) = true /\ In (place cwd g ++ [n])%list (fst (cleanup cwd g fs)).
Proof. exact clash. Qed.
Print Assumptions C120_clash_refuted.
Example C120_clash_refuted_ex : cleanup [] None [["target"]; ["counting"; "a"]; ["surface"; "b"]] = ([["target"]; ["surface"; "b"]], true).
Proof. reflexivity. Qed.
