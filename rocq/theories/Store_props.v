(** C87: the grid file and the data files of a surface. *)
From Coq Require Import Reals ZArith List String Bool Lia Arith.
From Verif Require Import Common Store_model Store_spec Store_proofs Store_cases.
Import ListNotations.
Open Scope string_scope.

Notation toy_step := (step nat (fun g => g) (fun _ => 2%nat) toy_gen sample (fun s => s)).
Notation toy_quiet := (quiet nat (fun g => g) (fun _ => 2%nat) toy_gen sample (fun s => s)).
Notation toy_history := (history nat (fun g => g) (fun _ => 2%nat) toy_gen sample (fun s => s)).

(** Two surfaces have the same identifier only if their mesh, target, radius and all the
    parameters of their mesh are the same. *)
Theorem C87_identity : forall pr hash p q, faithful pr -> injective hash ->
  colon_free (s_target p) -> colon_free (s_target q) -> id_of pr hash p = id_of pr hash q -> p = q.
Proof. exact id_inj. Qed.
Print Assumptions C87_identity.
Example C87_identity_ex : faithful sample /\ injective (fun s : string => s) /\ colon_free (s_target moon4) /\
  id_of sample (fun s => s) moon4 <> id_of sample (fun s => s) moon5.
Proof. exact (conj sample_faithful (conj hash_id (conj moon_free moons_differ))). Qed.

Section Props.
Variable G : Type.
Variables n_face n_node : G -> nat.
Variable generator : params -> G.
Variable pr : printer.
Variable hash : string -> string.
Notation step := (step G n_face n_node generator pr hash).
Notation history := (history G n_face n_node generator pr hash).
Notation quiet := (quiet G n_face n_node generator pr hash).
Notation fits := (fits G n_face n_node).
Notation consistent := (consistent G n_face n_node).
Notation file := (file G).

(** After any history of sessions, killed at any write, a grid file is the mesh made from some
    parameters and carries their identifier. *)
Theorem C87_grid : forall s, history s -> forall id g, d_grid G (fst s) = Some (id, g) ->
  exists p, colon_free (s_target p) /\ id = id_of pr hash p /\ g = generator p.
Proof. exact (history_genuine G n_face n_node generator pr hash). Qed.

(** After any history of sessions, killed at any write, a new surface has the mesh of the
    parameters it is given, in memory and on disk, whatever was left in the directory. *)
Theorem C87_exact : forall p force reset ask go s s', faithful pr -> injective hash -> history s -> colon_free (s_target p) ->
  step (New p force reset ask go) s = Ok s' ->
  d_grid G (fst s') = Some (id_of pr hash p, generator p) /\ exists ds, snd s' = Some (generator p, ds).
Proof. exact (new_exact G n_face n_node generator pr hash). Qed.

(** A surface made again with the same parameters and without reset changes no file and takes
    the last saved data. *)
Theorem C87_reuse : forall p ask go d m s' g, d_grid G d = Some (id_of pr hash p, g) ->
  step (New p false false ask go) (d, m) = Ok s' ->
  fst s' = d /\ exists f, snd s' = Some (g, f) /\ newest G d f.
Proof. exact (reuse_newest G n_face n_node generator pr hash). Qed.

(** As long as no process is killed and no region is saved, every array of every data file and
    every array in memory has one value for each face or node of the mesh. *)
Theorem C87_consistent_partial : forall s, quiet s -> consistent (fst s) /\ (forall g ds, snd s = Some (g, ds) -> fits g ds).
Proof. exact (quiet_consistent G n_face n_node generator pr hash). Qed.

(** Then a surface can always be made, with any parameters and any answer. *)
Theorem C87_new : forall s p force reset ask go, quiet s -> exists s', step (New p force reset ask go) s = Ok s'.
Proof. exact (quiet_new G n_face n_node generator pr hash). Qed.

(** Then a save stores every array in memory, keeps the arrays already in the file of the
    interval under other names, and changes no other interval and not the mesh. *)
Theorem C87_save : forall s i g ds, quiet s -> snd s = Some (g, ds) ->
  exists s' f, step (Save i) s = Ok s' /\ snd s' = Some (g, ds) /\ file i (fst s') = Some f /\
    (forall n a, get n ds = Some a -> get n f = Some a) /\
    (forall n, get n ds = None -> get n f = match file i (fst s) with Some old => get n old | None => None end) /\
    (forall j, j <> i -> file j (fst s') = file j (fst s)) /\ d_grid G (fst s') = d_grid G (fst s).
Proof. exact (quiet_save G n_face n_node generator pr hash). Qed.

(** Then a reset leaves elevations of zero in memory and in interval 0; the files of the other
    intervals are removed if the user agrees, and untouched if not. *)
Theorem C87_reset : forall s go g ds, quiet s -> snd s = Some (g, ds) ->
  exists s' f, step (Reset go) s = Ok s' /\ snd s' = Some (g, initial_data G n_face n_node g) /\ file 0 (fst s') = Some f /\
    get "face_elevation" f = Some (Face, repeat 0%R (n_face g)) /\ get "node_elevation" f = Some (Node, repeat 0%R (n_node g)) /\
    (forall i, i <> 0%nat -> file i (fst s') = if go then None else file i (fst s)).
Proof. exact (quiet_reset G n_face n_node generator pr hash). Qed.

(** The user is asked before data are removed and may decline, but a declined reset is not
    without effect: the arrays in memory are replaced by elevations of zero, and the elevations
    of interval 0 on disk are overwritten by zeros. *)
Theorem C87_decline_refuted : forall s g ds l, quiet s -> snd s = Some (g, ds) ->
  (exists f, file 0 (fst s) = Some f /\ get "face_elevation" f = Some (Face, l)) ->
  exists s' f', step (Reset false) s = Ok s' /\ snd s' = Some (g, initial_data G n_face n_node g) /\ file 0 (fst s') = Some f' /\
    get "face_elevation" f' = Some (Face, repeat 0%R (n_face g)).
Proof. exact (declined G n_face n_node generator pr hash). Qed.

(** A surface made with reset on an existing directory: whatever the user answers the surface
    starts from zero elevations and interval 0 is replaced; if they decline the files of the
    other intervals stay. *)
Theorem C87_decline_partial : forall s p g go, quiet s -> d_grid G (fst s) = Some (id_of pr hash p, g) ->
  exists s' ds, step (New p false true true go) s = Ok s' /\ snd s' = Some (g, initial_data G n_face n_node g) /\ file 0 (fst s') = Some ds /\
    get "face_elevation" ds = Some (Face, repeat 0%R (n_face g)) /\
    (go = false -> forall i, i <> 0%nat -> file i (fst s') = file i (fst s)).
Proof. exact (declined_new G n_face n_node generator pr hash). Qed.

(** A process killed between the move of a new grid and the removal of the old data leaves a
    directory in which the next surface of the new parameters, made without reset, takes over
    data of the old mesh: their arrays do not have the size of the mesh. *)
Theorem C87_crash_refuted : forall p q, colon_free (s_target p) -> colon_free (s_target q) -> id_of pr hash p <> id_of pr hash q ->
  n_face (generator p) <> n_face (generator q) ->
  exists s s' ds, history s /\ step (New q false false true true) s = Ok s' /\ snd s' = Some (generator q, ds) /\ ~ fits (generator q) ds.
Proof. exact (torn_refuted G n_face n_node generator pr hash). Qed.

(** A process killed after the grid is written and before the first data are leaves a directory
    in which the next surface, made without reset, has no elevations at all. *)
Theorem C87_bare_refuted : forall p, colon_free (s_target p) ->
  exists s s', history s /\ step (New p false false true true) s = Ok s' /\ snd s' = Some (generator p, []).
Proof. exact (bare_refuted G n_face n_node generator pr hash). Qed.

(** A region extracted from a surface is saved into the data file of the surface itself.  If
    the interval has data the save fails; if not it succeeds, and the file does not fit the
    mesh. *)
Theorem C87_region_refuted : forall s g ds n l i faces nodes, quiet s -> snd s = Some (g, ds) -> In (n, (Face, l)) ds ->
  List.length faces <> n_face g ->
  (forall f n' l', file i (fst s) = Some f -> In (n', (Face, l')) f -> step (SaveRegion i faces nodes) s = Err ValueError) /\
  (file i (fst s) = None -> exists s', step (SaveRegion i faces nodes) s = Ok s' /\ ~ consistent (fst s')).
Proof. exact (region_refuted G n_face n_node generator pr hash). Qed.
End Props.
Print Assumptions C87_grid.
Print Assumptions C87_exact.
Print Assumptions C87_reuse.
Print Assumptions C87_consistent_partial.
Print Assumptions C87_new.
Print Assumptions C87_save.
Print Assumptions C87_reset.
Print Assumptions C87_decline_refuted.
Print Assumptions C87_decline_partial.
Print Assumptions C87_crash_refuted.
Print Assumptions C87_bare_refuted.
Print Assumptions C87_region_refuted.

Example C87_history_ex : toy_history toy_first /\ colon_free (s_target moon5).
Proof. exact (conj (first_history _ _ _ _ _ _ moon4 moon_free) moon_free). Qed.
Example C87_exact_ex : exists s', toy_step (New moon5 false false true true) toy_first = Ok s'.
Proof. apply C87_new, first_quiet. Qed.
Example C87_quiet_ex : toy_quiet toy_first /\ snd toy_first = Some (4%nat, initial_data nat (fun g => g) (fun _ => 2%nat) 4%nat) /\
  In ("face_elevation", (Face, repeat 0%R 4)) (initial_data nat (fun g => g) (fun _ => 2%nat) 4%nat) /\ List.length [1; 2]%nat <> 4%nat /\
  d_grid nat (fst toy_first) = Some (id_of sample (fun s => s) moon4, 4%nat).
Proof. split; [apply first_quiet|]. split; [reflexivity|]. split; [left; reflexivity|]. split; [discriminate|reflexivity]. Qed.
Example C87_crash_ex : id_of sample (fun s => s) moon4 <> id_of sample (fun s => s) moon5 /\ toy_gen moon4 <> toy_gen moon5.
Proof. split; [exact moons_differ|discriminate]. Qed.
(** Data other than zero are lost by a declined reset. *)
Example C87_decline_ex : exists s f, toy_quiet s /\ file nat 0 (fst s) = Some f /\ get "face_elevation" f = Some (Face, [1; 2; 3; 4]%R).
Proof.
  set (a := (Face, [1; 2; 3; 4]%R)).
  pose (ds := put_var "face_elevation" a (initial_data nat (fun g => g) (fun _ => 2%nat) 4%nat)).
  assert (Q : toy_quiet (fst toy_first, Some (4%nat, ds))) by (eapply (QDone _ _ _ _ _ _ toy_first (AddData "face_elevation" a)); [apply first_quiet|reflexivity|reflexivity]).
  destruct (C87_save _ _ _ _ _ _ _ 0%nat _ _ Q eq_refl) as (s' & f & E & _ & F & H & _).
  exists s', f. split; [eapply QDone; [exact Q|exact E|reflexivity]|]. split; [exact F|]. apply H. reflexivity.
Qed.
