(** Property C124. *)
From Coq Require Import Reals List Lra Lia.
From Verif Require Import Common Geo_spec Outline_spec Place_model Place_spec Where_model Where_spec Near_model Near_spec Near_proofs.
Import ListNotations.
Open Scope R_scope.

(** The face or node found for a location is one of the mesh, and none is nearer on the sphere,
    whatever was looked for or extracted before.  Missing: structured data, several locations and
    another mesh. *)
Theorem C124_nearest_partial : forall query, sound_tree query -> forall acts f n node a p,
  of_mesh node f n <> [] -> one_place a p -> near_globe p ->
  exists i, fst (find_nearest query node (after query acts (new_seeker f n)) a) = Ok i /\ nearest_to (of_mesh node f n) p i.
Proof. exact found. Qed.
Print Assumptions C124_nearest_partial.

(** The face or node found for its own place is itself, if no other is at that place. *)
Theorem C124_itself : forall query, sound_tree query -> forall acts f n node i x,
  nth_error (of_mesh node f n) i = Some x -> near_globe x ->
  (forall j y, nth_error (of_mesh node f n) j = Some y -> j <> i -> place (fst y) (snd y) <> place (fst x) (snd x)) ->
  fst (find_nearest query node (after query acts (new_seeker f n)) (Numbers InTuple [fst x; snd x])) = Ok i.
Proof. exact itself. Qed.
Print Assumptions C124_itself.

(** Refuted: that the nearest can be found for several locations at once. Several locations are
    refused in every form, although each form is read as a location elsewhere. *)
Theorem C124_several_refuted : forall query a rows node s, means a rows -> (2 <= List.length rows)%nat ->
  exists e, fst (find_nearest query node s a) = Err e.
Proof. exact several_fails. Qed.
Print Assumptions C124_several_refuted.

(** Refuted: that the face or node found is one of the mesh the surface has. After the surface is
    given another mesh, it is that of the old mesh if any face or node, or for faces a region smaller
    than the whole surface, had been looked for before, and that of the new mesh otherwise; the new
    mesh may not even have as many faces. *)
Theorem C124_regrid_refuted :
  (forall query acts later f n f' n' node l,
     fst (find_nearest query node (after query later (regrid f' n' (after query acts (new_seeker f n)))) l)
     = fst (find_nearest query node (if existsb (needed node) acts then new_seeker f n else new_seeker f' n') l))
  /\ (forall query, sound_tree query ->
        fst (find_nearest query false (regrid ex_faces2 ex_faces2 (after query [Extract false] (new_seeker ex_faces ex_faces))) (Numbers InTuple [90; 0])) = Ok 1%nat
        /\ nth_error ex_faces2 1 = None).
Proof.
  exact (conj regrid_find stale).
Qed.
Print Assumptions C124_regrid_refuted.

Example C124_nearest_ex : sound_tree search /\ of_mesh false ex_faces [] <> [] /\ one_place (Rows [(370, 20)]) (370, 20) /\ near_globe (370, 20).
Proof.
  split; [exact search_sound |]. split; [discriminate |]. split; [split; [constructor | intros [(? & ? & E) | (? & ? & E)]; discriminate] | unfold near_globe; cbn; lra].
Qed.
Example C124_itself_ex : nth_error (of_mesh true [] [(10, 20)]) 0 = Some (10, 20) /\ near_globe (10, 20).
Proof. split; [reflexivity | unfold near_globe; cbn; lra]. Qed.
Example C124_several_refuted_ex : fst (find_nearest search false (new_seeker ex_faces ex_faces) (Rows [(0, 0); (1, 1)])) = Err ValueError.
Proof. reflexivity. Qed.
Example C124_regrid_refuted_ex : existsb (needed false) [Find true (Numbers InTuple [0; 0]); Extract true] = false /\ existsb (needed true) [Find true (Numbers InTuple [0; 0])] = true.
Proof. split; reflexivity. Qed.
