(** Property theorems about the place of a crater on the mesh (C96). *)
From Coq Require Import Reals.
From Verif Require Import Common Region_model Region_spec Footprint_model Footprint_spec Footprint_proofs Footprint_cases.
From Verif Require Queue_model.
Import ListNotations.
Open Scope R_scope.

(** C96: as long as the surface is the same one, whatever is read of a crater, in whatever order
    and how often, also after its large data was dropped, after the queue looked at it or after
    it was formed, is the value given by the crater and the surface alone. *)
Theorem C96_same_answers L (w : world L) c os : w_ready w = true -> Forall stays os ->
  Forall2 (right w c) os (snd (session c os (w, fresh))).
Proof. exact (fun R S => let (v, H) := session_right w c R os fresh S (known_fresh w c) in proj2 (proj2 H)). Qed.
Print Assumptions C96_same_answers.
Example C96_case : w_ready (strip_world true 3 0.5) = true /\ resolved (strip_world true 3 0.5) middle /\
  Forall stays [AffectedFaces; Drop; Form; CraterRegion; Drop; @Overlap R].
Proof. split; [reflexivity | split; [exact (proj1 middle_two) | repeat constructor]]. Qed.

(** C96: a crater made before the surface has any data has no place on it; nothing read at that
    time spoils what is read once the data is there. *)
Theorem C96_before_the_mesh L (c : fixed L) (w0 w : world L) os1 os2 : w_ready w0 = false -> w_ready w = true -> Forall waits os1 -> Forall stays os2 ->
  exists a1 a2, snd (session c (os1 ++ Surface w :: os2)%list (w0, fresh)) = (a1 ++ Ok Nothing :: a2)%list /\
    Forall2 unknown os1 a1 /\ Forall2 (right w c) os2 a2.
Proof. exact (before_and_after c w0 w os1 os2). Qed.
Print Assumptions C96_before_the_mesh.
Example C96_before_case : w_ready (strip_world false 3 0.5) = false /\ Forall waits [@Emplaceable R; Form; Surface (strip_world false 1 1)].
Proof. split; [reflexivity | repeat constructor]. Qed.

(** C96: when its ejecta reach one and a half radii, the faces and nodes a crater is said to
    affect include everything within one and a half radii. *)
Theorem C96_covers_partial L (w : world L) c v : sound (w_mesh w) -> tree_like w -> 0 < w_radius w ->
  1.5 * c_radius c <= w_extent w c -> around w c (1.5 * c_radius c) = Some v ->
  exists u, around w c (w_extent w c) = Some u /\ incl (v_faces v) (v_faces u) /\ incl (v_nodes v) (v_nodes u).
Proof. exact (fun S T P => around_grows w c S T P (1.5 * c_radius c) (w_extent w c) v). Qed.
Print Assumptions C96_covers_partial.
(** C96: two such craters of a batch have no face and no node within one and a half radii in
    common.  Missing: craters whose ejecta end closer to the rim. *)
Theorem C96_batch_apart_partial L (w : world L) cs time queue i j a b va vb : w_ready w = true -> sound (w_mesh w) -> tree_like w -> 0 < w_radius w ->
  (i < j)%nat -> nth_error (Queue_model.peek_next_batch (geometry_of w cs time) queue) i = Some a ->
  nth_error (Queue_model.peek_next_batch (geometry_of w cs time) queue) j = Some b ->
  1.5 * c_radius (cs a) <= w_extent w (cs a) -> 1.5 * c_radius (cs b) <= w_extent w (cs b) ->
  around w (cs a) (1.5 * c_radius (cs a)) = Some va -> around w (cs b) (1.5 * c_radius (cs b)) = Some vb ->
  (forall f, In f (v_faces va) -> ~ In f (v_faces vb)) /\ (forall n, In n (v_nodes va) -> ~ In n (v_nodes vb)).
Proof. exact (batch_apart w cs time queue i j a b va vb). Qed.
Print Assumptions C96_batch_apart_partial.
Example C96_covers_case : sound long_strip /\ tree_like (strip_world true 3 0.5) /\ 0 < strip_radius /\
  1.5 * c_radius middle <= w_extent (strip_world true 3 0.5) middle /\ resolved (strip_world true 3 0.5) middle.
Proof. exact (conj long_sound (conj (strip_tree true 3 0.5) (conj strip_radius_pos middle_covered))). Qed.

(** C96 fails when the ejecta end closer to the rim (ejecta_truncation below 1.5): craters whose
    regions share a face are put in the same batch as not overlapping. *)
Theorem C96_batch_shares_refuted : exists va vb, Queue_model.peek_next_batch (geometry_of (strip_world true 1 0.5) two (fun _ => None)) [0; 1]%nat = [0; 1]%nat /\
  around (strip_world true 1 0.5) (two 0) (1.5 * 2) = Some va /\ around (strip_world true 1 0.5) (two 1) (1.5 * 2) = Some vb /\
  In 4%nat (v_faces va) /\ In 4%nat (v_faces vb) /\ Forall2 (right (strip_world true 1 0.5) (two 0)) [Form] (snd (session (two 0) [Form] (strip_world true 1 0.5, fresh))).
Proof. exact shared. Qed.
Print Assumptions C96_batch_shares_refuted.
(** C96: the queue takes from each crater that it is emplaceable exactly when the mesh resolves it, and as
    what it overlaps the nodes and faces of its ejecta region, or none if it is not resolved. *)
Theorem C96_queue_view : forall L (w : world L) cs time i, w_ready w = true ->
  (Queue_model.emplaceable (geometry_of w cs time) i = true <-> resolved w (cs i)) /\
  (~ resolved w (cs i) -> Queue_model.nodes (geometry_of w cs time) i = [] /\ Queue_model.faces (geometry_of w cs time) i = []) /\
  (forall r, resolved w (cs i) -> around w (cs i) (w_extent w (cs i)) = Some r ->
     Queue_model.nodes (geometry_of w cs time) i = v_nodes r /\ Queue_model.faces (geometry_of w cs time) i = v_faces r) /\
  Queue_model.time (geometry_of w cs time) i = time i.
Proof. exact (fun L w cs time i => queue_view w cs time i). Qed.
Print Assumptions C96_queue_view.
Example C96_queue_view_case : w_ready (strip_world true 3 0.5) = true /\ resolved (strip_world true 3 0.5) middle /\ ~ resolved coarse middle.
Proof. exact (conj eq_refl middle_two). Qed.

(** C96 fails there too for a crater between the centres of faces: it is announced as
    emplaceable, it has no ejecta region, and forming it raises an AttributeError. *)
Theorem C96_emplaceable_fails_refuted : snd (session between [Emplaceable; EjectaRegion; Form] (strip_world true 1 0.5, fresh)) =
  [Ok (AFlag (Some true)); Ok (ARegion None); Err AttributeError].
Proof. exact between_fails. Qed.
Print Assumptions C96_emplaceable_fails_refuted.
(** C96 fails for craters smaller than the face they lie on, which are meant to be skipped: the
    area compared with that of the face is that of the circle of one and a half radii, so a
    crater of area up to 2.25 times too small is formed. *)
Theorem C96_smaller_than_face_refuted : exists a, PI * c_radius little ^ 2 < 1 /\
  snd (session little [Form] (strip_world true 3 1, fresh)) = [Ok (ADigging (Digs a))] /\ In 0%nat (v_faces a).
Proof. exact little_formed. Qed.
Print Assumptions C96_smaller_than_face_refuted.

Section Other.
Context {L : Type} (c : fixed L) (w1 w2 : world L) (R1 : w_ready w1 = true) (R2 : w_ready w2 = true).
(** C96 fails when the surface is replaced by another one: the face and the extent stay those of
    the old surface, even after the large data was dropped. *)
Theorem C96_replaced_surface_refuted : snd (session c [FaceIndex; EjectaRmax; Surface w2; Drop; FaceIndex; EjectaRmax] (w1, fresh)) =
  [Ok (AnIndex (Some (w_nearest w1 (c_at c)))); Ok (ALength (Some (w_extent w1 c))); Ok Nothing; Ok Nothing;
   Ok (AnIndex (Some (w_nearest w1 (c_at c)))); Ok (ALength (Some (w_extent w1 c)))].
Proof. exact (stale_face c w1 w2 R1). Qed.
(** C96 fails then for a crater the new surface does not resolve: it is still announced as
    emplaceable, and forming it raises an AttributeError. *)
Theorem C96_lost_refuted : resolved w1 c -> ~ resolved w2 c ->
  snd (session c [Emplaceable; Surface w2; Drop; Emplaceable; CraterRegion; Form] (w1, fresh)) =
  [Ok (AFlag (Some true)); Ok Nothing; Ok Nothing; Ok (AFlag (Some true)); Ok (ARegion None); Err AttributeError].
Proof. exact (stale_lost c w1 w2 R1 R2). Qed.
(** C96 fails then for a crater the new surface does resolve: it is still skipped. *)
Theorem C96_still_skipped_refuted : ~ resolved w1 c -> resolved w2 c ->
  snd (session c [Emplaceable; Surface w2; Drop; Emplaceable; Form] (w1, fresh)) =
  [Ok (AFlag (Some false)); Ok Nothing; Ok Nothing; Ok (AFlag (Some false)); Ok (ADigging Skipped)].
Proof. exact (stale_kept c w1 w2 R1). Qed.
End Other.
Print Assumptions C96_replaced_surface_refuted.
Print Assumptions C96_lost_refuted.
Print Assumptions C96_still_skipped_refuted.
Example C96_replaced_case : w_ready (strip_world true 3 0.5) = true /\ w_ready coarse = true /\
  resolved (strip_world true 3 0.5) middle /\ ~ resolved coarse middle /\ w_nearest coarse (c_at middle) = 0%nat.
Proof. exact (conj eq_refl (conj eq_refl (conj (proj1 middle_two) (conj (proj2 middle_two) eq_refl)))). Qed.
