(** Property C122. *)
From Coq Require Import Reals ZArith List Lra Lia Bool.
From Verif Require Import Common Geo_spec Outline_spec Place_model Place_spec Size_model Size_spec Size_proofs.
Import ListNotations.
Open Scope R_scope.

(** Whatever was asked of a surface before, the areas and sizes of its faces, their mean, standard
    deviation, least and greatest, its whole area, its smallest length, its coordinates, the lengths
    of its edges and the distances across them are those of its mesh on its target. *)
Theorem C122_answers : forall r g, proper_mesh g -> 0 < r -> forall qs q,
  exists a, answers (after qs (new_surface r g)) q = Ok a /\ true_answer r g q a.
Proof. intros r g P H qs q. exact (true_after r g P H qs q). Qed.
Print Assumptions C122_answers.

(** A question changes no answer, whatever has happened to the surface. *)
Theorem C122_no_effect : forall s qs q, answers (after qs s) q = answers s q.
Proof. intros s qs q. exact (stable_after qs s q). Qed.
Print Assumptions C122_no_effect.

(** The mean size lies between the least and the greatest, the least is positive, and the standard
    deviation is bounded by their distances from the mean. *)
Theorem C122_statistics : forall r g, proper_mesh g -> 0 < r -> forall qs m d lo hi,
  answers (after qs (new_surface r g)) PixMean = Ok (Num m) -> answers (after qs (new_surface r g)) PixStd = Ok (Num d) ->
  answers (after qs (new_surface r g)) PixMin = Ok (Num lo) -> answers (after qs (new_surface r g)) PixMax = Ok (Num hi) ->
  0 < lo <= m /\ m <= hi /\ 0 <= d /\ d ^ 2 <= (hi - m) * (m - lo).
Proof. exact in_order. Qed.
Print Assumptions C122_statistics.

(** The edges of a region have the lengths of those edges of the surface. *)
Theorem C122_region : forall r g, proper_mesh g -> 0 < r -> forall qs edges,
  (forall i, In i edges -> (i < List.length (g_edge_nodes g))%nat) ->
  exists l, answers (after qs (new_surface r g)) EdgeLength = Ok (Array l) /\
    Forall2 (fun i d => exists e, nth_error (g_edge_nodes g) i = Some e /\ spans r (g_nodes g) e d) edges (of_region edges l).
Proof. exact region_edges. Qed.
Print Assumptions C122_region.

(** Refuted: that the answers are those of the target the surface has. After another target is
    assigned, an answer is that of the old target if it, or for sizes and areas any other size or
    area, had been asked for before, and that of the new target otherwise. *)
Theorem C122_target_refuted :
  (forall r r' g, proper_mesh g -> forall qs later q,
     answers (after later (set_target r' (after qs (new_surface r g)))) q = answers (new_surface (if settled_target qs q then r else r') g) q)
  /\ (exists a, answers (set_target 2 (after [FaceSize] (new_surface 1 ex_mesh))) Area = Ok a /\ ~ true_answer 2 ex_mesh Area a).
Proof.
  split; [intros r r' g P qs later q; exact (new_target r' qs later r g q P) |].
  eexists. split; [reflexivity |]. cbn. lra.
Qed.
Print Assumptions C122_target_refuted.

(** Refuted: that the answers are those of the mesh the surface has. After the surface is given
    another mesh, the sizes and areas of faces are those of the new mesh, but the whole area, the
    smallest length, the coordinates, the lengths of edges and the distances across them are those
    of the old mesh if they had been asked for before. *)
Theorem C122_regrid_refuted :
  (forall r g g', proper_mesh g -> forall qs later q,
     answers (after later (regrid g' (after qs (new_surface r g)))) q = answers (new_surface r (if settled_mesh qs q then g else g')) q)
  /\ (exists a, answers (regrid ex_mesh2 (after [Area] (new_surface 1 ex_mesh))) Area = Ok a /\ ~ true_answer 1 ex_mesh2 Area a)
  /\ (exists l, answers (regrid ex_mesh2 (after [EdgeLength] (new_surface 1 ex_mesh))) EdgeLength = Ok (Array l)
        /\ List.length l <> List.length (g_edge_nodes ex_mesh2)).
Proof.
  split; [intros r g g' P qs later q; exact (new_mesh g' qs later r g q P) |].
  split; eexists; (split; [reflexivity |]); cbn; [lra | lia].
Qed.
Print Assumptions C122_regrid_refuted.

Example C122_answers_ex : proper_mesh ex_mesh /\ answers (after [PixMin; EdgeLength] (new_surface 2 ex_mesh)) Area = Ok (Num (4 * 2 ^ 2 + (9 * 2 ^ 2 + 0))).
Proof. split; [exact ex_proper | reflexivity]. Qed.
Example C122_no_effect_ex : answers (after [Area; EdgeFaceDistance] (set_target 3 (new_surface 2 ex_mesh))) FaceArea = answers (set_target 3 (new_surface 2 ex_mesh)) FaceArea.
Proof. exact (stable_after _ _ _). Qed.
Example C122_statistics_ex : exists m d lo hi, proper_mesh ex_mesh /\ 0 < 1 /\ answers (new_surface 1 ex_mesh) PixMean = Ok (Num m) /\ answers (new_surface 1 ex_mesh) PixStd = Ok (Num d) /\
  answers (new_surface 1 ex_mesh) PixMin = Ok (Num lo) /\ answers (new_surface 1 ex_mesh) PixMax = Ok (Num hi).
Proof. do 4 eexists. split; [exact ex_proper |]. split; [lra |]. repeat split. Qed.
Example C122_region_ex : forall i, In i [2; 0]%nat -> (i < List.length (g_edge_nodes ex_mesh))%nat.
Proof. intros i [<- | [<- | []]]; cbn; lia. Qed.
Example C122_target_refuted_ex : settled_target [FaceSize] Area = true /\ settled_target [EdgeLength] Area = false /\ settled_target [Area] EdgeLength = false.
Proof. repeat split. Qed.
Example C122_regrid_refuted_ex : proper_mesh ex_mesh2 /\ settled_mesh [FaceSize] Area = false /\ settled_mesh [Area] Area = true /\ settled_mesh [FaceSize] FaceSize = false.
Proof. split; [exact ex_proper2 | repeat split]. Qed.
