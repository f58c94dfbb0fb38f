(** Property C123. *)
From Coq Require Import Reals List Lra Lia.
From Verif Require Import Common Profile_model Radial_model Radial_spec Radial_proofs.
Import ListNotations.
Open Scope R_scope.

(** A profile of a crater has the shape of the distances, and its values are those of the distances
    in order, over the reference elevations in order, or over zero.  Missing: numbers that are not
    64-bit floats, and no distances. *)
Theorem C123_crater_partial : forall p r k s rs ref k' refs,
  contains r k s rs -> references (List.length rs) k ref k' refs ->
  rs <> [] -> (an_array r -> k = F64) -> k' = F64 -> List.length refs = List.length rs ->
  exists out, py_crater_profile p r ref = Ok (mk_array F64 s out) /\ crater_profile p (combine rs refs) = Ok out /\ List.length out = List.length rs.
Proof. exact crater_ok. Qed.
Print Assumptions C123_crater_partial.

(** Refuted: that every distance and reference elevation that is a number is accepted. The profile
    fails exactly where the theorem above does not apply, with a TypeError if the numbers are the
    cause: without reference elevations, distances that are not 64-bit floats, such as whole
    numbers, are refused in any form; with them, only in arrays. Rows of different lengths are
    refused. *)
Theorem C123_crater_refuted :
  (forall p r k s rs ref k' refs, contains r k s rs -> references (List.length rs) k ref k' refs ->
     rs = [] \/ (an_array r /\ k <> F64) \/ k' <> F64 \/ List.length refs <> List.length rs ->
     exists e, py_crater_profile p r ref = Err e /\ ((an_array r /\ k <> F64) \/ k' <> F64 -> e = TypeError))
  /\ (forall p ref, py_crater_profile p Ragged ref = Err ValueError)
  /\ (forall p x, py_crater_profile p (Scalar false Ints x) None = Err TypeError).
Proof.
  split; [exact crater_fails |]. split; [exact crater_ragged |]. reflexivity.
Qed.
Print Assumptions C123_crater_refuted.

(** The thickness of ejecta has the shape of the distances; each is zero inside the rim, and outside
    falls with the cube of the distance from its value on the rim. It fails only for arrays of
    numbers that are not 64-bit floats and for rows of different lengths. *)
Theorem C123_ejecta : forall p r k s rs, contains r k s rs ->
  ((an_array r -> k = F64) -> exists out, py_ejecta_profile p r = Ok (mk_array F64 s out) /\ Forall2 (thickness_at p) rs out)
  /\ (an_array r -> k <> F64 -> py_ejecta_profile p r = Err TypeError)
  /\ py_ejecta_profile p Ragged = Err ValueError.
Proof. intros p r k s rs C. exact (conj (ejecta_ok p r k s rs C) (conj (ejecta_fails p r k s rs C) eq_refl)). Qed.
Print Assumptions C123_ejecta.

(** The distribution of ejecta: each thickness is that of its distance times the intensity of the
    rays at its distance and bearing, for the seed that is drawn, which is one.
    Missing: lists, plain numbers, arrays that are not a single row, and other kinds of numbers. *)
Theorem C123_distribution_partial : forall rays p, (forall a b, List.length (rays a b) = List.length a) ->
  forall r theta k s rs k' s' ts, contains r k s rs -> contains theta k' s' ts ->
  k = F64 -> (an_array r /\ a_row s \/ exists x, r = Scalar true F64 x) -> k' <> F32 -> List.length ts = List.length rs ->
  exists out th inten, ejecta_distribution rays p r theta = (Ok (mk_array F64 out th, mk_array F64 out inten), 1%nat) /\
    (an_array r -> out = s) /\ inten = rays rs (map (fun x => x * PI / 180) ts) /\
    exists full, Forall2 (thickness_at p) rs full /\ th = map (fun q => fst q * snd q) (combine full inten).
Proof. exact distribution_ok. Qed.
Print Assumptions C123_distribution_partial.

(** Refuted: that distances may be given in any form and shape. The distribution fails in every case
    other than those of the theorem above: arrays of two or more rows are refused; lists and plain
    numbers are refused after the seed was drawn, as they are by the intensity of the rays. *)
Theorem C123_distribution_refuted : forall rays p, (forall a b, List.length (rays a b) = List.length a) ->
  forall r theta k s rs k' s' ts, contains r k s rs -> contains theta k' s' ts ->
  (~ (k = F64 /\ (an_array r /\ a_row s \/ exists x, r = Scalar true F64 x) /\ k' <> F32 /\ List.length ts = List.length rs) ->
     exists e, fst (ejecta_distribution rays p r theta) = Err e)
  /\ ((exists kk ss d, r = Nested kk ss d) \/ (exists kk x, r = Scalar false kk x) ->
      (exists e, fst (ejecta_distribution rays p r theta) = Err e) /\ snd (ejecta_distribution rays p r theta) = 1%nat /\
      (exists e, fst (ray_intensity rays r theta) = Err e) /\ snd (ray_intensity rays r theta) = 1%nat).
Proof.
  intros rays p L r theta k s rs k' s' ts Cr Ct.
  exact (conj (distribution_fails rays p L r theta k s rs k' s' ts Cr Ct) (fun H => list_fails rays p L r theta k s rs k' s' ts Cr Ct H _ eq_refl)).
Qed.
Print Assumptions C123_distribution_refuted.

(** The intensity of the rays has the shape of the array of distances, of any shape, and is that of
    each distance and bearing. *)
Theorem C123_intensity : forall rays r theta k s rs k' s' ts, contains r k s rs -> contains theta k' s' ts ->
  k = F64 -> an_array r -> k' <> F32 -> List.length ts = List.length rs ->
  ray_intensity rays r theta = (Ok (mk_array F64 s (rays rs (map (fun x => x * PI / 180) ts))), 1%nat).
Proof. exact intensity_ok. Qed.
Print Assumptions C123_intensity.

(** Rows of different lengths are a ValueError wherever they are given, and no seed is drawn. *)
Theorem C123_ragged : forall rays p r theta k s rs, contains r k s rs -> (an_array r -> k = F64) ->
  py_crater_profile p r (Some Ragged) = Err ValueError
  /\ ejecta_distribution rays p Ragged theta = (Err ValueError, 0%nat) /\ ejecta_distribution rays p r Ragged = (Err ValueError, 0%nat)
  /\ ray_intensity rays Ragged theta = (Err ValueError, 0%nat) /\ ray_intensity rays r Ragged = (Err ValueError, 0%nat).
Proof. exact ragged. Qed.
Print Assumptions C123_ragged.
Example C123_ragged_ex : contains ex_line F64 [3]%nat [1/2; 2; 3].
Proof. exact (c_array (mk_array F64 [3]%nat [1/2; 2; 3]) eq_refl). Qed.

Example C123_crater_ex : contains ex_grid F64 [2; 2]%nat [1; 2; 3; 4] /\ references 4 F64 None F64 [0; 0; 0; 0] /\
  contains (Nested Ints [2]%nat [1; 2]) Ints [2]%nat [1; 2] /\ references 2 Ints (Some (Nested F64 [2]%nat [0; 1])) F64 [0; 1].
Proof.
  split; [exact (c_array (mk_array F64 [2; 2]%nat [1; 2; 3; 4]) eq_refl) |]. split; [constructor |].
  split; [constructor; [discriminate | reflexivity] |]. apply (reference 2 Ints _ F64 [2]%nat). constructor; [discriminate | reflexivity].
Qed.
Example C123_crater_refuted_ex : py_crater_profile ex_shape (Nested Ints [2]%nat [1; 2]) None = Err TypeError.
Proof. reflexivity. Qed.
Example C123_ejecta_ex : py_ejecta_profile ex_shape (Nested Ints [2]%nat [1; 2]) = Ok (mk_array F64 [2]%nat (ejecta_profile [1; 2] 2 1)).
Proof. reflexivity. Qed.
Example C123_distribution_ex : contains ex_line F64 [3]%nat [1/2; 2; 3] /\ a_row [3]%nat /\ a_row [1; 3]%nat /\ (forall a b, List.length (ex_rays a b) = List.length a).
Proof.
  split; [exact (c_array (mk_array F64 [3]%nat [1/2; 2; 3]) eq_refl) |]. split; [exists [], 3%nat; split; reflexivity |].
  split; [exists [1%nat], 3%nat; split; reflexivity |]. intros a b. apply map_length.
Qed.
Example C123_distribution_refuted_ex : fst (ejecta_distribution ex_rays ex_shape ex_grid ex_grid) = Err ValueError /\
  fst (ejecta_distribution ex_rays ex_shape (Nested F64 [2]%nat [1; 2]) (Nested F64 [2]%nat [1; 2])) = Err AttributeError.
Proof. split; reflexivity. Qed.
Example C123_intensity_ex : contains ex_grid F64 [2; 2]%nat [1; 2; 3; 4] /\ an_array ex_grid.
Proof. split; [exact (c_array (mk_array F64 [2; 2]%nat [1; 2; 3; 4]) eq_refl) | eexists; reflexivity]. Qed.
