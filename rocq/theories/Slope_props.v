(** C101: the slope a surface reports is the steepness of its topography. *)
From Coq Require Import Reals List ZArith Arith String Lra Lia.
From Verif Require Import Common RSum Trig_model Mesh_model Mesh_spec Slope_model Slope_spec Slope_proofs Slope_cases.
Import ListNotations.
Open Scope R_scope.

(** What the gradient at a face is: the mean over the faces around it of the rise towards
    each of them, pointed at it, weighted by the length of the shared edge. *)
Theorem C101_mean_rise : forall rg h f l,
  around rg f (face_edges rg f) l -> (2 <= List.length l)%nat ->
  exists X Y, slope_squared rg h f = X * X + Y * Y /\
    X * lsum len_of l = lsum (fun p => len_of p * (rise h f p * sin (azimuth rg f (face_of p)))) l /\
    Y * lsum len_of l = lsum (fun p => len_of p * (rise h f p * cos (azimuth rg f (face_of p)))) l.
Proof. exact slope_mean. Qed.
Print Assumptions C101_mean_rise.
Example C101_mean_rise_case : around star 0 (face_edges star 0) star_around /\ (2 <= List.length star_around)%nat.
Proof. split; [exact star_neighbours|cbn; lia]. Qed.

(** A slope is never steeper than the steepest rise to a face around it. *)
Theorem C101_never_above_rise : forall rg h f l m,
  around rg f (face_edges rg f) l -> 0 <= m ->
  (forall p, In p l -> Rabs (rise h f p) <= m) -> slope_squared rg h f <= m * m.
Proof. exact slope_bound. Qed.
Print Assumptions C101_never_above_rise.
Example C101_never_above_rise_case : slope_squared star (star_height 3) 0 <= 3 * 3.
Proof.
  apply (C101_never_above_rise _ _ _ _ 3 star_neighbours); [lra|]. intros p I. unfold star_around in I.
  repeat (destruct I as [<-|I]; [unfold rise, face_of, dist_of; cbn [fst snd star_height]; apply Rabs_le; lra|]).
  destruct I.
Qed.

(** Raising the whole surface changes no slope, and stretching it by a factor stretches
    every slope by that factor. *)
Theorem C101_shift_scale : forall rg f a c (h : nat -> R),
  slope_squared rg (fun i => a * h i + c) f = a * a * slope_squared rg h f.
Proof. exact slope_shift_scale. Qed.
Print Assumptions C101_shift_scale.
Example C101_shift_scale_case : sqrt (slope_squared star (star_height 3) 0) = 3 / 2.
Proof. apply star_slope. lra. Qed.

(** The slope of a face depends on its own height and on the faces around it only. *)
Theorem C101_local : forall rg f l (h k : nat -> R),
  around rg f (face_edges rg f) l -> h f = k f ->
  (forall p, In p l -> h (face_of p) = k (face_of p)) ->
  slope_squared rg h f = slope_squared rg k f.
Proof. exact slope_local. Qed.
Print Assumptions C101_local.
Example C101_local_case : around polar 0 (face_edges polar 0) polar_around.
Proof. exact polar_neighbours. Qed.

(** On a plane the slope is never over-stated.
    Missing from the full claim: it is under-stated (below). *)
Theorem C101_plane_partial : forall rg h f l gx gy,
  around rg f (face_edges rg f) l -> plane rg h f l gx gy ->
  slope_squared rg h f <= gx * gx + gy * gy.
Proof. exact plane_upper. Qed.
Print Assumptions C101_plane_partial.
Example C101_plane_case : around star 0 (face_edges star 0) star_around /\ plane star (star_height 2) 0 star_around 2 0.
Proof. split; [exact star_neighbours|apply star_plane]. Qed.

(** The slope of a plane is right only when every face around lies straight up or down it. *)
Theorem C101_plane_exact_only : forall rg h f l gx gy,
  around rg f (face_edges rg f) l -> plane rg h f l gx gy -> (2 <= List.length l)%nat ->
  slope_squared rg h f = gx * gx + gy * gy ->
  forall p, In p l -> gx * cos (azimuth rg f (face_of p)) = gy * sin (azimuth rg f (face_of p)).
Proof. exact plane_exact. Qed.
Print Assumptions C101_plane_exact_only.

(** On a mesh whose faces have evenly placed neighbours, which is what the grids aim at,
    the reported slope of every plane is exactly half its slope. *)
Theorem C101_half : forall rg h f l gx gy,
  around rg f (face_edges rg f) l -> plane rg h f l gx gy ->
  (2 <= List.length l)%nat -> even_around rg f l ->
  sqrt (slope_squared rg h f) = sqrt (gx * gx + gy * gy) / 2.
Proof. exact half_slope. Qed.
Print Assumptions C101_half.
Example C101_half_case : around star 0 (face_edges star 0) star_around /\ plane star (star_height 2) 0 star_around 2 0 /\
  (2 <= List.length star_around)%nat /\ even_around star 0 star_around.
Proof. split; [exact star_neighbours|]. split; [apply star_plane|]. split; [cbn; lia|exact star_even]. Qed.

(** Refuted: collapsing the slopes above an angle leaves slopes above it.  A plane rising
    1.1 metres per metre (48 degrees) has a measured slope of 0.55, so that the default
    collapse at 35 degrees leaves it as it is. *)
Theorem C101_collapse_refuted : exists rg h f l gx gy,
  sensible rg /\ around rg f (face_edges rg f) l /\ even_around rg f l /\ plane rg h f l gx gy /\
  tan (to_radians 35) < sqrt (gx * gx + gy * gy) /\
  forall limit, (0 < limit)%nat ->
    exists delta, slope_collapse_deg limit 35 rg h = Ok (true, delta) /\ forall f, delta f = 0.
Proof.
  exact (ex_intro _ star (ex_intro _ (star_height (11 / 10)) (ex_intro _ 0%nat (ex_intro _ star_around
    (ex_intro _ (11 / 10) (ex_intro _ 0 star_too_steep)))))).
Qed.
Print Assumptions C101_collapse_refuted.

(** Every surface made of such planes no steeper than twice the tangent of the angle stands. *)
Theorem C101_collapse_stands : forall limit rg angle h,
  sensible rg -> (0 < limit)%nat -> 0 < angle < 90 ->
  (forall f, (f < n_face rg)%nat ->
     exists l, around rg f (face_edges rg f) l /\
       ((List.length l < 2)%nat \/
        (even_around rg f l /\ exists gx gy, plane rg h f l gx gy /\
           sqrt (gx * gx + gy * gy) <= 2 * tan (to_radians angle)))) ->
  exists delta, slope_collapse_deg limit angle rg h = Ok (true, delta) /\ forall f, delta f = 0.
Proof. exact collapse_stands. Qed.
Print Assumptions C101_collapse_stands.
Example C101_collapse_stands_case : exists delta,
  slope_collapse_deg 1000 35 star (star_height (11 / 10)) = Ok (true, delta) /\ forall f, delta f = 0.
Proof. apply star_stands. apply Nat.ltb_lt. reflexivity. Qed.

(** Refuted: the slopes of a surface cannot be had at all.  compute_slope passes the
    elevations to a compiled function that does not take them, and always raises TypeError. *)
Theorem C101_compute_slope_refuted : forall rg h, py_compute_slope rg h = Err TypeError.
Proof. exact no_slope. Qed.
Print Assumptions C101_compute_slope_refuted.

(** The radial gradient of a face is the weighted mean of the rises, each times the cosine
    of the angle between its direction and the bearing given for the face. *)
Theorem C101_radial_mean : forall rg b data v out f l,
  py_compute_radial_gradient rg (Some b) data (Values v) = Ok out -> (f < n_face rg)%nat ->
  around rg f (face_edges rg f) l -> (2 <= List.length l)%nat ->
  nth f out 0 = lsum (fun p => len_of p * rise (fun i => nth i v 0) f p *
                        cos (azimuth rg f (face_of p) - to_radians (b f))) l / lsum len_of l.
Proof. exact radial_mean. Qed.
Print Assumptions C101_radial_mean.
Example C101_radial_mean_case : exists out,
  py_compute_radial_gradient polar (Some (fun _ => 0)) (fun _ => None) (Values polar_field) = Ok out.
Proof. exact (radial_answers polar (fun _ => 0) (fun _ => None) polar_field eq_refl). Qed.

(** It is never larger than the steepest rise around the face. *)
Theorem C101_radial_bound : forall rg b data v out f l m,
  py_compute_radial_gradient rg (Some b) data (Values v) = Ok out -> (f < n_face rg)%nat ->
  around rg f (face_edges rg f) l -> 0 <= m ->
  (forall p, In p l -> Rabs (rise (fun i => nth i v 0) f p) <= m) -> Rabs (nth f out 0) <= m.
Proof. exact radial_bound. Qed.
Print Assumptions C101_radial_bound.

(** Every array with one value per face is answered on a local region; a region without
    bearings, an unknown name and an array of another length raise ValueError. *)
Theorem C101_radial_answers : forall rg b data v, List.length v = n_face rg ->
  exists out, py_compute_radial_gradient rg (Some b) data (Values v) = Ok out.
Proof. exact radial_answers. Qed.
Print Assumptions C101_radial_answers.
Theorem C101_radial_refused : forall rg b data v,
  py_compute_radial_gradient rg None data v = Err ValueError /\
  (forall s, data s = None -> py_compute_radial_gradient rg b data (Named s) = Err ValueError) /\
  (forall l, List.length l <> n_face rg -> py_compute_radial_gradient rg b data (Values l) = Err ValueError).
Proof. exact radial_refused. Qed.
Print Assumptions C101_radial_refused.

(** Refuted: a variable that is not one of the faces is refused.  Given by name, a
    variable with more values than faces, such as one on the nodes, is used as if its
    first values were those of the faces. *)
Theorem C101_node_variable_refuted : forall rg b data s v,
  data s = Some v -> (n_face rg < List.length v)%nat ->
  py_compute_radial_gradient rg (Some b) data (Values v) = Err ValueError /\
  exists out, py_compute_radial_gradient rg (Some b) data (Named s) = Ok out.
Proof. exact radial_named_long. Qed.
Print Assumptions C101_node_variable_refuted.
Example C101_node_variable_case : (n_face polar < List.length [1; 2; 3; 4])%nat.
Proof. cbn; lia. Qed.

(** Refuted: a field that rises away from the centre has a positive radial gradient.  The
    direction used at a face is the bearing on which the centre sees it, not the direction
    away from the centre at the face.  Beyond a pole the two are opposite: here the field
    rises by one towards the face straight outward and falls by one towards the face
    straight inward, and the radial gradient is reported as minus one. *)
Theorem C101_radial_sign_refuted : forall data,
  around polar 0 (face_edges polar 0) polar_around /\
  azimuth polar 0 2 = outward polar 0 89 0 /\
  rise (fun i => nth i polar_field 0) 0 (2%nat, 1, 1) = 1 /\
  rise (fun i => nth i polar_field 0) 0 (1%nat, 1, 1) = -1 /\
  azimuth polar 0 1 + PI = outward polar 0 89 0 /\
  exists out, py_compute_radial_gradient polar (Some (bearing_from polar 0 89)) data (Values polar_field) = Ok out /\
    nth 0 out 0 = -1.
Proof. exact polar_wrong. Qed.
Print Assumptions C101_radial_sign_refuted.

(** On evenly placed neighbours the radial gradient of a plane, too, is half the rise along
    the bearing. *)
Theorem C101_radial_half : forall rg b data v out f l gx gy,
  py_compute_radial_gradient rg (Some b) data (Values v) = Ok out -> (f < n_face rg)%nat ->
  around rg f (face_edges rg f) l -> (2 <= List.length l)%nat -> even_around rg f l ->
  plane rg (fun i => nth i v 0) f l gx gy ->
  nth f out 0 = (gx * sin (to_radians (b f)) + gy * cos (to_radians (b f))) / 2.
Proof. exact radial_half. Qed.
Print Assumptions C101_radial_half.

(** The compiled slopes, which the method above would turn into degrees, are the lengths of the
    gradients, one for each face. *)
Theorem C101_compiled_slopes : forall rg h, List.length (compute_slope rg h) = n_face rg /\
  forall f, (f < n_face rg)%nat -> 0 <= nth f (compute_slope rg h) 0 /\
    (let '(gx, gy) := compute_one_face_gradient rg h f in nth f (compute_slope rg h) 0 * nth f (compute_slope rg h) 0 = gx * gx + gy * gy).
Proof. exact slope_lengths. Qed.
Print Assumptions C101_compiled_slopes.
Example C101_compiled_slopes_case : (0 < n_face star)%nat.
Proof. cbn; lia. Qed.

(** A compiled function called with keywords answers only if these are exactly its arguments. *)
Theorem C101_keywords : forall arguments given, call_keywords arguments given = Ok tt <-> (forall k, In k arguments <-> In k given).
Proof. exact keywords_exact. Qed.
Print Assumptions C101_keywords.
Example C101_keywords_case : call_keywords ["region"%string] ["face_elevation"%string; "region"%string] = Err TypeError.
Proof. reflexivity. Qed.
