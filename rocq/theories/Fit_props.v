(** Property theorems about rim fitting (C43, C44, C61, C62, C63). *)
From Coq Require Import Reals List.
From Verif Require Import Common Trig_model RSum Fit_model Fit_spec Fit_proofs Fit_circle Fit_conic Fit_ellipse Fit_rim.
Import ListNotations.
Open Scope R_scope.

(** C43: with a fixed centre the radius is the weighted mean distance, no other radius has a
    smaller weighted squared misfit, the reported misfit is its weighted root mean square, and
    the radius lies between the distances of two rim points. *)
Theorem C43_fixed_centre_circle_is_best pts x0 y0 r w : fit_circle_fixed pts x0 y0 = Ok (r, w) ->
  r * total (fun _ => 1) pts = total (fun p => sqrt (sqd x0 y0 p)) pts /\
  (forall r', radial_misfit pts x0 y0 r <= radial_misfit pts x0 y0 r') /\
  w ^ 2 * total (fun _ => 1) pts = radial_misfit pts x0 y0 r /\ 0 <= w /\
  (exists p, In p pts /\ counts p /\ sqrt (sqd x0 y0 p) <= r) /\ (exists p, In p pts /\ counts p /\ r <= sqrt (sqd x0 y0 p)).
Proof. exact (fixed_best pts x0 y0 r w). Qed.
Print Assumptions C43_fixed_centre_circle_is_best.
(** C43: the fit exists exactly when a point has a positive weight. *)
Theorem C43_fixed_centre_circle_exists pts x0 y0 : (exists r w, fit_circle_fixed pts x0 y0 = Ok (r, w)) <-> exists p, In p pts /\ counts p.
Proof. exact (fixed_total pts x0 y0). Qed.
Print Assumptions C43_fixed_centre_circle_exists.
Example C43_case : exists r w, fit_circle_fixed [(3, 4, Some 1); (0, 7, None); (1, 0, Some 2)] 0 0 = Ok (r, w).
Proof. exact case_fixed. Qed.

(** C44: from the coefficients of an ellipse the code always gets finite parameters, with
    0 < semi-minor <= semi-major; in the cases listed the parameters describe the conic.
    Missing: the other cases, where they do not (next theorem), and 0 < |b/2| < 1e-12, where
    the code ignores b. *)
Theorem C44_parameters_describe_conic_partial a b c d f g : real_ellipse a b c d f g ->
  exists x0 y0 ap bp o, conic_parameters a b c d f g = Ok (x0, y0, ap, bp, o) /\ 0 < bp <= ap /\ - PI < o < PI /\
  ((1e-12 <= Rabs (b / 2) /\ Rabs a <= Rabs c) \/ (b = 0 /\ Rabs c <= Rabs a) -> forall x y, conic a b c d f g x y = 0 <-> on_ellipse x0 y0 ap bp o x y) /\
  ((1e-12 <= Rabs (b / 2) /\ Rabs c < Rabs a) \/ (b = 0 /\ Rabs a < Rabs c) -> forall x y, conic a b c d f g x y = 0 <-> on_ellipse x0 y0 ap bp (o + PI / 2) x y).
Proof. exact (conic_common a b c d f g). Qed.
Print Assumptions C44_parameters_describe_conic_partial.
Example C44_case : real_ellipse (1/4) 0 1 0 0 (-1).
Proof. exact ex_real. Qed.
(** C44 fails: in the remaining cases every ellipse that is not a circle gets an orientation a
    quarter turn off, so that a point of the conic is not on the reported ellipse. *)
Theorem C44_orientation_a_quarter_turn_off_refuted a b c d f g : real_ellipse a b c d f g ->
  (1e-12 <= Rabs (b / 2) /\ Rabs c < Rabs a) \/ (b = 0 /\ Rabs a < Rabs c) ->
  forall x0 y0 ap bp o, conic_parameters a b c d f g = Ok (x0, y0, ap, bp, o) -> bp < ap ->
  exists x y, conic a b c d f g x y = 0 /\ ~ on_ellipse x0 y0 ap bp o x y.
Proof. exact (conic_wrong a b c d f g). Qed.
Print Assumptions C44_orientation_a_quarter_turn_off_refuted.
(** x^2/4 + y^2 = 1 is reported with its longer axis along y. *)
Example C44_quarter_case : exists o, conic_parameters (1/4) 0 1 0 0 (-1) = Ok (0, 0, 2, 1, o) /\ o = PI / 2.
Proof. exact ex_params. Qed.
(** C44 fails: the orientation is documented to be in [0, PI) but can be negative. *)
Theorem C44_negative_orientation_refuted : exists x0 y0 ap bp o, conic_parameters (-1) (-1) (-2) 0 0 1 = Ok (x0, y0, ap, bp, o) /\ o < 0.
Proof. exact ex_negative. Qed.
Print Assumptions C44_negative_orientation_refuted.
(** C44: conics that are not ellipses are rejected. *)
Theorem C44_other_conics_rejected a b c d f g : 4 * a * c <= b ^ 2 -> forall r, conic_parameters a b c d f g <> Ok r.
Proof. exact (conic_reject a b c d f g). Qed.
Print Assumptions C44_other_conics_rejected.
Example C44_reject_case : 4 * 1 * (-1) <= 0 ^ 2.
Proof. exact reject_case. Qed.

(** C61: the fitted circle has a positive radius and no circle has a smaller weighted squared
    misfit of the squared distances. *)
Theorem C61_circle_fit_is_best pts x0 y0 r w : fit_circle pts = Ok (x0, y0, r, w) ->
  0 < r /\ forall x1 y1 r1, area_misfit pts x0 y0 r <= area_misfit pts x1 y1 r1.
Proof. exact (circle_best pts x0 y0 r w). Qed.
Print Assumptions C61_circle_fit_is_best.
(** C61: if all points that count are on one circle, that circle is found. *)
Theorem C61_circle_is_recovered pts X Y r x0 y0 r0 w : 0 <= r -> (forall p, In p pts -> counts p -> sqd X Y p = r ^ 2) ->
  fit_circle pts = Ok (x0, y0, r0, w) -> x0 = X /\ y0 = Y /\ r0 = r.
Proof. exact (circle_exact pts X Y r x0 y0 r0 w). Qed.
Print Assumptions C61_circle_is_recovered.
(** C61: with weights that are numbers and not negative, the misfit is the weighted root mean
    square distance to the circle. *)
Theorem C61_circle_misfit pts x0 y0 r w : Forall (fun p => exists v, snd p = Some v /\ 0 <= v) pts -> fit_circle pts = Ok (x0, y0, r, w) ->
  exists m, w = Some m /\ 0 <= m /\ m ^ 2 * total (fun _ => 1) pts = radial_misfit pts x0 y0 r.
Proof. exact (circle_wrms pts x0 y0 r w). Qed.
Print Assumptions C61_circle_misfit.
(** C61: a circle is found exactly when the points that count are not on a line and the sum of
    all weights is not 0.  Missing: the second condition should not be needed. *)
Theorem C61_circle_exists_partial pts : (exists x0 y0 r w, fit_circle pts = Ok (x0, y0, r, w)) <-> osum (map snd pts) <> Some 0 /\ ~ collinear pts.
Proof. exact (circle_total pts). Qed.
Print Assumptions C61_circle_exists_partial.
Example C61_case : exists x0 y0 r w, fit_circle tall = Ok (x0, y0, r, w).
Proof. exact case_circle. Qed.
(** C61 fails: three points of the unit circle count, but weights that cancel are an error. *)
Theorem C61_cancelling_weights_refuted : ~ collinear cancelling /\ (forall p, In p cancelling -> counts p -> sqd 0 0 p = 1 ^ 2) /\ fit_circle cancelling = Err RustErr.
Proof. exact (conj cancelling_not_collinear (conj cancelling_unit cancelling_err)). Qed.
Print Assumptions C61_cancelling_weights_refuted.

(** C62: every conic the ellipse fit returns is an ellipse with more than one point, the
    parameters exist, and its axes are positive and ordered. *)
Theorem C62_fit_is_an_ellipse eig pts a b c d f g : ellipse_coefficients eig pts = Ok ((a, b, c), (d, f, g)) ->
  real_ellipse a b c d f g /\ exists x0 y0 ap bp o, fit_ellipse eig pts = Ok (x0, y0, ap, bp, o) /\ 0 < bp <= ap.
Proof. exact (fun E => conj (ellipse_real eig pts a b c d f g E) (fit_ok eig pts _ E)). Qed.
Print Assumptions C62_fit_is_an_ellipse.
(** C62: no conic has a smaller weighted squared misfit relative to 4ac - b^2. *)
Theorem C62_ellipse_fit_is_best eig pts a b c d f g : lists_eigenvectors eig ->
  ellipse_coefficients eig pts = Ok ((a, b, c), (d, f, g)) ->
  forall a' b' c' d' f' g', (4 * a' * c' - b' ^ 2) * conic_misfit pts a b c d f g <= (4 * a * c - b ^ 2) * conic_misfit pts a' b' c' d' f' g'.
Proof. exact (free_best eig pts a b c d f g). Qed.
Print Assumptions C62_ellipse_fit_is_best.
(** C62: if all points that count are on an ellipse, they are all on the fitted one. *)
Theorem C62_ellipse_points_are_on_the_fit eig pts a b c d f g a' b' c' d' f' g' : lists_eigenvectors eig ->
  ellipse_coefficients eig pts = Ok ((a, b, c), (d, f, g)) -> b' ^ 2 < 4 * a' * c' ->
  (forall p, In p pts -> counts p -> conic a' b' c' d' f' g' (px p) (py p) = 0) ->
  forall p, In p pts -> counts p -> conic a b c d f g (px p) (py p) = 0.
Proof. exact (free_exact eig pts a b c d f g a' b' c' d' f' g'). Qed.
Print Assumptions C62_ellipse_points_are_on_the_fit.
(** C62: with a fixed centre the conic has that centre, and no conic with that centre is
    better; it is an ellipse unless all points that count are the centre. *)
Theorem C62_fixed_centre_ellipse_is_best eig pts x0 y0 a b c d f g : lists_eigenvectors eig ->
  fixed_coefficients eig pts x0 y0 = Ok ((a, b, c), (d, f, g)) ->
  2 * a * x0 + b * y0 + d = 0 /\ b * x0 + 2 * c * y0 + f = 0 /\
  (forall a' b' c' d' f' g', 2 * a' * x0 + b' * y0 + d' = 0 -> b' * x0 + 2 * c' * y0 + f' = 0 ->
     (4 * a' * c' - b' ^ 2) * conic_misfit pts a b c d f g <= (4 * a * c - b ^ 2) * conic_misfit pts a' b' c' d' f' g') /\
  ((exists p, In p pts /\ counts p /\ (px p <> x0 \/ py p <> y0)) -> real_ellipse a b c d f g).
Proof. exact (fixed_best_all eig pts x0 y0 a b c d f g). Qed.
Print Assumptions C62_fixed_centre_ellipse_is_best.
(** C62: points on a line give an error, not an ellipse. *)
Theorem C62_line_is_rejected eig pts : collinear pts -> forall r, fit_ellipse eig pts <> Ok r.
Proof. exact (line_rejected eig pts). Qed.
Print Assumptions C62_line_is_rejected.
Example C62_case : lists_eigenvectors eig_tall /\ ellipse_coefficients eig_tall tall = Ok ((4, 0, 1), (0, 0, -4)) /\ ~ collinear tall.
Proof. exact (conj eig_tall_ok (conj tall_fit tall_not_collinear)). Qed.
Example C62_fixed_case : fixed_coefficients eig_tall tall 0 0 = Ok ((4, 0, 1), (0, 0, -4)).
Proof. exact tall_fixed. Qed.
Example C62_line_case : collinear [(0, 0, Some 1); (1, 1, Some 1); (2, 2, Some 1)].
Proof. exact line_case. Qed.

(** C63: the signed distance to a rim is negative inside the ellipse with the given axes and
    compass bearing, and zero exactly on it. *)
Theorem C63_rim_distance_sign x y a b o x0 y0 : 0 < a -> 0 < b ->
  (rim_distance x y a b o x0 y0 < 0 <-> inside_ellipse x0 y0 a b (direction_of_bearing o) x y) /\
  (rim_distance x y a b o x0 y0 = 0 <-> on_ellipse x0 y0 a b (direction_of_bearing o) x y).
Proof. exact (rim_sign x y a b o x0 y0). Qed.
Print Assumptions C63_rim_distance_sign.
(** C63: it is the distance along the ray from the centre: moving by it towards the centre
    reaches the rim. *)
Theorem C63_rim_distance_is_radial x y a b o x0 y0 : 0 < a -> 0 < b -> (x <> x0 \/ y <> y0) ->
  let r := sqrt ((x - x0) ^ 2 + (y - y0) ^ 2) in let k := 1 - rim_distance x y a b o x0 y0 / r in
  0 < k /\ on_ellipse x0 y0 a b (direction_of_bearing o) (x0 + k * (x - x0)) (y0 + k * (y - y0)).
Proof. exact (rim_along x y a b o x0 y0). Qed.
Print Assumptions C63_rim_distance_is_radial.
(** C63: the rim distances of a fitted ellipse vanish on the fitted conic in the cases of the
    first part; in those of the second they vanish on that conic turned by a quarter. *)
Theorem C63_distance_to_fitted_rim_partial eig pts a b c d f g x0 y0 ap bp o :
  ellipse_coefficients eig pts = Ok ((a, b, c), (d, f, g)) -> fit_ellipse eig pts = Ok (x0, y0, ap, bp, o) ->
  0 < bp <= ap /\
  ((1e-12 <= Rabs (b / 2) /\ Rabs c < Rabs a) \/ (b = 0 /\ Rabs a < Rabs c) -> forall x y, rim_distance x y ap bp (degrees o) x0 y0 = 0 <-> conic a b c d f g x y = 0) /\
  ((1e-12 <= Rabs (b / 2) /\ Rabs a <= Rabs c) \/ (b = 0 /\ Rabs c <= Rabs a) -> forall x y, rim_distance x y ap bp (degrees o) x0 y0 = 0 <-> conic a b c d f g (x0 + (y - y0)) (y0 - (x - x0)) = 0).
Proof. exact (fit_rim eig pts a b c d f g x0 y0 ap bp o). Qed.
Print Assumptions C63_distance_to_fitted_rim_partial.
(** C63 fails: a rim point on the fitted conic is at a distance from the fitted rim. *)
Theorem C63_fitted_point_off_the_rim_refuted : exists x0 y0 ap bp o,
  lists_eigenvectors eig_tall /\ ellipse_coefficients eig_tall tall = Ok ((4, 0, 1), (0, 0, -4)) /\ conic 4 0 1 0 0 (-4) 1 0 = 0 /\
  fit_ellipse eig_tall tall = Ok (x0, y0, ap, bp, o) /\ rim_distance 1 0 ap bp (degrees o) x0 y0 <> 0.
Proof. exact tall_refuted. Qed.
Print Assumptions C63_fitted_point_off_the_rim_refuted.
(** C63 fails: the distances behind the misfit of an ellipse fit do not vanish on the ellipse. *)
Theorem C63_misfit_distance_not_zero_refuted : conic 1 0 1 0 0 (-1) 1 0 = 0 /\ exists v, geometric_distance 1 0 1 0 0 (-1) (1, 0, Some 1) = Ok v /\ v <> 0.
Proof. exact geometric_refuted. Qed.
Print Assumptions C63_misfit_distance_not_zero_refuted.
