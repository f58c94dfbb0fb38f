(** Vocabulary for the theorems about Fit_model. *)
From Coq Require Import Reals List.
From Verif Require Import Common Trig_model RSum Fit_model.
Import ListNotations.
Open Scope R_scope.

(** The influence of a point: its weight if that is a positive number, otherwise nothing. *)
Definition weight (p : wpoint) : R := match snd p with Some v => Rmax v 0 | None => 0 end.
Definition counts (p : wpoint) : Prop := 0 < weight p.
Definition total (f : wpoint -> R) (pts : list wpoint) : R := lsum (fun p => weight p * f p) pts.
(** All points that count are on a line. *)
Definition collinear (pts : list wpoint) : Prop :=
  exists u v k, (u <> 0 \/ v <> 0) /\ forall p, In p pts -> counts p -> u * px p + v * py p = k.

(** Squared distance to a centre. *)
Definition sqd (x0 y0 : R) (p : wpoint) : R := (px p - x0) ^ 2 + (py p - y0) ^ 2.
(** Weighted squared misfits of a circle: of the distances, and of their squares. *)
Definition radial_misfit (pts : list wpoint) (x0 y0 r : R) : R := total (fun p => (sqrt (sqd x0 y0 p) - r) ^ 2) pts.
Definition area_misfit (pts : list wpoint) (x0 y0 r : R) : R := total (fun p => (sqd x0 y0 p - r ^ 2) ^ 2) pts.

(** The conic a x^2 + b x y + c y^2 + d x + f y + g. *)
Definition conic (a b c d f g x y : R) : R := a * x ^ 2 + b * x * y + c * y ^ 2 + d * x + f * y + g.
(** The weighted squared values of a conic at the points. *)
Definition conic_misfit (pts : list wpoint) (a b c d f g : R) : R := total (fun p => (conic a b c d f g (px p) (py p)) ^ 2) pts.
(** (x, y) is on the ellipse with centre (x0, y0), semi-axes ap and bp, the first in the
    direction psi (anticlockwise from the x axis). *)
Definition on_ellipse (x0 y0 ap bp psi x y : R) : Prop :=
  (((x - x0) * cos psi + (y - y0) * sin psi) / ap) ^ 2 + (((y - y0) * cos psi - (x - x0) * sin psi) / bp) ^ 2 = 1.
Definition inside_ellipse (x0 y0 ap bp psi x y : R) : Prop :=
  (((x - x0) * cos psi + (y - y0) * sin psi) / ap) ^ 2 + (((y - y0) * cos psi - (x - x0) * sin psi) / bp) ^ 2 < 1.
(** The coefficients are those of an ellipse with more than one point: the quadratic part is
    definite and the constant term has the opposite sign once the conic is centred. *)
Definition real_ellipse (a b c d f g : R) : Prop :=
  b ^ 2 < 4 * a * c /\
  (a + c) * (a * f ^ 2 + c * d ^ 2 + g * b ^ 2 - b * d * f - 4 * a * c * g) > 0.

(** Every vector [eig] lists for a matrix is an eigenvector of it. *)
Definition lists_eigenvectors (eig : mat3 -> list vec3) : Prop :=
  forall m a b c, In (a, b, c) (eig m) -> exists lam, mv m (a, b, c) = (lam * a, lam * b, lam * c).
(** Degrees of an angle, and the direction (anticlockwise from the x axis) of a compass
    bearing in degrees (clockwise from the y axis). *)
Definition degrees (x : R) : R := x * 180 / PI.
Definition direction_of_bearing (o : R) : R := PI / 2 - o * PI / 180.

(** Sample rim: the four vertices of 4 x^2 + y^2 = 4, and an [eig] for it. *)
Definition tall : list wpoint := [(1, 0, Some 1); (-1, 0, Some 1); (0, 2, Some 1); (0, -2, Some 1)].
Definition eig_tall (m : mat3) : list vec3 :=
  let '(x, y, z) := mv m (4, 0, 1) in
  if Req_EM_T x (4 * z) then if Req_EM_T y 0 then [(4, 0, 1)] else [] else [].
(** Weights that add up to nothing, although three points count. *)
Definition cancelling : list wpoint := [(1, 0, Some 1); (-1, 0, Some 1); (0, 1, Some 1); (5, 5, Some (-3))].
