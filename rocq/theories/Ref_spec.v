(** Specification vocabulary for reference surfaces. *)
From Coq Require Import Reals List Bool.
From Verif Require Import Common Profile_model Ref_model.
Import ListNotations.
Open Scope R_scope.

(** Sum of the squared distances of points (x, y, z) from the plane z = a x + b y + c. *)
Definition misfit (c : R * R * R) (pts : list (R * R * R)) : R :=
  fold_right Rplus 0 (map (fun p => (fst (fst c) * fst (fst p) + snd (fst c) * snd (fst p) + snd c - snd p) ^ 2) pts).
(** A solver of least squares finds a plane of smallest misfit. *)
Definition least_squares (lstsq : solver) : Prop := forall pts c, misfit (lstsq pts) pts <= misfit c pts.

(** How far east and north of the centre a point is, and the height of a plane there (bearings
    are in degrees, clockwise from north). *)
Definition east (p : point) : R := p_dist p * sin (p_bear p * (PI / 180)).
Definition north (p : point) : R := p_dist p * cos (p_bear p * (PI / 180)).
Definition height_at (c : R * R * R) (p : point) : R := fst (fst c) * east p + snd (fst c) * north p + snd c.
Definition placed (p : point) : R * R * R := (east p, north p, p_elev p).
(** The terrain [p] raised by a plane. *)
Definition tilt (c : R * R * R) (p : point) : point := mkPoint (p_dist p) (p_bear p) (p_elev p + height_at c p).
(** The values of [l] at the points within the radius. *)
Definition inside (radius : R) (pts : list point) (l : list R) : list R :=
  map snd (filter (fun e => within radius (fst e)) (combine pts l)).
Definition total (l : list R) : R := fold_right Rplus 0 l.
(** The points a reference surface is computed for. *)
Definition points (only_faces : bool) (faces nodes : list point) : list point := if only_faces then faces else (faces ++ nodes)%list.
(** [z] is the value computed for the point [p]. *)
Definition value (pts : list point) (out : list R) (p : point) (z : R) : Prop :=
  exists i, nth_error pts i = Some p /\ nth_error out i = Some z.
(** A plane is fitted. *)
Definition fitted (radius : R) (only_faces : bool) (faces nodes : list point) : Prop :=
  (only_faces = true \/ exists p, In p nodes /\ p_dist p <= radius) /\
  (5 <= List.length (filter (within radius) (points only_faces faces nodes)))%nat.
(** [m] is the mean of [f] over the points within the radius. *)
Definition mean_within (radius : R) (f : point -> R) (pts : list point) (m : R) : Prop :=
  filter (within radius) pts <> [] /\ m * INR (List.length (filter (within radius) pts)) = total (map f (filter (within radius) pts)).
(** The same faces or nodes, with elevations of their own. *)
Definition same_places (l m : list point) : Prop := Forall2 (fun p q => p_dist p = p_dist q /\ p_bear p = p_bear q) l m.
(** [c] is a plane of best fit to the points within the radius. *)
Definition best_plane (radius : R) (pts : list point) (c : R * R * R) : Prop :=
  forall c', misfit c (map placed (filter (within radius) pts)) <= misfit c' (map placed (filter (within radius) pts)).
