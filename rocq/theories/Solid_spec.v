(** Vocabulary of the claim about three-dimensional models (C103). *)
From Coq Require Import Reals.
From Verif Require Import Common Geo_spec Solid_model.
Open Scope R_scope.

(** Distance from the centre of the body. *)
Definition height_of (p : vec) : R := sqrt (dot p p).
(** [q] is straight above or below [p]. *)
Definition times (t : R) (p : vec) : vec := let '(x, y, z) := p in (t * x, t * y, t * z).
Definition above (p q : vec) : Prop := exists t, 0 <= t /\ q = times t p.
(** The direction of a longitude and latitude in degrees. *)
Definition towards (loc : R * R) : vec := direction (fst loc * PI / 180) (snd loc * PI / 180).

(** The connectivity of a face is its nodes followed by fill values. *)
Definition packed (row : list (option nat)) (nodes : list nat) : Prop :=
  exists k, row = (map Some nodes ++ repeat None k)%list.

(** Above the ground by the radius of what is drawn. *)
Definition lift (face_size : nat -> R) (style : string) (factor : R) (c : crater) (f : nat) (h : R) : Prop :=
  (style = "points"%string /\ h = factor * face_size f / 2) \/
  (style = "spheres"%string /\ exists p, k_projectile_radius c = Some p /\ h = factor * p) \/
  (style = "impacts"%string /\ exists d, k_floor_diameter c = Some (Some d) /\ h = sqrt factor * d / 2).

(** The closed lines of an outline: the boundary of a polygon, the boundaries of its holes, a
    line, and those of the parts of a collection. *)
Inductive ring_in (ring : list (R * R)) : geom -> Prop :=
| ring_exterior ints : ring_in ring (Polygon ring ints)
| ring_hole ext ints : In ring ints -> ring_in ring (Polygon ext ints)
| ring_line : ring_in ring (Line ring)
| ring_part gs g : In g gs -> ring_in ring g -> ring_in ring (Many gs).
