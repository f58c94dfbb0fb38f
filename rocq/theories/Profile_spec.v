(** Specification vocabulary for the profiles. *)
From Coq Require Import Reals.
From Verif Require Import Common Profile_model.
Open Scope R_scope.

(** A crater whose floor lies inside it and below its rim. *)
Definition admissible (p : shape) : Prop :=
  0 < diameter p /\ 0 < floor_diameter p < diameter p /\ floor_depth p < rim_height p.

(** All reference elevations equal [e]. *)
Definition flat (e : R) (pts : list (R * R)) : Prop := forall r h, In (r, h) pts -> h = e.

Definition non_negative_radii (pts : list (R * R)) : Prop := forall r h, In (r, h) pts -> 0 <= r.

(** [z] is the elevation computed for a point at distance [r] with reference [e]. *)
Definition entry (pts : list (R * R)) (out : list R) (r e z : R) : Prop :=
  exists i, nth_error pts i = Some (r, e) /\ nth_error out i = Some z.

(** [m] is the mean of a non-empty list of values. *)
Definition is_mean (l : list R) (m : R) : Prop :=
  l <> [] /\ m * INR (List.length l) = fold_right Rplus 0 l.

(** Reference elevations of the points inside the rim. *)
Definition inside_refs (radius : R) (pts : list (R * R)) : list R :=
  map snd (filter (fun p => if Rle_dec (fst p) radius then true else false) pts).

(** A root finder is sound when a root it reports as converged is a root in the
    bracket. *)
Definition good_root_finder (brentq : (R -> result R) -> R -> R -> R * bool) : Prop :=
  forall f a b x, brentq f a b = (x, true) -> (Rmin a b <= x <= Rmax a b) /\ f x = Ok 0.

(** Largest extent a feature may have: the truncation distance when there is a
    non-zero truncation factor, else half the circumference of the target. *)
Definition extent_limit (p : shape) (truncation : option R) (target_radius upper : R) : Prop :=
  match truncation with
  | Some k => (k <> 0 /\ upper = k * (diameter p / 2)) \/ (k = 0 /\ upper = PI * target_radius)
  | None => upper = PI * target_radius
  end.
