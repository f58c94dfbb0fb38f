(** Model of the size limits of a simulation: cratermaker/core/simulation.py,
    _get_diameter_limit (1392-1453), smallest_crater, largest_crater, smallest_projectile and
    largest_projectile (1615-1740), and the part of __init__ that sets them (69-244).
    Simplifications: floats are reals, with [None] for infinity; the crater made by a
    projectile and the projectile that makes a crater, at the slow grazing ("smallest") or
    fast vertical ("largest") impact that _get_diameter_limit uses, are arguments. *)
From Coq Require Import Reals.
From Verif Require Import Common.
Open Scope R_scope.

Inductive limit := Smallest | Largest.
(** production.generator_type *)
Inductive generator := GCrater | GProjectile.
(** production.diameter_range (production/__init__.py:1331-1347) *)
Record range := mk_range { d_lo : R; d_hi : option R }.
Definition default_range : range := mk_range 0 None.

Section Limits.
(** Crater.maker(projectile_diameter=...).diameter and Crater.maker(diameter=...).projectile_diameter
    at the angle and velocity of the limit: 1415-1436, 1447-1452. *)
Context (crater_of projectile_of : limit -> R -> R).
(** max_crater_diameter_range after construction: the smallest face size and the diameter of the
    target (229). *)
Context (rmin rmax : R).

(** min(x, y) where x may be infinite. *)
Definition min_inf (x : option R) (y : R) : R := match x with Some x => Rmin x y | None => y end.
(** _get_diameter_limit(limit, projectile_diameter=p): 1430-1440 *)
Definition crater_limit (l : limit) (p : R) : R :=
  match l with Smallest => Rmax (crater_of l p) rmin | Largest => Rmin (crater_of l p) rmax end.
(** _get_diameter_limit(limit, crater_diameter=d): 1442-1453; d is infinite only for the largest. *)
Definition projectile_limit (l : limit) (d : option R) : R :=
  match l with
  | Smallest => projectile_of l (match d with Some d => Rmax d rmin | None => 0 end)
  | Largest => projectile_of l (min_inf d rmax)
  end.

(** 1615-1629 *)
Definition smallest_crater (g : generator) (r : range) : R :=
  match g with
  | GCrater => d_lo r
  | GProjectile => if Rlt_dec 0 (d_lo r) then crater_limit Smallest (d_lo r) else d_lo r
  end.
(** 1631-1647 *)
Definition set_smallest_crater (g : generator) (v : R) (r : range) : range :=
  match g with
  | GCrater => mk_range (Rmax v rmin) (Some (min_inf (d_hi r) rmax))
  | GProjectile => mk_range (projectile_limit Smallest (Some v)) (Some (min_inf (d_hi r) (projectile_limit Smallest (Some rmax))))
  end.
(** 1649-1663 *)
Definition largest_crater (g : generator) (r : range) : option R :=
  match g with
  | GCrater => d_hi r
  | GProjectile => match d_hi r with Some p => Some (crater_limit Largest p) | None => None end
  end.
(** 1665-1681 *)
Definition set_largest_crater (g : generator) (v : option R) (r : range) : range :=
  match g with
  | GCrater => mk_range (Rmax (d_lo r) rmin) (Some (min_inf v rmax))
  | GProjectile => mk_range (Rmax (d_lo r) (projectile_limit Largest (Some rmin))) (Some (projectile_limit Largest v))
  end.
(** 1683-1694 *)
Definition smallest_projectile (g : generator) (r : range) : R :=
  match g with
  | GProjectile => d_lo r
  | GCrater => projectile_limit Smallest (Some (d_lo r))
  end.
(** 1696-1709 *)
Definition set_smallest_projectile (g : generator) (v : R) (r : range) : range :=
  match g with
  | GProjectile => mk_range (Rmax v (projectile_limit Smallest (Some rmin))) (Some (min_inf (d_hi r) (projectile_limit Largest (Some rmax))))
  | GCrater => mk_range (Rmax v (d_lo r)) (Some (min_inf (d_hi r) rmax))
  end.
(** 1711-1722 *)
Definition largest_projectile (g : generator) (r : range) : option R :=
  match g with
  | GProjectile => d_hi r
  | GCrater => Some (projectile_limit Largest (d_hi r))
  end.
(** 1724-1740 *)
Definition set_largest_projectile (g : generator) (v : option R) (r : range) : range :=
  match g with
  | GProjectile => mk_range (Rmax (d_lo r) (projectile_limit Smallest (Some rmin))) (Some (min_inf v (projectile_limit Largest (Some rmax))))
  | GCrater => mk_range (Rmax (d_lo r) rmax) (Some (projectile_limit Largest v))
  end.

(** The parameters of the stored configuration, as _set_properties assigns them (137-148) before
    the production object exists (169): the setters return at once (1633-1634, 1667-1668). *)
Record stored := mk_stored { st_smallest_crater : option R; st_largest_crater : option R }.
Definition assign_stored (c : stored) (r : range) : range := r.
(** __init__, the diameter range of the production object: 169, 229-231.  Python's min keeps
    the first of equal arguments. *)
Definition construct (g : generator) (c : stored) : range :=
  let r := assign_stored c default_range in
  let r := set_smallest_crater g (Rmax (smallest_crater g r) rmin) r in
  set_largest_crater g (Some (min_inf (largest_crater g r) rmax)) r.
(** to_config (1277-1321): both limits, set during construction, are written. *)
Definition to_stored (g : generator) (r : range) : stored := mk_stored (Some (smallest_crater g r)) (largest_crater g r).
End Limits.
