(** Property theorems about the size limits of a simulation (C74). *)
From Coq Require Import Reals.
From Verif Require Import Common Limits_model Limits_spec Limits_proofs.
Open Scope R_scope.

(** C74: after construction and any sequence of assignments to smallest_crater and
    largest_crater, both read back what was last asked for, raised to the smallest face size or
    lowered to the size of the target, for generators of craters and of projectiles. *)
Theorem C74_crater_limits_read_back C P rmin rmax : scaling_like C P -> 0 < rmin -> rmin <= rmax -> forall g c l,
  (forall a, In a l -> positive a) ->
  let r := fold_left (assign P rmin rmax g) l (construct C P rmin rmax g c) in
  let s := fold_left (asked rmin rmax) l (rmin, rmax) in
  smallest_crater C rmin rmax g r = fst s /\ largest_crater C rmin rmax g r = Some (snd s).
Proof. exact (limits_refine C P rmin rmax). Qed.
Print Assumptions C74_crater_limits_read_back.
(** C74: so they never leave the range from the smallest face to the target. *)
Theorem C74_within_surface rmin rmax l : forall s, rmin <= fst s -> snd s <= rmax ->
  rmin <= fst (fold_left (asked rmin rmax) l s) /\ snd (fold_left (asked rmin rmax) l s) <= rmax.
Proof. exact (asked_within rmin rmax l). Qed.
Print Assumptions C74_within_surface.
(** Projectiles that make craters of ten or a hundred times their size. *)
Example C74_scaling_case : scaling_like lim_C lim_P.
Proof. exact lim_like. Qed.
(** C74: with a generator of projectiles the projectile limits read back as well.  Missing:
    generators of craters (below). *)
Theorem C74_projectile_limits_partial P rmin rmax : forall r a b v w,
  d_lo r = a -> P Smallest rmin <= a -> d_hi r = Some b -> b <= P Largest rmax ->
  (let q := set_smallest_projectile P rmin rmax GProjectile v r in
   smallest_projectile P rmin rmax GProjectile q = Rmax v (P Smallest rmin) /\ largest_projectile P rmin rmax GProjectile q = Some b) /\
  (let q := set_largest_projectile P rmin rmax GProjectile w r in
   smallest_projectile P rmin rmax GProjectile q = a /\
   largest_projectile P rmin rmax GProjectile q = Some (match w with Some w => Rmin w (P Largest rmax) | None => P Largest rmax end)).
Proof. exact (projectile_limits P rmin rmax). Qed.
Print Assumptions C74_projectile_limits_partial.
(** C74 fails for smallest_projectile with a generator of craters: the projectile diameter is
    stored as a crater diameter.  500 reads back as 50 when craters are ten times as large. *)
Theorem C74_smallest_projectile_refuted :
  let r := set_smallest_projectile lim_P 100 10000 GCrater 500 (construct lim_C lim_P 100 10000 GCrater (mk_stored None None)) in
  smallest_projectile lim_P 100 10000 GCrater r = 50 /\ smallest_crater lim_C 100 10000 GCrater r = 500.
Proof. exact smallest_projectile_bad. Qed.
Print Assumptions C74_smallest_projectile_refuted.
(** C74 fails for largest_projectile with a generator of craters: the smallest crater becomes the
    diameter of the target, above the largest, which becomes the projectile of a 50 m crater. *)
Theorem C74_largest_projectile_refuted :
  let r := set_largest_projectile lim_P 100 10000 GCrater (Some 50) (construct lim_C lim_P 100 10000 GCrater (mk_stored None None)) in
  smallest_crater lim_C 100 10000 GCrater r = 10000 /\ largest_crater lim_C 100 10000 GCrater r = Some 0.5.
Proof. exact largest_projectile_case. Qed.
Print Assumptions C74_largest_projectile_refuted.
(** C74 fails for crossing limits: a smallest crater larger than the target is accepted. *)
Theorem C74_crossed_refuted :
  let r := set_smallest_crater lim_P 100 10000 GCrater 20000 (construct lim_C lim_P 100 10000 GCrater (mk_stored None None)) in
  smallest_crater lim_C 100 10000 GCrater r = 20000 /\ largest_crater lim_C 100 10000 GCrater r = Some 10000.
Proof. exact crossed_case. Qed.
Print Assumptions C74_crossed_refuted.
(** C74 fails when a simulation is resumed: the stored limits are assigned before the production
    object exists and are dropped without notice.  500 comes back as 100. *)
Theorem C74_resumed_limits_refuted :
  let r := set_smallest_crater lim_P 100 10000 GCrater 500 (construct lim_C lim_P 100 10000 GCrater (mk_stored None None)) in
  smallest_crater lim_C 100 10000 GCrater r = 500 /\
  smallest_crater lim_C 100 10000 GCrater (construct lim_C lim_P 100 10000 GCrater (to_stored lim_C 100 10000 GCrater r)) = 100.
Proof. exact resume_case. Qed.
Print Assumptions C74_resumed_limits_refuted.
