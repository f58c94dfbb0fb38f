(** Property theorems about degradation by small craters (C77, C78). *)
From Coq Require Import Reals.
From Verif Require Import Common RSum Degrade_model Degrade_spec Degrade_func Degrade_proofs Degrade_cases.
Open Scope R_scope.

(** C77: the degradation a crater causes is positive, and grows with its diameter: between any
    two diameters it behaves like a power law with an exponent between 1.2 and 2. *)
Theorem C77_grows_with_size fe d1 d2 : 0 < d1 -> d1 < d2 ->
  0 < degradation_function d1 fe /\
  Rpower (d2 / d1) 1.2 < degradation_function d2 fe / degradation_function d1 fe < Rpower (d2 / d1) 2.
Proof. exact (fun A B => conj (deg_pos d1 fe A) (deg_slope d1 d2 fe A B)). Qed.
Print Assumptions C77_grows_with_size.
Example C77_sizes : 0 < 1 /\ 1 < 1000.
Proof. split; [exact Rlt_0_1|apply (IZR_lt 1 1000); reflexivity]. Qed.
(** C77: spreading the degradation over a [c] times larger region divides it by c^(10/3). *)
Theorem C77_region_size d fe c : 0 < d -> 0 < fe -> 0 < c ->
  degradation_function d (c * fe) = Rpower c (- (10 / 3)) * degradation_function d fe.
Proof. exact (deg_fe d fe c). Qed.
Print Assumptions C77_region_size.
(** C77 fails for small craters, for which the function is documented to be that of Minton et al.
    (2019): it is more than 11 % smaller for every diameter, and the difference does not vanish
    for small diameters (the prefactor divides by 1.4 squared where the smoothed power law needs
    2 to the power 0.8). *)
Theorem C77_small_craters_refuted :
  (forall d fe, 0 < d -> degradation_function d fe < 0.89 * minton (d / 2) fe) /\
  (forall d fe, 0 < d -> d <= 1 -> 0.88 * minton (d / 2) fe < degradation_function d fe).
Proof. exact (conj deg_below deg_close). Qed.
Print Assumptions C77_small_craters_refuted.

(** C78: whatever calls are made, each face has received, together with what waits to be applied,
    the degradation asked for by all calls, once (amounts below the smallest positive float may
    be dropped, once per call). *)
Theorem C78_applied_once quad number vsmall : integral quad -> produces number -> 0 < vsmall -> forall u, mesh_ok u ->
  forall l i d, only_degrades l -> (i < List.length (s_area u))%nat -> bin_size u i d ->
  let s := run quad number vsmall l (fresh u) in
  applied s i + pending s i <= requested quad number l d <= applied s i + pending s i + INR (List.length l) * vsmall.
Proof. exact (applied_once quad number vsmall). Qed.
Print Assumptions C78_applied_once.
(** C78: a final application leaves nothing waiting. *)
Theorem C78_nothing_left quad number vsmall : integral quad -> produces number -> 0 < vsmall -> forall u, mesh_ok u ->
  forall l i, only_degrades l -> pending (run quad number vsmall (l ++ [Apply]) (fresh u)) i = 0.
Proof. exact (apply_ends quad number vsmall). Qed.
Print Assumptions C78_nothing_left.
(** C78: what waits on a face never exceeds its area. *)
Theorem C78_waiting_below_area quad number vsmall : integral quad -> produces number -> 0 < vsmall -> forall u, mesh_ok u ->
  forall l a b i, only_degrades l -> b < a -> (i < List.length (s_area u))%nat ->
  let '(s, e) := compute quad number vsmall a b (run quad number vsmall l (fresh u)) in e = None /\ 0 <= pending s i <= nth i (s_area u) 0.
Proof. exact (below_area quad number vsmall). Qed.
Print Assumptions C78_waiting_below_area.
(** C78: the amount does not depend on how a period is divided, and larger faces get at least as
    much as smaller ones. *)
Theorem C78_amounts quad number : integral quad -> produces number -> forall t v w d d',
  amount quad number t w d = amount quad number t v d + amount quad number v w d /\
  (v < t -> 1e-8 <= d -> d <= d' -> 0 <= amount quad number t v d <= amount quad number t v d').
Proof. exact (fun Q P t v w d d' => conj (amount_split quad number Q P t v w d) (amount_mono quad number Q P t v d d')). Qed.
Print Assumptions C78_amounts.
(** C78: a period that does not go forward is refused and changes nothing. *)
Theorem C78_backward_refused quad number vsmall a b s : a <= b -> compute quad number vsmall a b s = (s, Some ValueError).
Proof. exact (backward_refused quad number vsmall a b s). Qed.
Print Assumptions C78_backward_refused.
Example C78_case v : integral w_quad /\ produces w_number /\ mesh_ok w_surf /\ bin_size w_surf 0 1 /\
  run w_quad w_number v [Compute 2 1] (fresh w_surf) = mk_d w_surf (Some [0 + w_amount]) [] /\ 0 < w_amount.
Proof. exact (conj w_integral (conj w_produces (conj w_mesh (conj w_bin (conj (w_one v) w_amount_pos))))). Qed.
(** C78 fails across a reset: degradation that waits when the simulation is reset (because an
    emplacement was interrupted) is applied to the new surface. *)
Theorem C78_survives_reset_refuted : 0 < w_amount /\ forall v, v <= w_amount ->
  applied (run w_quad w_number v [Compute 2 1; Reset; Apply] (fresh w_surf)) 0 = w_amount /\
  applied (run w_quad w_number v [Reset; Apply] (fresh w_surf)) 0 = 0.
Proof. exact (conj w_amount_pos w_reset). Qed.
Print Assumptions C78_survives_reset_refuted.
(** C78 fails when the surface is replaced by one of another size while degradation waits: from
    then on every call raises and nothing is ever applied. *)
Theorem C78_other_surface_refuted v l o : only_degrades (l ++ [o]) ->
  let s := run w_quad w_number v l (run w_quad w_number v [Compute 2 1; SetSurface w_surf2] (fresh w_surf)) in
  snd (step w_quad w_number v o s) <> None /\ (forall i, applied s i = 0).
Proof. exact (w_stuck v l o). Qed.
Print Assumptions C78_other_surface_refuted.
