(** C14-C16 and C55-C57: production functions. *)
From Coq Require Import Reals QArith Qreals List Lra.
From Verif Require Import Common Prod_model Prod_spec Prod_proofs.
From Verif Require Run_spec.
Import ListNotations.
Open Scope R_scope.

(** C14: the chronology. *)
Theorem C14_chronology_laws : forall ce cl, 0 <= ce -> 0 < cl ->
  (forall ts te, te <= ts -> 0 <= chronology ce cl ts (Some te)) /\
  (forall t, chronology ce cl t (Some t) = 0) /\
  (forall t0 t1 t2, chronology ce cl t0 (Some t2) = chronology ce cl t0 (Some t1) + chronology ce cl t1 (Some t2)) /\
  (forall ts ts' te, ts < ts' -> chronology ce cl ts (Some te) < chronology ce cl ts' (Some te)) /\
  (forall ts, chronology ce cl ts None = chronology ce cl ts (Some 0)).
Proof. exact chronology_laws. Qed.
Print Assumptions C14_chronology_laws.
Example C14_coefficients : forall v, 0 <= Cexp_of (Clin_of v) v /\ 0 < Clin_of v.
Proof. intros v. split; [left; apply Cexp_pos|apply Clin_pos]. Qed.

(** C14: the number of craters of each version, for each size. *)
Theorem C14_number_laws : forall v D ts te n,
  0 < D < 1000000000 -> te <= ts -> neukum_number v D ts te n ->
  0 <= n /\ (te < ts -> 0 < n) /\ (ts = te -> n = 0) /\
  (forall tm m k, te <= tm <= ts -> neukum_number v D ts tm m -> neukum_number v D tm te k -> n = m + k) /\
  (forall D' n', 0 < D' < D -> te < ts -> neukum_number v D' ts te n' -> n < n').
Proof. exact number_laws. Qed.
Print Assumptions C14_number_laws.
Example C14_number_case : exists n, neukum_number Projectile 5 100 10 n.
Proof. apply number_exists. lra. Qed.

(** C14: the age computed from a number is the age that produced it, and numbers beyond
    those of the oldest valid age are rejected. *)
Theorem C14_age_inverse : forall v c D, 0 < D < 1000000000 -> csfd v D (Ok c) ->
  (forall t, 0 <= t <= 4500 ->
    (exists r, age_from_D_N (fun _ t => c * chron_of v t) (Some 0) (Some 4500) D (c * chron_of v t) r) /\
    forall r, age_from_D_N (fun _ t => c * chron_of v t) (Some 0) (Some 4500) D (c * chron_of v t) r -> r = Ok t) /\
  (forall n, c * chron_of v 4500 < n ->
    forall r, age_from_D_N (fun _ t => c * chron_of v t) (Some 0) (Some 4500) D n r -> r = Err ValueError).
Proof. exact age_roundtrip. Qed.
Print Assumptions C14_age_inverse.
Example C14_age_case : csfd Moon 1000 (Ok (Clin_of Moon * 1000)).
Proof. apply csfd_1km. discriminate. Qed.

(** C14: ... and so is the diameter. *)
Theorem C14_diameter_inverse : forall v ts te D,
  v <> Projectile -> te < ts -> 1 / 1000000 <= D <= 1000000 ->
  let N := fun d => crater_csfd v d * (chron_of v ts - chron_of v te) in
  (exists r, D_from_N_age N (N D) r) /\ forall r, D_from_N_age N (N D) r -> r = Ok D.
Proof. exact D_roundtrip. Qed.
Print Assumptions C14_diameter_inverse.

(** C14: the crater versions meet everything that C09-C11 assume of a production function. *)
Theorem C14_good_for_runs : forall v age_of area, 0 < area ->
  (forall D n, age_from_D_N (fun D t => crater_csfd v D * chron_of v t) (Some 0) (Some 4500) D n (age_of D n)) ->
  Run_spec.good_production (crater_csfd v) (chron_of v) age_of area.
Proof. exact neukum_good. Qed.
Print Assumptions C14_good_for_runs.
Example C14_solver : forall v D n,
  age_from_D_N (fun D t => crater_csfd v D * chron_of v t) (Some 0) (Some 4500) D n (solver v D n).
Proof. exact solver_ok. Qed.

(** C15, as long as no coefficient is used before the last assignment of a version. *)
Theorem C15_coefficients_partial : forall v l1 l2,
  forallb (fun o => negb (is_read o)) l1 = true -> forallb is_read l2 = true ->
  forall ts te, let w := last_version v (l1 ++ l2) in
  fst (read_chronology ts te (neukum_history v (l1 ++ l2))) =
    chronology (Cexp_of (Clin_of w) w) (Clin_of w) ts te.
Proof. exact used_follow. Qed.
Print Assumptions C15_coefficients_partial.
Example C15_case : forallb (fun o => negb (is_read o)) [SetVersion Mars] = true /\
  forallb is_read [ReadClin; ReadChronology 10 None] = true /\
  last_version Moon ([SetVersion Mars] ++ [ReadClin; ReadChronology 10 None]) = Mars.
Proof. repeat split. Qed.
(** The exact behaviour after the chronology has been used once: whatever is assigned or
    read later, the coefficients stay those of that moment. *)
Theorem C15_frozen_partial : forall v l ts te l' ts' te',
  fst (read_chronology ts' te' (neukum_history v (l ++ ReadChronology ts te :: l'))) =
  let w := neukum_history v (l ++ [ReadChronology ts te]) in fst (read_chronology ts' te' w).
Proof. exact frozen_chronology. Qed.
Print Assumptions C15_frozen_partial.
(** FINDING: evaluate for the Moon, select Mars: lunar coefficients remain in use. *)
Theorem C15_stale_refuted : exists ts,
  let p := neukum_history Moon [ReadChronology 1000 None; SetVersion Mars] in
  ver p = Mars /\ fst (read_chronology ts None p) <> chronology (Cexp_of (Clin_of Mars) Mars) (Clin_of Mars) ts None.
Proof. exact stale. Qed.
Print Assumptions C15_stale_refuted.

(** C16 *)
Theorem C16_powerlaw_laws : forall p, 0 < N1_coef p -> slope p < 0 ->
  (forall D ts te, pl_function p D ts (Some te) = N1_coef p * Rpower D (slope p) * (ts - te)) /\
  (forall D ts, pl_function p D ts None = pl_function p D ts (Some 0)) /\
  (forall a b ts te, 0 < a < b -> te < ts -> pl_function p b ts (Some te) < pl_function p a ts (Some te)) /\
  (forall D t0 t1 t2, pl_function p D t0 (Some t2) = pl_function p D t0 (Some t1) + pl_function p D t1 (Some t2)) /\
  (forall D t, pl_function p D t (Some t) = 0).
Proof. exact pl_laws. Qed.
Print Assumptions C16_powerlaw_laws.
(** ... whatever sign convention the slope is given in when constructing. *)
Theorem C16_constructor : forall g n1 sl p, new_powerlaw g n1 sl = Ok p ->
  0 <= N1_coef p /\ slope p <= 0 /\ (sl <> Some 0 -> slope p < 0) /\
  (forall n, n1 = Some n -> N1_coef p = n) /\ (forall s, sl = Some s -> slope p = - Rabs s).
Proof. exact new_powerlaw_ok. Qed.
Print Assumptions C16_constructor.
Example C16_case : exists p, new_powerlaw GCrater None (Some 2) = Ok p /\ 0 < N1_coef p /\ slope p = -2.
Proof.
  unfold new_powerlaw. destruct (Rlt_dec _ 0); [lra|]. destruct (Rlt_dec 0 2); [|lra].
  eexists. split; [reflexivity|]. simpl. lra.
Qed.
(** FINDING: the chronology does not depend on time at all. *)
Theorem C16_chronology_refuted : forall p ts te ts' te',
  pl_chronology p ts te = pl_chronology p ts' te'.
Proof. exact pl_chronology_constant. Qed.
Print Assumptions C16_chronology_refuted.
(** FINDING: assigning a positive slope is not normalised as the constructor does, and
    then the number of craters grows with size. *)
Theorem C16_slope_setter_refuted : exists p a b, new_powerlaw GCrater (Some 1) (Some 2) = Ok p /\
  0 < a < b /\ pl_function (set_slope 2 p) a 1 None < pl_function (set_slope 2 p) b 1 None.
Proof.
  unfold new_powerlaw. destruct (Rlt_dec 1 0); [lra|]. eexists. exists 1, 10. split; [reflexivity|].
  split; [lra|]. unfold pl_function, pl_csfd, pow, set_slope. simpl.
  replace 2 with (INR 2) by (simpl; lra). rewrite !Rpower_pow by lra. simpl. lra.
Qed.
Print Assumptions C16_slope_setter_refuted.

(** C55: exact relation between the number of craters larger than 1 km and the chronology:
    a spurious factor of 1000 * 10^a0. *)
Theorem C55_normalisation_partial : forall v ts te n, v <> Projectile -> neukum_number v 1000 ts te n ->
  n = Clin_of v * 1000 * (standard_N1 v ts - standard_N1 v te).
Proof. exact number_1km. Qed.
Print Assumptions C55_normalisation_partial.
(** FINDING: for the Moon the number is about 18% too small, at every age. *)
Theorem C55_normalisation_refuted : forall t n, 0 < t -> neukum_number Moon 1000 t 0 n ->
  8 / 10 * standard_N1 Moon t < n < 82 / 100 * standard_N1 Moon t.
Proof. exact not_normalised. Qed.
Print Assumptions C55_normalisation_refuted.
Example C55_case : exists n, neukum_number Moon 1000 100 0 n.
Proof. apply number_exists. lra. Qed.

(** C56: the size distributions. *)
Theorem C56_defined : forall v D, 0 < D -> exists n, csfd v D (Ok n).
Proof. exact csfd_total. Qed.
Print Assumptions C56_defined.
Theorem C56_deterministic : forall v D r s, csfd v D r -> csfd v D s -> r = s.
Proof. exact csfd_det. Qed.
Print Assumptions C56_deterministic.
Theorem C56_positive : forall v D n, 0 < D < 1000000000 -> csfd v D (Ok n) -> 0 < n.
Proof. exact csfd_pos. Qed.
Print Assumptions C56_positive.
Theorem C56_decreasing : forall v a b n m, 0 < a < b -> a < 1000000000 ->
  csfd v a (Ok n) -> csfd v b (Ok m) -> m < n.
Proof. exact csfd_decreases. Qed.
Print Assumptions C56_decreasing.
Theorem C56_continuous : forall v D, 0 < D -> continuity_pt (CSFD v) D.
Proof. exact CSFD_continuous. Qed.
Print Assumptions C56_continuous.
Example C56_case : exists n m, csfd Projectile 1 (Ok n) /\ csfd Projectile 2 (Ok m) /\ m < n.
Proof.
  destruct (csfd_total Projectile 1 ltac:(lra)) as (n & N). destruct (csfd_total Projectile 2 ltac:(lra)) as (m & M).
  exists n, m. split; [exact N|]. split; [exact M|].
  apply (csfd_decreases Projectile 1 2); auto; lra.
Qed.
(** FINDING: a diameter of zero is accepted (only negative ones are rejected), but the
    bin summation of the projectile version never ends. *)
Theorem C56_zero_endless_refuted : forall fuel, R_to_CSFD (CSFD Projectile) 1000000 fuel (0 / 1000) = None.
Proof.
  intros fuel. replace (0 / 1000) with 0 by field. apply sum_zero. lra.
Qed.
Print Assumptions C56_zero_endless_refuted.

(** C57: the log-log slope below and inside the range of the table. *)
Theorem C57_slope_below_partial : forall v D, 0 < D < sfd_lo v / 1000 ->
  loglog_slope (CSFD v) D (dNdD v (sfd_lo v / 1000)).
Proof. exact slope_below. Qed.
Print Assumptions C57_slope_below_partial.
(** FINDING: the Moon's distribution is extrapolated below 10 m with a slope steeper than
    -3.32, although it has a slope above -3.2 there. *)
Theorem C57_kink_refuted :
  (forall D s, 0 < D < 1 / 100 -> loglog_slope (CSFD Moon) D s -> s < - (332 / 100)) /\
  (forall D s, 1 / 100 < D < 102 / 10000 -> loglog_slope (CSFD Moon) D s -> - (32 / 10) < s).
Proof. exact kink. Qed.
Print Assumptions C57_kink_refuted.
Example C57_case : exists s, loglog_slope (CSFD Moon) (101 / 10000) s.
Proof. eexists. apply slope_inside. simpl. lra. Qed.
