(** C93: the theorems.  See Populate_spec for the vocabulary. *)
From Coq Require Import Reals List Permutation Lra.
From Verif Require Import Common Run_spec Region_spec Populate_model Populate_spec Populate_proofs Populate_loop Populate_cases Populate_total.
From Verif Require Run_model Run_proofs Limits_model Limits_spec Limits_proofs Region_model.
Import ListNotations.
Open Scope R_scope.

Section Props.
Context {C L : Type}.
Context (csfd chron : R -> R) (age_of : R -> R -> result R) (tlo thi : option R) (Dconv Nconv : R).
Context (g : Limits_model.generator) (r : Limits_model.range)
  (crater_of projectile_of : Limits_model.limit -> R -> R) (size_lo size_hi : R).
Context (areas : list R).
Context (poisson : nat -> R -> nat) (sizes : nat -> nat -> R -> option R -> list R)
  (times : nat -> R -> R -> list R -> list R) (pick : nat -> nat -> R) (spot : nat -> nat -> nat -> L).
Context (make : L -> R -> R -> result C) (ctime : C -> R) (merge : option (R -> R -> list C -> list C))
  (emplace : list C -> result (list C)).
Notation crater_list := (crater_list csfd chron age_of tlo thi Dconv Nconv g r crater_of projectile_of size_lo size_hi areas poisson sizes times pick spot make ctime merge).
Notation populate := (populate csfd chron age_of tlo thi Dconv Nconv g r crater_of projectile_of size_lo size_hi areas poisson sizes times pick spot make ctime merge emplace).

(** C93: the population.  Every face is in one bin; in each bin the number of impacts is drawn
    for the density of the period asked for (the same in all bins) times the area of the bin,
    at the smallest size allowed there; there is one crater for each impact, in order of
    decreasing time (then merged with the user's craters when that is on). *)
Theorem C93_population fits inside cur a l :
  good_production csfd chron age_of (total areas) -> good_draws sizes times pick spot fits inside ->
  (forall f, In f areas -> 0 < f) ->
  (g = Limits_model.GProjectile -> forall d e, 0 < d -> d <= e -> projectile_of Limits_model.Smallest d <= projectile_of Limits_model.Smallest e) ->
  crater_list cur a = Ok l ->
  exists ts te bins parts cs,
    period csfd chron (total areas) Dconv Nconv cur a ts te /\
    Permutation (List.concat bins) (seq 0 (List.length areas)) /\ List.length parts = List.length bins /\
    (forall i faces part, nth_error bins i = Some faces -> nth_error parts i = Some part ->
       bin_impacts areas csfd chron (poisson i) fits inside
         (least g (projectile_of Limits_model.Smallest) size_lo (Limits_model.d_lo r)) (Limits_model.d_hi r) ts te faces part) /\
    Forall2 (fun x c => make (im_loc x) (im_time x) (im_diam x) = Ok c) (List.concat parts) cs /\
    exists sorted, Permutation cs sorted /\ oldest_first ctime sorted /\
    l = match merge with Some m => m ts te sorted | None => sorted end.
Proof. exact (population_all csfd chron age_of tlo thi Dconv Nconv g r crater_of projectile_of size_lo size_hi areas poisson sizes times pick spot make ctime merge fits inside cur a l). Qed.

(** C93: all of it is emplaced, by one call; without a crater nothing is. *)
Theorem C93_emplaced cur a : populate false cur a =
  match crater_list cur a with Err e => Err e | Ok [] => Ok [] | Ok l => emplace l end.
Proof. exact (populated csfd chron age_of tlo thi Dconv Nconv g r crater_of projectile_of size_lo size_hi areas poisson sizes times pick spot make ctime merge emplace cur a). Qed.

(** C93: populating succeeds when the arguments are accepted, the faces are not all of areas a
    power of two apart (C48) and the largest size is not below that of a face.  Missing: the
    other cases, where it fails (C48 and below). *)
Theorem C93_succeeds_partial cur a p s b :
  good_production csfd chron age_of (total areas) -> solver_complete csfd chron age_of thi -> (forall i k, 0 <= pick i k < 1) -> (forall l t d, exists c, make l t d = Ok c) ->
  smallest areas s -> largest areas b -> 0 < s -> (forall k : nat, b <> s * 2 ^ k) ->
  (forall h f, Limits_model.d_hi r = Some h -> In f areas -> least g (projectile_of Limits_model.Smallest) size_lo (Limits_model.d_lo r) (sqrt f) <= h) ->
  (forall d, 0 < d -> 0 < projectile_of Limits_model.Smallest d) ->
  Run_model.validate_run_args csfd chron age_of tlo thi (total areas) Dconv Nconv cur a = Ok p ->
  exists l, crater_list cur a = Ok l.
Proof. exact (succeeds csfd chron age_of tlo thi Dconv Nconv g r crater_of projectile_of size_lo size_hi areas poisson sizes times pick spot make ctime merge cur a p s b). Qed.

(** C93 fails on a surface with faces larger than the largest crater asked for: nothing is
    formed anywhere, an exception is raised. *)
Theorem C93_coarse_faces_refuted cur a bins faces h : g = Limits_model.GCrater -> Region_model.face_bins areas = Ok bins -> In faces bins ->
  (forall f, In f faces -> 0 <= nth f areas 0) ->
  Limits_model.d_hi r = Some h -> (forall f, In f faces -> h < sqrt (nth f areas 0)) -> faces <> [] ->
  exists e, crater_list cur a = Err e.
Proof. exact (coarse csfd chron age_of tlo thi Dconv Nconv g r crater_of projectile_of size_lo size_hi areas poisson sizes times pick spot make ctime merge cur a bins faces h). Qed.

(** C93 fails for the documented craters argument: either an exception is raised or, when no
    crater was drawn, the given craters are dropped and [] is returned. *)
Theorem C93_craters_keyword_refuted cur a l : populate true cur a = Ok l -> l = [].
Proof. exact (keyword csfd chron age_of tlo thi Dconv Nconv g r crater_of projectile_of size_lo size_hi areas poisson sizes times pick spot make ctime merge emplace cur a l). Qed.
End Props.
Print Assumptions C93_population.
Print Assumptions C93_emplaced.
Print Assumptions C93_succeeds_partial.
Print Assumptions C93_coarse_faces_refuted.
Print Assumptions C93_craters_keyword_refuted.
Example C93_case : good_production Run_proofs.csfd0 Run_proofs.chron0 Run_proofs.age0 (total ex_areas) /\
  good_draws ex_sizes ex_times (fun _ _ => 1 / 2) (fun _ _ f => f) ex_fits (fun f l => f = l) /\ (forall f, In f ex_areas -> 0 < f) /\
  exists l, crater_list Run_proofs.csfd0 Run_proofs.chron0 Run_proofs.age0 None None 1 1 Limits_model.GCrater ex_range ex_same ex_same 0.5 100
    ex_areas (fun _ _ => 2%nat) ex_sizes ex_times (fun _ _ => 1 / 2) (fun _ _ f => f) ex_make ex_ctime None None ex_args = Ok l.
Proof. exact (conj ex_production (conj ex_good_draws (conj ex_positive ex_succeeds))). Qed.
Example C93_succeeds_case : solver_complete Run_proofs.csfd0 Run_proofs.chron0 Run_proofs.age0 None /\
  exists p, Run_model.validate_run_args Run_proofs.csfd0 Run_proofs.chron0 Run_proofs.age0 None None (total ex_areas) 1 1 None ex_args = Ok p.
Proof. exact (conj ex_solver ex_plan). Qed.
(** Faces of size 1 and 3 and no crater above 2: those of 1 to 2 would fit the first face. *)
Example C93_coarse_case : Region_model.face_bins [1; 9] = Ok [[0]; [1]]%nat /\ 2 < sqrt (nth 1 [1; 9] 0).
Proof. split; [exact log9 |]. cbn. replace 9 with (3 * 3) by lra. rewrite sqrt_square; lra. Qed.

(** With craters drawn the exception is a TypeError. *)
Example C93_keyword_case : populate Run_proofs.csfd0 Run_proofs.chron0 Run_proofs.age0 None None 1 1 Limits_model.GCrater ex_range ex_same ex_same 0.5 100
  ex_areas (fun _ _ => 2%nat) ex_sizes ex_times (fun _ _ => 1 / 2) (fun _ _ f => f) ex_make ex_ctime None (fun l => Ok l) true None ex_args = Err TypeError.
Proof. exact ex_keyword. Qed.

(** C93: within a bin, the share of the draws that pick a face is its share of the area; so the
    expected number on a face is the density times its area. *)
Theorem C93_face_share areas faces f : NoDup faces -> (forall f, In f faces -> 0 <= nth f areas 0) -> 0 < bin_area areas faces -> In f faces ->
  exists a b, 0 <= a <= b /\ b <= 1 /\ b - a = nth f areas 0 / area_of areas faces /\
    forall u, 0 <= u < 1 -> (choose faces (map (fun a => a / bin_area areas faces) (areas_of areas faces)) u = Ok f <-> a <= u < b).
Proof. exact (choose_share areas faces f). Qed.
Print Assumptions C93_face_share.
Example C93_share_case : NoDup [0; 1]%nat /\ 0 < bin_area [1; 1.5; 3] [0; 1]%nat.
Proof. split; [repeat constructor; cbn; intuition discriminate | cbn; lra]. Qed.

(** C93 fails for a generator of projectiles: those below the projectile that makes a crater of
    the size of a face in a slow grazing impact are never drawn, although at the speeds and
    angles the code itself uses for the largest crater they make craters larger than a face. *)
Theorem C93_fast_projectiles_refuted crater_of projectile_of size_lo size_hi areas faces dmin s p : Limits_spec.scaling_like crater_of projectile_of -> 0 < s -> size_lo <= s ->
  smallest_size areas faces s -> faces <> [] -> (forall f, In f faces -> 0 <= nth f areas 0) ->
  projectile_of Limits_model.Largest s <= p -> p < projectile_of Limits_model.Smallest s ->
  s <= crater_of Limits_model.Largest p /\ p < Rmax (own_min Limits_model.GProjectile projectile_of size_lo size_hi areas faces) dmin.
Proof. exact (fast_missed_faces crater_of projectile_of size_lo size_hi areas faces dmin s p). Qed.
Print Assumptions C93_fast_projectiles_refuted.
(** Craters ten times the projectile at slow, a hundred times at fast impacts: with faces of
    size 100, projectiles of 1 to 10. *)
Example C93_fast_case : Limits_spec.scaling_like Limits_proofs.lim_C Limits_proofs.lim_P /\
  Limits_proofs.lim_P Limits_model.Largest 100 <= 5 < Limits_proofs.lim_P Limits_model.Smallest 100.
Proof. split; [exact Limits_proofs.lim_like | unfold Limits_proofs.lim_P; lra]. Qed.
