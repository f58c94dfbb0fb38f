(** C12, C13 and C54: formation times and merging of user craters. *)
From Coq Require Import Reals List Permutation Lra Lia.
From Verif Require Import Common Times_model Times_spec Times_proofs Run_spec.
Import ListNotations.
Open Scope R_scope.

(** C12: the result consists of the generated craters that were kept and of every user
    crater of the window, each exactly once and nothing else; each dropped crater was
    replaced by its own user crater, one not larger than it; a user crater that
    replaced nothing is larger than every crater kept; oldest first. *)
Theorem C12_merge_exactly_once :
  forall F num ts te l draws users,
  (2 <= num)%nat -> te <= ts -> unit_draws draws ->
  (forall g t, In g l -> gtime g = Some t -> te < t <= ts) ->
  exists inside replacing free kept dropped,
    window_of ts te users inside /\
    Permutation inside (replacing ++ free) /\
    Permutation (map (fun c => (cid c, diam c)) (kept ++ dropped)) (map (fun g => (gid g, gdiam g)) l) /\
    (forall g t, In g l -> gtime g = Some t -> In (mkCrater (gid g) (gdiam g) t) (kept ++ dropped)) /\
    Forall (fun c => te <= ctime c <= ts) kept /\
    Permutation (quasimc_merge F num ts te l draws users) (kept ++ inside) /\
    Forall2 (fun q c => diam q <= diam c) replacing dropped /\
    (forall q c, In q free -> In c kept -> diam c < diam q) /\
    List.length (quasimc_merge F num ts te l draws users) = (List.length l + List.length free)%nat /\
    decreasing (map ctime (quasimc_merge F num ts te l draws users)).
Proof. exact merged. Qed.
Print Assumptions C12_merge_exactly_once.
(** Two generated craters (one without a time), three user craters of which two are in
    the window; one of them replaces the larger generated crater. *)
Example C12_case :
  unit_draws draws0 /\
  List.length (quasimc_merge (fun _ t => t) 1000 10 0 gens0 draws0 users0) = 3%nat.
Proof. split; [exact draws0_ok|]. apply case0. lia. Qed.

(** C12 over a whole run: whatever is generated in each of the consecutive periods, every
    user crater of the total window is merged exactly once. *)
Theorem C12_each_user_crater_once_per_run :
  forall F num users l ts te gens draws,
  tiles ts te l ->
  (forall i u, In u users -> ~ In (cid u) (map gid (gens i))) ->
  exists inside, window_of ts te users inside /\
  Permutation (filter (is_user users) (merges F num l gens draws users)) inside.
Proof. exact merged_over_run. Qed.
Print Assumptions C12_each_user_crater_once_per_run.
Example C12_run_case : tiles 10 0 [(10, 5); (5, 0)] /\
  (forall i u, In u users0 -> ~ In (cid u) (map gid ((fun _ : nat => gens0) i))).
Proof.
  split.
  - apply tiles_cons; [lra|]. apply tiles_last. lra.
  - intros _ u [<-|[<-|[<-|[]]]]; simpl; lia.
Qed.

(** C13: one time per crater, in the window, oldest first. *)
Theorem C13_times_in_window :
  forall F num ts te diams draws, (2 <= num)%nat -> te <= ts -> unit_draws draws ->
  List.length (compute_time F num ts te diams draws) = List.length diams /\
  Forall (within ts te) (compute_time F num ts te diams draws) /\
  decreasing (compute_time F num ts te diams draws).
Proof. exact times_ok. Qed.
Print Assumptions C13_times_in_window.
Example C13_case : List.length (compute_time (fun _ t => t) 1000 10 0 [1; 2; 3] draws0) = 3%nat.
Proof. apply (times_ok (fun _ t => t) 1000 10 0 [1; 2; 3] draws0); [lia|lra|exact draws0_ok]. Qed.

(** C54: the exact share of the draws that fall in each subinterval [t_i, t_(i+1)] of the
    window: it is proportional to N(t_(i+1)) - N(t_0).  The chronology would demand
    N(t_(i+1)) - N(t_i). *)
Theorem C54_share_partial :
  forall F num ts te D, (3 <= num)%nat -> te < ts -> increasing_on te ts (F D) ->
  forall i, (i < num - 2)%nat ->
  share (chosen F num ts te D) i
    ((F D (grid num ts te (S i)) - F D (grid num ts te 0)) /
     RSum.fsum (num - 1) (fun j => F D (grid num ts te j) - F D (grid num ts te 0))).
Proof. exact chosen_share. Qed.
Print Assumptions C54_share_partial.
(** ... the draw decides the subinterval in which the time lies. *)
Theorem C54_time_in_chosen :
  forall F num ts te D, (3 <= num)%nat -> te < ts ->
  forall u v, 0 <= u < 1 -> 0 <= v < 1 ->
  grid num ts te (chosen F num ts te D u) <= time_of F num ts te D u v
    < grid num ts te (S (chosen F num ts te D u)).
Proof. exact time_in_chosen. Qed.
Print Assumptions C54_time_in_chosen.
Example C54_case : increasing_on 0 10 ((fun _ t : R => t) 1).
Proof. intros a b _ L _. exact L. Qed.

(** FINDING: under a constant impact rate the subintervals, of equal length, do not get
    equal shares (share i is 2(i+1)/((num-1)(num-2))): craters are biased to old ages. *)
Theorem C54_constant_rate_refuted :
  forall num ts te D, (4 <= num)%nat -> te < ts ->
  ~ (forall i, (i < num - 1)%nat -> share (chosen (fun _ t => t) num ts te D) i (1 / INR (num - 1))).
Proof. exact biased. Qed.
Print Assumptions C54_constant_rate_refuted.
Theorem C54_constant_rate_partial :
  forall num ts te D i, (3 <= num)%nat -> te < ts -> (i < num - 2)%nat ->
  share (chosen (fun _ t => t) num ts te D) i
    (2 * (INR i + 1) / (INR (num - 1) * (INR (num - 1) - 1))).
Proof. exact constant_rate_share. Qed.
Print Assumptions C54_constant_rate_partial.

(** FINDING: no draw ever gives a time in the oldest subinterval. *)
Theorem C54_oldest_part_refuted :
  forall F num ts te D, (3 <= num)%nat -> te < ts -> increasing_on te ts (F D) ->
  forall u v, 0 <= u < 1 -> 0 <= v < 1 ->
  time_of F num ts te D u v < ts - (ts - te) / INR (num - 1).
Proof. exact oldest_missing. Qed.
Print Assumptions C54_oldest_part_refuted.
