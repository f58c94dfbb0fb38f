(** Property theorems about quasi-Monte-Carlo craters (C72, C73). *)
From Coq Require Import Reals ZArith Permutation Sorted.
From Verif Require Import Common Quasi_model Quasi_spec Measure_spec Quasi_proofs Quasi_order Quasi_dates Quasi_two Quasi_cases Quasi_interp Quasi_between.
Open Scope R_scope.

(** C72: whatever the draws, the processed list holds every given crater with production
    metadata exactly once, and no other, each with one time, the oldest first. *)
Theorem C72_once_oldest_first csfd number_at age nconv trunc normal dmax craters res d :
  process csfd number_at age nconv trunc normal dmax craters = Ok (res, d) ->
  (exists v, picks metadata craters v /\ Permutation (map fst res) v) /\ StronglySorted (fun a b => snd b <= snd a) res.
Proof. exact (process_list csfd number_at age nconv trunc normal dmax craters res d). Qed.
Print Assumptions C72_once_oldest_first.
Example C72_once_case : exists res d, w_process None [o1; o2] = Ok (res, d) /\ In (o1, 100) res /\ In (o2, 50) res.
Proof. exact w_kept. Qed.
(** C72: a crater without a sequence number gets the age of its N(D), or else its time, exactly
    when its uncertainty is zero and otherwise as drawn; N(D) takes precedence. *)
Theorem C72_untagged_time csfd number_at age nconv trunc normal dmax craters res d c t :
  process csfd number_at age nconv trunc normal dmax craters = Ok (res, d) -> In (c, t) res -> q_seq c = None ->
  drawn csfd age nconv normal c t.
Proof. exact (process_drawn csfd number_at age nconv trunc normal dmax craters res d c t). Qed.
Print Assumptions C72_untagged_time.
(** C72: craters without sequence numbers are never refused if their numbers have ages. *)
Theorem C72_untagged_succeeds csfd number_at age nconv trunc normal dmax craters :
  (forall c, In c craters -> q_seq c = None) ->
  (forall c n, In c craters -> q_ND c <> None -> 0 <= n -> exists t, age n = Ok t) ->
  exists r, process csfd number_at age nconv trunc normal dmax craters = Ok r.
Proof. exact (process_untagged csfd number_at age nconv trunc normal dmax craters). Qed.
Print Assumptions C72_untagged_succeeds.
Example C72_untagged_case : w_process None [n1] = Ok ([(n1, -100)], Some 1000).
Proof. exact w_negative. Qed.
(** C72: no crater dated by N(D) lies in the future.  Missing: craters dated by time (below). *)
Theorem C72_nonnegative_partial csfd number_at age nconv trunc normal dmax craters res d c t :
  age_like age -> process csfd number_at age nconv trunc normal dmax craters = Ok (res, d) ->
  In (c, t) res -> q_seq c = None -> q_ND c <> None -> 0 <= t.
Proof. exact (nonnegative_N csfd number_at age nconv trunc normal dmax craters res d c t). Qed.
Print Assumptions C72_nonnegative_partial.
Example C72_age_case : age_like w_age.
Proof. exact w_age_like. Qed.
(** C72 fails for craters dated by time: the result of max(t, 0.0) is not used.  A crater of 100
    million years with an uncertainty of 100 gets the time -100 from a draw at two standard
    deviations. *)
Theorem C72_negative_time_refuted : w_process None [at_time 1 100 100 None] = Ok ([(at_time 1 100 100 None, -100)], Some 1000).
Proof. exact w_negative. Qed.
Print Assumptions C72_negative_time_refuted.
(** C72: the upper end of the range of random diameters becomes the smallest diameter of the
    listed craters, unless it was smaller already. *)
Theorem C72_diameter_range csfd number_at age nconv trunc normal dmax craters res d :
  process csfd number_at age nconv trunc normal dmax craters = Ok (res, d) -> res <> [] ->
  exists x, d = Some x /\ (forall c t, In (c, t) res -> x <= q_diam c) /\ (forall y, dmax = Some y -> x <= y) /\
   ((exists c t, In (c, t) res /\ x = q_diam c) \/ dmax = Some x).
Proof. exact (process_range csfd number_at age nconv trunc normal dmax craters res d). Qed.
Print Assumptions C72_diameter_range.
(** C72 fails when the list is taken away: the upper end of the diameter range stays where the
    list had put it, so large craters are neither listed nor drawn any more. *)
Theorem C72_range_not_restored_refuted : exists p,
  set_quasimc w_csfd w_number w_age 1 w_trunc w_normal [n1] (mk_pstate [] None) = Ok p /\
  exists q, set_quasimc w_csfd w_number w_age 1 w_trunc w_normal [] p = Ok q /\ p_quasi q = [] /\ p_dmax q = Some 1000.
Proof. exact cleared_case. Qed.
Print Assumptions C72_range_not_restored_refuted.

(** C73: whatever the dates and the draws, a smaller sequence number is at least as old as a
    larger one.  Missing: the largest sequence number (below). *)
Theorem C73_order_partial csfd number_at age nconv trunc normal dmax craters res d c1 c2 c3 a b s t1 t2 :
  process csfd number_at age nconv trunc normal dmax craters = Ok (res, d) ->
  In (c1, t1) res -> In (c2, t2) res -> q_seq c1 = Some a -> q_seq c2 = Some b -> (a < b)%Z ->
  In c3 craters -> q_seq c3 = Some s -> (b < s)%Z -> t2 <= t1.
Proof. exact (process_order csfd number_at age nconv trunc normal dmax craters res d c1 c2 c3 a b s t1 t2). Qed.
Print Assumptions C73_order_partial.
(** C73 fails for the largest sequence number: the check leaves it out.  With exact dates 1, 18
    and 17 (in any unit) for the sequence numbers 1, 2 and 3 no error is raised and the third
    comes out older than the second. *)
Theorem C73_last_sequence_refuted : exists res d t2 t3,
  w_process None [at_time 1 1 0 (Some 1%Z); at_time 2 18 0 (Some 2%Z); at_time 3 17 0 (Some 3%Z)] = Ok (res, d) /\
  In (at_time 2 18 0 (Some 2%Z), t2) res /\ In (at_time 3 17 0 (Some 3%Z), t3) res /\
  q_seq (at_time 2 18 0 (Some 2%Z)) = Some 2%Z /\ q_seq (at_time 3 17 0 (Some 3%Z)) = Some 3%Z /\ t2 < t3.
Proof. exact last_bad. Qed.
Print Assumptions C73_last_sequence_refuted.
(** C73: if the one-sigma ranges of the dates come in the order of the sequence numbers, and
    every sequence number but the last has a date, then for all draws all times come in the
    order of the sequence numbers, and the order is never reported as inconsistent. *)
Theorem C73_dates_in_order csfd number_at age nconv trunc normal dmax craters :
  age_like age -> trunc_ok trunc -> (forall x, age x <> Err RuntimeError) -> (forall x, number_at x <> Err RuntimeError) ->
  in_order csfd number_at nconv craters -> anchored craters ->
  process csfd number_at age nconv trunc normal dmax craters <> Err RuntimeError /\
  (forall res d, process csfd number_at age nconv trunc normal dmax craters = Ok (res, d) -> respects_sequence res).
Proof. exact (in_order_holds csfd number_at age nconv trunc normal dmax craters). Qed.
Print Assumptions C73_dates_in_order.
Example C73_in_order_case : in_order w_csfd w_number 1 [o1; o2] /\ anchored [o1; o2] /\ trunc_ok w_trunc.
Proof. exact (conj o_in_order (conj o_anchored w_trunc_ok)). Qed.
(** C73: with at most two sequence numbers the same holds whatever their dates. *)
Theorem C73_two_sequences csfd number_at age nconv trunc normal dmax craters :
  age_like age -> trunc_ok trunc -> (forall x, age x <> Err RuntimeError) -> (forall x, number_at x <> Err RuntimeError) ->
  sensible_dates csfd number_at nconv craters -> at_most_two_sequences craters ->
  process csfd number_at age nconv trunc normal dmax craters <> Err RuntimeError /\
  (forall res d, process csfd number_at age nconv trunc normal dmax craters = Ok (res, d) -> respects_sequence res).
Proof. exact (two_holds csfd number_at age nconv trunc normal dmax craters). Qed.
Print Assumptions C73_two_sequences.
(** Dates that contradict the sequence numbers 2 and 3. *)
Example C73_two_case : sensible_dates w_csfd w_number 1 [o2; mk_q 1 1000 None (Some (100, 0)) (Some 3%Z)] /\
  at_most_two_sequences [o2; mk_q 1 1000 None (Some (100, 0)) (Some 3%Z)].
Proof. exact (conj o_sensible o_two). Qed.
(** C73: if no date has an uncertainty and the dates come in the order of the sequence numbers,
    the same holds although sequence numbers in between have no date. *)
Theorem C73_exact_in_order csfd number_at age nconv trunc normal craters :
  in_order csfd number_at nconv craters -> exact_dates csfd number_at nconv craters -> forall dmax,
  age_like age -> trunc_ok trunc -> (forall x, age x <> Err RuntimeError) -> (forall x, number_at x <> Err RuntimeError) ->
  process csfd number_at age nconv trunc normal dmax craters <> Err RuntimeError /\
  (forall res d, process csfd number_at age nconv trunc normal dmax craters = Ok (res, d) -> respects_sequence res).
Proof. exact (exact_in_order csfd number_at age nconv trunc normal craters). Qed.
Print Assumptions C73_exact_in_order.
(** C73: the number of a sequence number without a date lies on the straight line between the
    nearest dated sequence numbers (the last one counts as zero if it has none), and the time
    drawn for it lies between the ages of the half-way numbers to its two neighbours. *)
Theorem C73_undated_between csfd number_at age nconv trunc normal craters :
  in_order csfd number_at nconv craters -> exact_dates csfd number_at nconv craters -> forall dmax res dm c t s1 s s2 a na b nb,
  age_like age -> trunc_ok trunc -> process csfd number_at age nconv trunc normal dmax craters = Ok (res, dm) ->
  In (c, t) res -> q_seq c = Some s ->
  in_use craters s1 -> in_use craters s2 -> (a <= s1 < s)%Z -> (s < s2 <= b)%Z ->
  (forall x, in_use craters x -> ~ (s1 < x < s)%Z /\ ~ (s < x < s2)%Z) ->
  anchor csfd number_at nconv craters a na -> anchor csfd number_at nconv craters b nb ->
  (forall x, (a < x < b)%Z -> ~ has_date craters x) ->
  exists tlo thi, age ((line a na b nb s + line a na b nb s2) / 2) = Ok tlo /\
    age ((line a na b nb s1 + line a na b nb s) / 2) = Ok thi /\ tlo <= t <= thi.
Proof. exact (undated_between csfd number_at age nconv trunc normal craters). Qed.
Print Assumptions C73_undated_between.
(** Exact times 100 and 20 for the sequence numbers 1 and 5, and a crater with only the number 2. *)
Example C73_undated_case : in_order w_csfd w_number 1 [y1; y2; y3] /\ exact_dates w_csfd w_number 1 [y1; y2; y3] /\
  anchor w_csfd w_number 1 [y1; y2; y3] 1 100 /\ anchor w_csfd w_number 1 [y1; y2; y3] 5 20 /\ line 1 100 5 20 2 = 80 /\
  exists res d, w_process None [y1; y2; y3] = Ok (res, d) /\ In (y2, 50) res.
Proof. exact (conj y_in_order (conj y_exact (conj y_anchor1 (conj y_anchor5 (conj y_line y_run))))). Qed.
(** C73: an exact date is kept if it is the only date of its sequence number and the dates are
    in order: N(D) without uncertainty gives the age of that number. *)
Theorem C73_exact_number_kept_partial csfd number_at age nconv trunc normal dmax craters res dm c t d n :
  process csfd number_at age nconv trunc normal dmax craters = Ok (res, dm) -> in_order csfd number_at nconv craters -> anchored craters ->
  In (c, t) res -> q_seq c <> None -> only_date c craters -> q_ND c = Some (d, n, 0) -> age (N1_of csfd nconv d n) = Ok t.
Proof. exact (exact_N csfd number_at age nconv trunc normal dmax craters res dm c t d n). Qed.
Print Assumptions C73_exact_number_kept_partial.
(** C73: likewise a time without uncertainty, if the chronology is undone by the age. *)
Theorem C73_exact_time_kept_partial csfd number_at age nconv trunc normal : age_like age -> forall dmax craters res dm c t m n,
  process csfd number_at age nconv trunc normal dmax craters = Ok (res, dm) -> in_order csfd number_at nconv craters -> anchored craters ->
  In (c, t) res -> q_seq c <> None -> only_date c craters -> q_ND c = None -> q_time c = Some (m, 0) -> 0 <= m ->
  number_at m = Ok n -> age n = Ok m -> t = m.
Proof. exact (exact_T csfd number_at age nconv trunc normal). Qed.
Print Assumptions C73_exact_time_kept_partial.
Example C73_exact_case : (exists res d, w_process None [o1; o2] = Ok (res, d) /\ In (o1, 100) res /\ In (o2, 50) res) /\
  in_order w_csfd w_number 1 [o1; o2] /\ anchored [o1; o2] /\ only_date o1 [o1; o2].
Proof. exact (conj w_kept (conj o_in_order (conj o_anchored o_only))). Qed.
(** C73 fails for two exact dates with the same sequence number: the times 100 and 50 both
    become 75. *)
Theorem C73_exact_moved_refuted : in_order w_csfd w_number 1 [at_time 1 100 0 (Some 1%Z); at_time 2 50 0 (Some 1%Z)] /\
  exists res d, w_process None [at_time 1 100 0 (Some 1%Z); at_time 2 50 0 (Some 1%Z)] = Ok (res, d) /\
  In (at_time 1 100 0 (Some 1%Z), 75) res /\ In (at_time 2 50 0 (Some 1%Z), 75) res.
Proof. exact (conj m_in_order w_moved). Qed.
Print Assumptions C73_exact_moved_refuted.
(** C73 fails when a range reaches zero: a crater of age 5 +- 10 followed by one with only a
    sequence number ends in a division by zero, although the dates are in order. *)
Theorem C73_zero_division_refuted :
  in_order w_csfd w_number 1 [at_time 1 5 10 (Some 1%Z); mk_q 2 1000 None None (Some 2%Z)] /\
  anchored [at_time 1 5 10 (Some 1%Z); mk_q 2 1000 None None (Some 2%Z)] /\
  w_process None [at_time 1 5 10 (Some 1%Z); mk_q 2 1000 None None (Some 2%Z)] = Err ZeroDivisionError.
Proof. exact (conj z_in_order (conj z_anchored w_zero)). Qed.
Print Assumptions C73_zero_division_refuted.
