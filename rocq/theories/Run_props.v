(** C09-C11: runs of a simulation. *)
From Coq Require Import Reals List Lra.
From Verif Require Import Common Mesh_model Run_model Run_spec Run_proofs.
Import ListNotations.
Open Scope R_scope.

(** C09: a completed run of a new simulation, or of one that stands at the
    requested start, samples periods that tile the requested one: no gap, no
    overlap, in the requested number of pieces.  In every mode. *)
Theorem C09_run_covers_period :
  forall csfd chron age_of tlo thi area Dconv Nconv forms,
  good_production csfd chron age_of area ->
  forall a s s',
  (forall c ts te, time s = Some c ->
     period csfd chron area Dconv Nconv (time s) a ts te -> ts = c) ->
  run csfd chron age_of tlo thi area Dconv Nconv forms a s = (s', None) ->
  exists ts te l, period csfd chron area Dconv Nconv (time s) a ts te /\ te < ts /\
    trace s' = trace s ++ l /\ tiles ts te (periods l) /\
    List.length (periods l) = Z.to_nat (match a_n a, a_dt a with
                                        | Some n, _ => n
                                        | None, Some dt => ceil ((ts - te) / dt)
                                        | None, None => 1%Z end).
Proof. exact covers. Qed.
Print Assumptions C09_run_covers_period.
Example C09_case : exists s',
  run csfd0 chron0 age0 None None 1 1 1 forms0 (time_args 100 0 30) sim0 = (s', None) /\
  tiles 100 0 (periods (trace s')) /\ List.length (periods (trace s')) = 4%nat.
Proof.
  destruct (run0_first 100 0 30 4) as (s' & H1 & _ & _ & _ & H2 & H3); try lra; try easy.
  - apply ceil_100_30.
  - exists s'. auto.
Qed.

Example C09_number_case : exists s',
  run csfd0 chron0 age0 None None 1 1 1 forms0 (number_args 100 20 4) sim0 = (s', None).
Proof. apply run0_number; [lra|reflexivity]. Qed.

(** ... and a run in time steps (or in one step) does complete unless sampling fails. *)
Theorem C09_time_runs_complete :
  forall csfd chron age_of tlo thi area Dconv Nconv forms,
  good_production csfd chron age_of area ->
  forall a s p,
  (forall h t0 t1, exists x, forms h t0 t1 = Ok x) ->
  a_ND a = None -> a_dn a = None ->
  validate_run_args csfd chron age_of tlo thi area Dconv Nconv (time s) a = Ok p ->
  p_te p < p_ts p -> is_time_mode p = true ->
  (forall c, time s = Some c -> c <= p_ts p) ->
  exists s', run csfd chron age_of tlo thi area Dconv Nconv forms a s = (s', None).
Proof. exact time_run_total. Qed.
Print Assumptions C09_time_runs_complete.
Example C09_complete_case : exists s',
  run csfd0 chron0 age0 None None 1 1 1 forms0 (time_args 100 0 30) sim0 = (s', None).
Proof. apply run0_time; try lra. discriminate. Qed.

(** C09, resumed runs in time steps: they start on the step grid of the request, at
    or before the current time [c] (less than one step before) and then tile.
    Missing from the full property: starting exactly at [c]. *)
Theorem C09_resume_partial :
  forall csfd chron age_of tlo thi area Dconv Nconv forms,
  good_production csfd chron age_of area ->
  forall a s s' c dt, time s = Some c -> a_dt a = Some dt ->
  run csfd chron age_of tlo thi area Dconv Nconv forms a s = (s', None) ->
  exists ts te, period csfd chron area Dconv Nconv (time s) a ts te /\
  exists l t0, trace s' = trace s ++ l /\ c <= t0 <= ts /\ t0 < c + dt /\
    (exists k : Z, t0 = ts - IZR k * dt) /\
    (te < t0 -> tiles t0 te (periods l) /\ time s' = Some te) /\
    (t0 <= te -> periods l = []).
Proof. exact resume. Qed.
Print Assumptions C09_resume_partial.

(** FINDING: 100 -> 50 and then 100 -> 0, both in steps of 30, samples the time
    between 60 and 50 twice: in the piece (70, 50) of the first run and again in the
    first piece (70, 40) of the second. *)
Theorem C09_resume_refuted : exists s1 s2 t0 t1 t2 t3,
  run csfd0 chron0 age0 None None 1 1 1 forms0 (time_args 100 50 30) sim0 = (s1, None) /\
  run csfd0 chron0 age0 None None 1 1 1 forms0 (time_args 100 0 30) s1 = (s2, None) /\
  time s1 = Some 50 /\
  (exists l, trace s2 = trace s1 ++ l /\ In (t2, t3) (periods l)) /\
  In (t0, t1) (periods (trace s1)) /\ t1 <= 60 <= t0 /\ t1 = 50 /\ t2 = 70 /\ t3 < 60.
Proof. exact resume_wrong. Qed.
Print Assumptions C09_resume_refuted.

(** C10: the bookkeeping of a completed run.  The recorded time, interval number and
    crater number are right in every mode; the elapsed time is right unless a
    time_interval was given that does not divide the period. *)
Theorem C10_bookkeeping_partial :
  forall csfd chron age_of tlo thi area Dconv Nconv forms,
  good_production csfd chron age_of area ->
  forall a s s',
  (forall c ts te, time s = Some c ->
     period csfd chron area Dconv Nconv (time s) a ts te -> ts = c) ->
  run csfd chron age_of tlo thi area Dconv Nconv forms a s = (s', None) ->
  exists ts te n l, period csfd chron area Dconv Nconv (time s) a ts te /\ te < ts /\
    trace s' = trace s ++ l /\ n = Z.of_nat (List.length (periods l)) /\
    time s' = Some te /\
    interval s' = (match time s with None => 0 | Some _ => interval s end + n)%Z /\
    n1 s' = n1 s + Nconv * (csfd 1000 * (chron ts - chron te)) /\
    ((a_dt a = None \/ (exists dt, a_dt a = Some dt /\ (ts - te = IZR n * dt \/ n = 1%Z))) ->
      elapsed s' = elapsed s + (ts - te)) /\
    (forall dt, a_dt a = Some dt -> n <> 1%Z -> elapsed s' = elapsed s + IZR n * dt).
Proof. exact bookkeeping. Qed.
Print Assumptions C10_bookkeeping_partial.

(** FINDING: 100 My in steps of 30 My: the elapsed time is 120 My. *)
Theorem C10_elapsed_refuted : exists s',
  run csfd0 chron0 age0 None None 1 1 1 forms0 (time_args 100 0 30) sim0 = (s', None) /\
  time s' = Some 0 /\ elapsed s' = 120.
Proof. exact elapsed_wrong. Qed.
Print Assumptions C10_elapsed_refuted.

(** A new simulation is saved once before the first step and once after each. *)
Theorem C10_saved_states :
  forall csfd chron age_of tlo thi area Dconv Nconv forms,
  good_production csfd chron age_of area ->
  forall a s s', time s = None -> is_new s = true ->
  run csfd chron age_of tlo thi area Dconv Nconv forms a s = (s', None) ->
  exists l, trace s' = trace s ++ l /\
    saves l = map Z.of_nat (seq 0 (S (List.length (periods l)))).
Proof. exact saved_states. Qed.
Print Assumptions C10_saved_states.

(** Running again after completion changes nothing, unless a time_interval was given
    that does not divide the period. *)
Theorem C10_rerun_partial :
  forall csfd chron age_of tlo thi area Dconv Nconv forms,
  good_production csfd chron age_of area ->
  forall a s s1 s2, time s = None ->
  run csfd chron age_of tlo thi area Dconv Nconv forms a s = (s1, None) ->
  (forall ts te dt, a_dt a = Some dt -> period csfd chron area Dconv Nconv None a ts te ->
     exists k : Z, ts - te = IZR k * dt) ->
  run csfd chron age_of tlo thi area Dconv Nconv forms a s1 = (s2, None) ->
  time s2 = time s1 /\ interval s2 = interval s1 /\ elapsed s2 = elapsed s1 /\ n1 s2 = n1 s1 /\
  periods (trace s2) = periods (trace s1).
Proof. exact rerun. Qed.
Print Assumptions C10_rerun_partial.

(** FINDING: otherwise the last step is simulated again. *)
Theorem C10_rerun_refuted : exists s1 s2,
  run csfd0 chron0 age0 None None 1 1 1 forms0 (time_args 100 0 30) sim0 = (s1, None) /\
  run csfd0 chron0 age0 None None 1 1 1 forms0 (time_args 100 0 30) s1 = (s2, None) /\
  List.length (periods (trace s1)) = 4%nat /\ List.length (periods (trace s2)) = 5%nat /\
  interval s2 = 5%Z /\ elapsed s2 = elapsed s1 + 30.
Proof. exact rerun_wrong. Qed.
Print Assumptions C10_rerun_refuted.

(** C11: exactly the consistent sets of time arguments are accepted ... *)
Theorem C11_accepted_iff :
  forall csfd chron age_of tlo thi area Dconv Nconv,
  good_production csfd chron age_of area ->
  forall cur a, a_ND a = None -> a_NDe a = None -> a_dn a = None -> a_dne a = None ->
  (exists p, validate_run_args csfd chron age_of tlo thi area Dconv Nconv cur a = Ok p) <->
  consistent_times tlo thi cur a.
Proof. exact accepted_times. Qed.
Print Assumptions C11_accepted_iff.
Example C11_case : consistent_times (Some 0) (Some 4500) None (time_args 100 0 30) /\
  ~ consistent_times (Some 0) (Some 4500) None (time_args 100 0 130).
Proof.
  split.
  - exists 100, 0. split; [right; left; simpl; auto|]. split; [lra|].
    split; [intros ? [= <-]; lra|]. split; [intros ? [= <-]; lra|].
    split; [auto|]. split; [discriminate|]. simpl. intros ? [= <-]. lra.
  - intros (ts & te & [(? & _)|[(_ & E1 & [E2|(E2 & _)])|(_ & ? & _)]] & _ & _ & _ & _ & _ & Hd);
      try discriminate. simpl in *. injection E1 as <-. injection E2 as <-.
    specialize (Hd _ eq_refl). lra.
Qed.

(** ... and every other set is rejected without any effect. *)
Theorem C11_rejected_without_effect :
  forall csfd chron age_of tlo thi area Dconv Nconv forms,
  good_production csfd chron age_of area ->
  forall a s, a_ND a = None -> a_NDe a = None -> a_dn a = None -> a_dne a = None ->
  ~ consistent_times tlo thi (time s) a ->
  exists e, run csfd chron age_of tlo thi area Dconv Nconv forms a s = (s, Some e).
Proof. exact rejected. Qed.
Print Assumptions C11_rejected_without_effect.

(** Starting after the current time is an error without effect. *)
Theorem C11_start_too_late :
  forall csfd chron age_of tlo thi area Dconv Nconv forms a s c p,
  time s = Some c ->
  validate_run_args csfd chron age_of tlo thi area Dconv Nconv (time s) a = Ok p ->
  is_time_mode p = true -> p_ts p < c ->
  run csfd chron age_of tlo thi area Dconv Nconv forms a s = (s, Some RuntimeError).
Proof. exact start_too_late. Qed.
Print Assumptions C11_start_too_late.

(** A crater density N_D with a time_interval is always an error (without effect). *)
Theorem C11_density_with_time_interval :
  forall csfd chron age_of tlo thi area Dconv Nconv forms a s nd dt,
  a_age a = None -> a_ts a = None -> a_te a = None -> a_ND a = Some nd -> a_dt a = Some dt ->
  exists e, run csfd chron age_of tlo thi area Dconv Nconv forms a s = (s, Some e).
Proof. exact number_with_step. Qed.
Print Assumptions C11_density_with_time_interval.

(** FINDING: a period of zero length passes validation; the run then raises
    ZeroDivisionError after it has set the current time. *)
Theorem C11_zero_length_refuted : exists a s',
  consistent_times None None None a /\
  run csfd0 chron0 age0 None None 1 1 1 forms0 a sim0 = (s', Some ZeroDivisionError) /\
  time s' = Some 5 /\ time sim0 = None.
Proof. exact zero_length. Qed.
Print Assumptions C11_zero_length_refuted.

(** FINDING: N_D given with time_end is silently ignored instead of rejected. *)
Theorem C11_ignored_density_refuted : exists a s s' nd,
  a_ND a = Some nd /\ run csfd0 chron0 age0 None None 1 1 1 forms0 a s = (s', None) /\
  run csfd0 chron0 age0 None None 1 1 1 forms0
    (mkArgs (a_age a) (a_ts a) (a_te a) None (a_NDe a) (a_dn a) (a_dne a) (a_dt a) (a_n a)) s
    = (s', None).
Proof. exact ignored_number. Qed.
Print Assumptions C11_ignored_density_refuted.
