(** C109: periods of time given as crater densities N(D). *)
From Coq Require Import Reals Lra.
From Verif Require Import Common Prod_model Run_model Nd_model Nd_spec Nd_proofs.
Import ListNotations.
Open Scope R_scope.

(** C109.  A run over N_D and N_D_end starts when a surface has the density N_D, in the units of the
    conversion factors, and ends when it has the density N_D_end, or none. *)
Theorem C109_run (csfd chron : R -> R) (age_of : R -> R -> result R) (tlo thi : option R) (Dconv Nconv area : R)
  (cur : option R) (ND : R * R) (NDe : option (R * R)) (n : option Z) (t0 t1 : R) :
  finds_ages csfd chron tlo thi age_of -> 0 < area -> 0 < Nconv ->
  run_period csfd chron age_of tlo thi Dconv Nconv area cur (run_by_density ND NDe n) = Ok (t0, t1) ->
  means csfd chron Dconv Nconv ND t0 /\ means csfd chron Dconv Nconv (match NDe with Some e => e | None => (fst ND, 0) end) t1.
Proof. exact (fun FA => run_means csfd chron age_of tlo thi Dconv Nconv area FA cur ND NDe n t0 t1). Qed.
Print Assumptions C109_run.
Example C109_run_case : finds_ages many (fun t => t) None None solve /\
  run_period many (fun t => t) solve None None 1000 1000000 1 None (run_by_density (1, 1) None None) = Ok (/ 1000000000000000, 0).
Proof. exact (conj solve_ok solve_run). Qed.

(** C109.  In sample and quasimc_merge the same arguments mean that density exactly when the number
    is zero or N_conversion_factor is 1: the density used is the number times the factor
    instead of divided by it. *)
Theorem C109_sample_partial (csfd chron : R -> R) (age_of : R -> R -> result R) (tlo thi : option R) (Dconv Nconv area : R)
  (ND : R * R) (NDe : option (R * R)) (t0 t1 : R) :
  finds_ages csfd chron tlo thi age_of -> 0 < Nconv ->
  period csfd chron age_of tlo thi Dconv Nconv area (by_density ND NDe) = Ok (t0, t1) ->
  (means csfd chron Dconv Nconv ND t0 <-> Nconv = 1 \/ snd ND = 0) /\
  (forall e, NDe = Some e -> means csfd chron Dconv Nconv e t1 <-> Nconv = 1 \/ snd e = 0) /\
  density csfd chron (fst ND * Dconv) t0 = snd ND * Nconv.
Proof. exact (fun FA => period_means csfd chron age_of tlo thi Dconv Nconv area FA ND NDe t0 t1). Qed.
Print Assumptions C109_sample_partial.
Example C109_sample_partial_case : finds_ages many (fun t => t) None None solve /\
  period many (fun t => t) solve None None 1000 1000000 1 (by_density (1, 1) None) = Ok (/ 1000, 0).
Proof. exact (conj solve_ok solve_sample). Qed.

(** C109, false: with N_conversion_factor 1e6, sample and quasimc_merge take a period that starts
    1e12 times earlier than that of run for the same N_D. *)
Theorem C109_sample_refuted : exists csfd chron age_of ND area t0 t1 s0 s1, finds_ages csfd chron None None age_of /\
  period csfd chron age_of None None 1000 1000000 area (by_density ND None) = Ok (t0, t1) /\
  run_period csfd chron age_of None None 1000 1000000 area None (run_by_density ND None None) = Ok (s0, s1) /\
  means csfd chron 1000 1000000 ND s0 /\ ~ means csfd chron 1000 1000000 ND t0 /\ t0 = s0 * 1000000000000.
Proof. exact sample_wrong. Qed.
Print Assumptions C109_sample_refuted.

(** C109, false: with the default units and the default power law, N_D is never accepted by sample
    and quasimc_merge, whatever the size (at least one metre) and the number (at least one
    crater in a hundred million times a million square kilometres). *)
Theorem C109_default_refuted (p : powerlaw) (age_of : R -> R -> result R) (area : R) (ND : R * R) (NDe : option (R * R)) :
  new_powerlaw GCrater None None = Ok p ->
  finds_ages (pl_csfd p) (fun t => t) None None age_of ->
  1 / 1000 <= fst ND -> / 100000000 <= snd ND ->
  period (pl_csfd p) (fun t => t) age_of None None 1000 1000000000000 area (by_density ND NDe) = Err ValueError.
Proof. exact (default_fails p age_of area ND NDe). Qed.
Print Assumptions C109_default_refuted.
Example C109_default_refuted_case : exists p, new_powerlaw GCrater None None = Ok p /\ 1 / 1000 <= fst (20, 1000) /\ / 100000000 <= snd (20, 1000).
Proof. exists (mkPower (7883 / 1000000) (- (3328 / 1000))). unfold new_powerlaw. destruct (Rlt_dec (7883 / 1000000) 0); [lra|]. destruct (Rlt_dec 0 (- (3328 / 1000))); [lra|]. cbn [fst snd]. repeat split; lra. Qed.

(** C109.  A density that no time of the valid range reaches is an error. *)
Theorem C109_unreachable (csfd chron : R -> R) (age_of : R -> R -> result R) (tlo thi : option R) (Dconv Nconv area : R) (ND : R * R) (NDe : option (R * R)) :
  finds_ages csfd chron tlo thi age_of -> 0 <= fst ND * Dconv ->
  (forall t, match tlo with Some l => l | None => 0 end <= t <= match thi with Some h => h | None => 1000000 end -> density csfd chron (fst ND * Dconv) t < snd ND * Nconv) ->
  match tlo with Some l => l | None => 0 end <= match thi with Some h => h | None => 1000000 end ->
  period csfd chron age_of tlo thi Dconv Nconv area (by_density ND NDe) = Err ValueError.
Proof. exact (fun FA => period_fails csfd chron age_of tlo thi Dconv Nconv area FA ND NDe). Qed.
Print Assumptions C109_unreachable.
Example C109_unreachable_case : forall t, 0 <= t <= 1000000 -> density many (fun t => t) (1 * 1000) t < 1001 * 1000000000000.
Proof. intros t H. unfold density, many. lra. Qed.

(** C109.  A density together with a time for the same end of the period, or with a number of
    craters, is refused. *)
Theorem C109_conflicts (csfd chron : R -> R) (age_of : R -> R -> result R) (tlo thi : option R) (Dconv Nconv area : R)
  (a ts te : option R) (ND : R * R) (NDe dn dne : option (R * R)) (x : R) (d : R * R) :
  let period := period csfd chron age_of tlo thi Dconv Nconv area in
  period (mkRequest a (Some x) te (Some ND) NDe dn dne) = Err ValueError /\
  period (mkRequest (Some x) a te (Some ND) NDe dn dne) = Err ValueError /\
  (forall y, period (mkRequest None None te (Some ND) NDe (Some d) dne) <> Ok y) /\
  (forall y, period (mkRequest a ts (Some x) (Some ND) (Some d) dn dne) <> Ok y) /\
  (forall y, period (mkRequest a ts (Some x) None (Some d) dn dne) <> Ok y).
Proof.
  exact (conj (proj1 (conflicts csfd chron age_of tlo thi Dconv Nconv area a ND NDe x te dn dne))
    (conj (proj2 (conflicts csfd chron age_of tlo thi Dconv Nconv area a ND NDe x te dn dne))
    (conj (conflict_number csfd chron age_of tlo thi Dconv Nconv area ND NDe te d dne)
    (conj (conflict_end csfd chron age_of tlo thi Dconv Nconv area a ts (Some ND) d x dn dne)
          (conflict_end csfd chron age_of tlo thi Dconv Nconv area a ts None d x dn dne))))).
Qed.
Print Assumptions C109_conflicts.
Example C109_conflicts_case : period many (fun t => t) solve None None 1000 1000000 1 (mkRequest None (Some 5) None (Some (1, 1)) None None None) = Err ValueError.
Proof. reflexivity. Qed.

(** C109.  Given as times, the period is the one given, from time_start to time_end or the present,
    and it never runs backwards. *)
Theorem C109_times (csfd chron : R -> R) (age_of : R -> R -> result R) (tlo thi : option R) (Dconv Nconv area : R) (ts : R) (te : option R) (t0 t1 : R) :
  period csfd chron age_of tlo thi Dconv Nconv area (mkRequest None (Some ts) te None None None None) = Ok (t0, t1) ->
  t0 = ts /\ t1 = match te with Some e => e | None => 0 end /\ t1 <= t0.
Proof. exact (period_times csfd chron age_of tlo thi Dconv Nconv area ts te t0 t1). Qed.
Print Assumptions C109_times.
Example C109_times_case : period many (fun t => t) solve None None 1000 1 1 (mkRequest None (Some 5) (Some 2) None None None None) = Ok (5, 2).
Proof.
  unfold period, validate, sample_args, sample_start, sample_end, fn_chk, validate_age. cbn [q_age q_ts q_te q_ND q_NDe q_dn q_dne given Bool.eqb andb rbind].
  destruct (Rlt_dec 1 0); [lra|]. destruct (Rlt_dec 5 0); [lra|]. cbn [rbind]. destruct (Rlt_dec 5 2); [lra|]. cbn [rbind fst]. destruct (Rlt_dec 2 0); [lra|]. reflexivity.
Qed.

(** C109, false: age and time_start together are refused by run, but sample and quasimc_merge silently
    take the age. *)
Theorem C109_age_and_start_refuted (csfd chron : R -> R) (age_of : R -> R -> result R) (tlo thi : option R) (Dconv Nconv area : R)
  (a : R) (ts te : option R) (ND NDe dn dne : option (R * R)) :
  period csfd chron age_of tlo thi Dconv Nconv area (mkRequest (Some a) ts te ND NDe dn dne) =
  period csfd chron age_of tlo thi Dconv Nconv area (mkRequest None (Some a) te ND NDe dn dne).
Proof. exact (age_wins csfd chron age_of tlo thi Dconv Nconv area a ts te ND NDe dn dne). Qed.
Print Assumptions C109_age_and_start_refuted.

(** C109.  quasimc_merge keeps the craters of the period: those after its start, up to and without its
    end. *)
Theorem C109_members (t0 t1 : R) (times : list R) (t : R) : In t (merged_times t0 t1 times) <-> In t times /\ t1 < t <= t0.
Proof. exact (merged_in t0 t1 times t). Qed.
Print Assumptions C109_members.
Example C109_members_case : exists t, In t (merged_times (/ 1000000000000000 * 1000000000000) 0 [t]) /\ ~ In t (merged_times (/ 1000000000000000) 0 [t]).
Proof. exact merged_lost. Qed.
