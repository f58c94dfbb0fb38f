(** Properties of the life cycle of a simulation. *)
From Coq Require Import Reals List String Bool Arith.
From Verif Require Import Common Restart_model Restart_spec Restart_proofs Restart_cases.
Import ListNotations.
Open Scope R_scope.

(** C83: a simulation that is reset, or whose grid does not fit, starts from nothing, and so
    does its directory: one surface file, no crater files, and a configuration to match. *)
Theorem C83_new : forall (G : Type) arg ask answer id fresh (d : disk G) s w,
  construct G arg ask answer id fresh d = Ok (s, w) -> arg = Some true \/ d_grid G d <> Some id ->
  s_new G s = true /\ s_counters G s = counters0 /\ s_surf G s = [] /\ s_seen G s = [] /\
  apply_all G d w = mkDisk G (Written G (mkConf G counters0 fresh)) (Some id) [(0%nat, [])] [].
Proof. exact new_disk. Qed.
Print Assumptions C83_new.
Example C83_new_example : construct unit (Some true) true "" 0 tt (D1 R2) <> Err TypeError /\
  List.length (d_surf unit (D1 R2)) = 3%nat.
Proof. split; [discriminate | lazy; reflexivity]. Qed.

(** C83: a start with reset=True always works. *)
Theorem C83_reset_starts : forall (G : Type) ask answer id fresh (d : disk G),
  exists s w, construct G (Some true) ask answer id fresh d = Ok (s, w).
Proof. exact reset_starts. Qed.
Print Assumptions C83_reset_starts.

(** C83: without a reset argument and with a fitting grid the simulation starts anew exactly
    when the user may be asked, there is an old configuration, and the answer is yes or all. *)
Theorem C83_prompt : forall (G : Type) ask answer id fresh (d : disk G) s w,
  construct G None ask answer id fresh d = Ok (s, w) -> d_grid G d = Some id ->
  (s_new G s = true <-> ask = true /\ d_conf G d <> Absent G /\ (answer = "y" \/ answer = "a")%string).
Proof. exact prompt. Qed.
Print Assumptions C83_prompt.
Example C83_prompt_example : exists s w, construct unit None true "y" 0 tt (D1 R2) = Ok (s, w) /\ s_new unit s = true.
Proof. eexists _, _. split; [lazy; reflexivity | lazy; reflexivity]. Qed.

(** C83: a resumed simulation has the counters of the configuration and the last surface, and
    resuming writes nothing. *)
Theorem C83_resume : forall (G : Type) id fresh (d : disk G) f,
  d_conf G d = Written G f -> d_grid G d = Some id ->
  exists s, restart id fresh d = Ok (s, []) /\ s_counters G s = f_counters G f /\ s_rng G s = fresh /\
    s_new G s = false /\
    (forall k c, latest (d_surf G d) = Some (k, c) -> s_surf G s = c).
Proof. exact resume_disk. Qed.
Print Assumptions C83_resume.
Example C83_resume_example : d_grid unit (D1 R2) = Some 0%nat /\ exists f, d_conf unit (D1 R2) = Written unit f.
Proof. destruct (first_inv _ _ _ _ _ (first_of R2)) as (_ & _ & H & g & C). split; [exact H|]. eexists. exact C. Qed.

(** C83: whatever was done in the first session, runs and resets in any order, resuming it
    gives the counters and the surface at its end, and the counters describe the surface. *)
Theorem C83_first_session : forall (G : Type) id d0 (s : sim G) d fresh, first_session id d0 s d ->
  exists s', restart id fresh d = Ok (s', []) /\
    s_counters G s' = s_counters G s /\ s_surf G s' = s_surf G s /\
    describe (s_counters G s') (s_surf G s').
Proof. exact first_resumes. Qed.
Print Assumptions C83_first_session.
Example C83_first_session_example : exists s, first_session 0 D0 s (D1 R2) /\ s_surf unit s = [P1; P2].
Proof. eexists. split; [exact (first_of R2) | lazy; reflexivity]. Qed.

(** C83: the observed craters are those at the end of the session if there are any. Missing:
    the case of no observed craters, see C83_no_craters_refuted. *)
Theorem C83_craters_partial : forall (G : Type) id d0 (s : sim G) d fresh,
  first_session id d0 s d -> s_seen G s <> [] ->
  exists s', restart id fresh d = Ok (s', []) /\ s_seen G s' = s_seen G s.
Proof. exact first_seen. Qed.
Print Assumptions C83_craters_partial.
Example C83_craters_example : exists s, first_session 0 D0 s (D1 R1) /\ s_seen unit s = [7%nat].
Proof. eexists. split; [exact (first_of R1) | lazy; reflexivity]. Qed.

(** A resumed simulation does not have the observed craters of the one that was saved: when no
    crater is left, no file is written, and the craters of an earlier interval are read. *)
Theorem C83_no_craters_refuted :
  ~ (forall id (d0 : disk unit) s d fresh s' w, first_session id d0 s d ->
       restart id fresh d = Ok (s', w) -> s_seen unit s' = s_seen unit s).
Proof. exact seen_refuted. Qed.
Print Assumptions C83_no_craters_refuted.

(** C83: after a first session and one that resumed it, the next start has the surface of the
    second session and the counters of the first. *)
Theorem C83_second_session : forall (G : Type) id d0 (s1 : sim G) d1 s2 d2 fresh,
  first_session id d0 s1 d1 -> resumed_session id d1 s2 d2 ->
  exists s3, restart id fresh d2 = Ok (s3, []) /\
    s_counters G s3 = s_counters G s1 /\ s_surf G s3 = s_surf G s2 /\
    describe (s_counters G s2) (s_surf G s2).
Proof. exact second. Qed.
Print Assumptions C83_second_session.
Example C83_second_session_example :
  exists s1 s2, first_session 0 D0 s1 (D1 R1) /\ resumed_session 0 (D1 R1) s2 (D2 R2 (D1 R1)) /\
    s_surf unit s2 = [P1; P1; P2].
Proof.
  destruct (first_inv _ _ _ _ _ (first_of R1)) as (_ & _ & H & g & C).
  eexists _, _. split; [exact (first_of R1)|].
  split; [exact (resumed_of R2 _ _ C H) | lazy; reflexivity].
Qed.

(** A simulation that has been resumed cannot be resumed again where it ended: a resumed
    simulation never writes its configuration, so the next one continues with the interval,
    the time and the elapsed time of the first session on the surface of the last. *)
Theorem C83_resume_again_refuted :
  ~ (forall id (d0 : disk unit) s1 d1 s2 d2 fresh s3 w,
       first_session id d0 s1 d1 -> resumed_session id d1 s2 d2 -> restart id fresh d2 = Ok (s3, w) ->
       s_counters unit s3 = s_counters unit s2).
Proof. exact again_refuted. Qed.
Print Assumptions C83_resume_again_refuted.

(** C83: the counters stay those of the first session however often it is resumed. *)
Theorem C83_counters_stay : forall (G : Type) id d0 (s1 : sim G) d1 d2 fresh,
  first_session id d0 s1 d1 -> resumed_sessions id d1 d2 ->
  exists s, restart id fresh d2 = Ok (s, []) /\ s_counters G s = s_counters G s1.
Proof. exact stuck. Qed.
Print Assumptions C83_counters_stay.

(** A third session can be lost altogether: it saves its surfaces under interval numbers that
    the second session has used, and the next start reads the largest number. *)
Theorem C83_lost_refuted :
  ~ (forall id (d0 : disk unit) s1 d1 s2 d2 s3 d3 fresh s4 w,
       first_session id d0 s1 d1 -> resumed_session id d1 s2 d2 -> resumed_session id d2 s3 d3 ->
       restart id fresh d3 = Ok (s4, w) -> s_surf unit s4 = s_surf unit s3).
Proof. exact lost_refuted. Qed.
Print Assumptions C83_lost_refuted.

(** C83: if the program stops anywhere in an iteration of the first session, the next start
    fails, or has the finished state, or has the surface from before the iteration with the
    interval from before or with all counters from after it. Missing: the counters then do
    not describe the surface, see the next three theorems. *)
Theorem C83_crash_partial : forall (G : Type) id d0 (s : sim G) d p g s' w d' fresh,
  first_session id d0 s d -> iterate G p g s = (s', w) -> crash d w d' ->
  restart id fresh d' = Err TypeError \/
  exists s3, restart id fresh d' = Ok (s3, []) /\
    ((s_surf G s3 = s_surf G s' /\ s_counters G s3 = s_counters G s') \/
     (s_surf G s3 = s_surf G s /\
      (c_interval (s_counters G s3) = c_interval (s_counters G s) \/ s_counters G s3 = s_counters G s'))).
Proof. exact crash_cases. Qed.
Print Assumptions C83_crash_partial.

(** A crash is not always repaired by resuming: in every iteration there is a point after
    which the period counts as simulated although its craters are not on the surface. *)
Theorem C83_crash_skips_refuted : forall (G : Type) id d0 (s : sim G) d p g s' w fresh,
  first_session id d0 s d -> iterate G p g s = (s', w) ->
  exists d' s3, crash d w d' /\ restart id fresh d' = Ok (s3, []) /\
    s_counters G s3 = s_counters G s' /\ s_surf G s3 = s_surf G s.
Proof. exact crash_skips. Qed.
Print Assumptions C83_crash_skips_refuted.

(** There is also a point in every iteration after which the elapsed time contains the period
    although the next start will simulate it again. *)
Theorem C83_crash_repeats_refuted : forall (G : Type) id d0 (s : sim G) d p g s' w fresh,
  first_session id d0 s d -> iterate G p g s = (s', w) ->
  exists d' s3, crash d w d' /\ restart id fresh d' = Ok (s3, []) /\
    s_surf G s3 = s_surf G s /\ c_interval (s_counters G s3) = c_interval (s_counters G s) /\
    c_time (s_counters G s3) = c_time (s_counters G s) /\
    c_elapsed (s_counters G s3) = c_elapsed (s_counters G s) + p_dt p.
Proof. exact crash_repeats. Qed.
Print Assumptions C83_crash_repeats_refuted.

(** And there is a point in every iteration after which the simulation cannot be resumed: the
    configuration is truncated before it is written, and an empty one raises TypeError. *)
Theorem C83_crash_unreadable_refuted : forall (G : Type) id d0 (s : sim G) d p g s' w,
  first_session id d0 s d -> iterate G p g s = (s', w) ->
  exists d', crash d w d' /\ forall fresh, restart id fresh d' = Err TypeError.
Proof. exact crash_unreadable. Qed.
Print Assumptions C83_crash_unreadable_refuted.
Example C83_crash_example : exists s s' w, first_session 0 D0 s (D1 R1) /\ iterate unit P2 tt s = (s', w) /\
  c_interval (s_counters unit s') = 2%nat.
Proof. eexists _, _, _. split; [exact (first_of R1)|]. split; [apply surjective_pairing | lazy; reflexivity]. Qed.

(** A crash while a simulation is being reset can leave the old surface with the counters of a
    new simulation, and the next start resumes from that. *)
Theorem C83_reset_crash_refuted : forall (G : Type) ask answer id fresh fresh' (d : disk G) k c,
  d_grid G d = Some id -> latest (d_surf G d) = Some (k, c) ->
  exists s w d' s', construct G (Some true) ask answer id fresh d = Ok (s, w) /\ crash d w d' /\
    restart id fresh' d' = Ok (s', []) /\ s_counters G s' = counters0 /\ s_surf G s' = c.
Proof. exact reset_crash. Qed.
Print Assumptions C83_reset_crash_refuted.
Example C83_reset_crash_example : d_grid unit (D1 R2) = Some 0%nat /\ latest (d_surf unit (D1 R2)) = Some (2%nat, [P1; P2]).
Proof. split; lazy; reflexivity. Qed.

(** Without a configuration file the default is not to reset, contrary to the documentation: an
    old surface is kept with the counters at zero, and the configuration is never written. *)
Theorem C83_default_refuted : forall (G : Type) ask answer id fresh (d : disk G) k c,
  d_conf G d = Absent G -> d_grid G d = Some id -> latest (d_surf G d) = Some (k, c) ->
  exists s w, construct G None ask answer id fresh d = Ok (s, w) /\
    s_counters G s = counters0 /\ s_surf G s = c /\
    forall l s' w', do_ops G l s = (s', w') -> d_conf G (apply_all G d (w ++ w')) = Absent G.
Proof. exact no_config. Qed.
Print Assumptions C83_default_refuted.
Example C83_default_example :
  let d := mkDisk unit (Absent unit) (Some 0%nat) [(1%nat, [P1])] [] in
  d_grid unit d = Some 0%nat /\ latest (d_surf unit d) = Some (1%nat, [P1]).
Proof. split; reflexivity. Qed.

(** The random numbers of a resumed simulation do not continue those of the saved one: the
    state in the configuration is replaced by that of the generator made from the arguments. *)
Theorem C83_rng_refuted : forall (G : Type) id fresh (d : disk G) s w,
  restart id fresh d = Ok (s, w) -> s_rng G s = fresh.
Proof. exact rng_lost. Qed.
Print Assumptions C83_rng_refuted.
Example C83_rng_example : forall g : nat, exists s w,
  restart 0 5%nat (mkDisk nat (Written nat (mkConf nat counters0 g)) (Some 0%nat) [] []) = Ok (s, w).
Proof. intros. eexists _, _. reflexivity. Qed.
