(** C114: the file of emplaced craters of an interval lists the craters emplaced in it. *)
From Coq Require Import List Arith Permutation Lia.
From Verif Require Import Batch_model Batch_spec Batch_proofs.
Import ListNotations.

(** However many turns a run makes and whatever was done before it, the file of emplaced craters
    of each interval lists exactly the craters emplaced in that turn, and the file of observed
    craters exactly those observed at its end; a turn without any leaves the file of its interval
    as it was. *)
Theorem C114_run : forall ts s k cs seen, nth_error ts k = Some (cs, seen) ->
  let s' := step s (ORun ts) in let i := first_interval s + k + 1 in
  (cs <> [] -> holds (e_files s') i cs) /\ (cs = [] -> same_file (e_files s) (e_files s') i) /\
  (seen <> [] -> holds (o_files s') i seen) /\ (seen = [] -> same_file (o_files s) (o_files s') i).
Proof. exact run_nth. Qed.
Print Assumptions C114_run.
Example C114_run_ex : nth_error [([3; 1], [1]); ([], [1]); ([2], [])] 2 = Some ([2], @nil nat) /\
  e_files (step fresh (ORun [([3; 1], [1]); ([], [1]); ([2], [])])) = [(3, [2]); (1, [1; 3])].
Proof. split; reflexivity. Qed.

(** A run leaves the files of all other intervals alone; the lists it leaves are those of its
    last turn, and the interval has advanced by the number of turns. *)
Theorem C114_run_others : forall ts s j, j < first_interval s \/ first_interval s + length ts < j ->
  let s' := step s (ORun ts) in
  same_file (e_files s) (e_files s') j /\ same_file (o_files s) (o_files s') j.
Proof. exact run_others. Qed.
Print Assumptions C114_run_others.
Example C114_run_others_ex : 0 < first_interval (mkSim [] [] 5 false true [(2, [7])] []) \/ 5 + 1 < 0.
Proof. left. cbn. lia. Qed.

Theorem C114_run_end : forall ts s cs seen, let s' := step s (ORun (ts ++ [(cs, seen)])) in
  emplaced s' = cs /\ observed s' = seen /\ interval s' = first_interval s + length ts + 1.
Proof. exact run_last. Qed.
Print Assumptions C114_run_end.
Example C114_run_end_ex : emplaced (step fresh (ORun ([([3; 1], [1])] ++ [([2], [])]))) = [2].
Proof. reflexivity. Qed.

(** Craters emplaced by any number of calls in one interval are all in its file once it is saved. *)
Theorem C114_one_interval : forall s calls k, k <> Observed ->
  emplaced s ++ List.concat (map fst calls) <> [] ->
  let s1 := session (map (fun t => OEmplace (fst t) (snd t)) calls ++ [OSave k]) s in
  holds (e_files s1) (interval s) (emplaced s ++ List.concat (map fst calls)).
Proof. exact one_interval. Qed.
Print Assumptions C114_one_interval.
Example C114_one_interval_ex : Both <> Observed /\
  emplaced fresh ++ List.concat (map fst [([2], [2]); ([1], @nil nat)]) <> [].
Proof. split; discriminate. Qed.

(** Whatever is done, resumed or reset, no crater is listed, in the object or in a file, that was
    not emplaced since the last reset. *)
Theorem C114_nothing_invented : forall ops, let s := session ops fresh in
  incl (emplaced s) (put_since [] ops) /\ forall i l, file (e_files s) i l -> incl l (put_since [] ops).
Proof. exact invented. Qed.
Print Assumptions C114_nothing_invented.
Example C114_nothing_invented_ex :
  put_since [] [OEmplace [9] []; OReset; ORun [([3], [3])]; OResume] = [3] /\
  emplaced (session [OEmplace [9] []; OReset; ORun [([3], [3])]; OResume] fresh) = [3].
Proof. split; reflexivity. Qed.

(** When a run ends with an interval in which craters were emplaced, each once, and craters are
    observed, a resumed simulation has the same emplaced and observed craters.  Missing: other
    last intervals, the order of emplacement. *)
Theorem C114_resume_partial : forall ts cs seen s,
  no_later (e_files s) (first_interval s) -> no_later (o_files s) (first_interval s) ->
  cs <> [] -> seen <> [] -> NoDup cs -> NoDup seen ->
  let s' := session [ORun (ts ++ [(cs, seen)]); OResume] s in
  Permutation (emplaced s') cs /\ Permutation (observed s') seen.
Proof. exact resume_run. Qed.
Print Assumptions C114_resume_partial.
Example C114_resume_partial_ex : no_later (e_files fresh) (first_interval fresh) /\ NoDup [3; 1] /\ [3; 1] <> [] /\
  emplaced (session [ORun ([([5], [])] ++ [([3; 1], [1])]); OResume] fresh) = [1; 3].
Proof. repeat split; try discriminate; [intros j l [] | repeat constructor; cbn; lia]. Qed.

(** The emplaced craters are not restored when no crater has been observed, or when the last
    interval with observed craters is not the last one with emplaced craters. *)
Theorem C114_unseen_refuted : forall s, (o_files s = [] -> emplaced (step s OResume) = []) /\
  (forall i j l m, latest (o_files s) = Some (i, l) -> latest (e_files s) = Some (j, m) -> i <> j ->
     emplaced (step s OResume) = []).
Proof. exact resume_none. Qed.
Print Assumptions C114_unseen_refuted.
Example C114_unseen_refuted_ex : let s := step fresh (ORun [([3], [3]); ([2; 1], [])]) in
  emplaced s = [2; 1] /\ latest (e_files s) = Some (2, [1; 2]) /\ latest (o_files s) = Some (1, [3]) /\
  emplaced (step s OResume) = [] /\ observed s = [] /\ observed (step s OResume) = [3].
Proof. repeat split. Qed.

(** A resumed simulation lists the emplaced craters by their id, not in chronological order. *)
Theorem C114_order_refuted : exists ts,
  emplaced (session [ORun ts] fresh) = [3; 1] /\ emplaced (session [ORun ts; OResume] fresh) = [1; 3].
Proof. exists [([3; 1], [3])]. split; reflexivity. Qed.
Print Assumptions C114_order_refuted.
Example C114_order_refuted_ex : e_files (session [ORun [([3; 1], [3])]] fresh) = [(1, [1; 3])].
Proof. reflexivity. Qed.

(** A crater that is emplaced more than once is in the list and in the file, but it is skipped,
    all of its entries, when the file is read. *)
Theorem C114_twice_refuted : forall cs seen c, count_occ Nat.eq_dec cs c > 1 ->
  let s := session [OEmplace cs seen; OSave Both; OResume] fresh in
  In c (emplaced (session [OEmplace cs seen; OSave Both] fresh)) /\ ~ In c (emplaced s).
Proof. exact twice. Qed.
Print Assumptions C114_twice_refuted.
Example C114_twice_refuted_ex : count_occ Nat.eq_dec [4; 7; 4] 4 > 1 /\
  emplaced (session [OEmplace [4; 7; 4] [4; 7]; OSave Both; OResume] fresh) = [7].
Proof. split; [cbn; lia | reflexivity]. Qed.

(** A file gives back the craters that occur in it once, and no others. *)
Theorem C114_read : forall l c, In c (read l) <-> count_occ Nat.eq_dec l c = 1.
Proof. exact read_iff. Qed.
Print Assumptions C114_read.
Example C114_read_ex : read [1; 4; 4; 7] = [1; 7]. Proof. reflexivity. Qed.

(** Craters emplaced in a new simulation before it is run are in no file of emplaced craters:
    emplacing marks the simulation as not new, so the run does not save its first state, and its
    first turn empties the list. *)
Theorem C114_before_run_refuted : forall cs seen ts c, In c cs -> (forall t, In t ts -> ~ In c (fst t)) ->
  forall i l, file (e_files (session [OEmplace cs seen; ORun ts] fresh)) i l -> ~ In c l.
Proof. exact lost_before. Qed.
Print Assumptions C114_before_run_refuted.
Example C114_before_run_refuted_ex : In 8 [8] /\
  e_files (session [OEmplace [8] [8]; ORun [([2], [2; 8])]] fresh) = [(1, [2])] /\
  o_files (session [OEmplace [8] [8]; ORun [([2], [2; 8])]] fresh) = [(1, [2; 8])].
Proof. repeat split. left. reflexivity. Qed.

(** Saving does not empty the list of emplaced craters, as it is documented to do: the file of
    the next interval repeats the craters of the one before. *)
Theorem C114_save_refuted : forall cs1 seen1 cs2 seen2, cs1 <> [] ->
  let s := session [OEmplace cs1 seen1; OSave Both; OSetInterval 1; OEmplace cs2 seen2; OSave Both] fresh in
  holds (e_files s) 0 cs1 /\ holds (e_files s) 1 (cs1 ++ cs2).
Proof. exact carried. Qed.
Print Assumptions C114_save_refuted.
Example C114_save_refuted_ex : [2] <> [] /\
  e_files (session [OEmplace [2] []; OSave Both; OSetInterval 1; OEmplace [1] []; OSave Both] fresh)
  = [(1, [1; 2]); (0, [2])].
Proof. split; [discriminate | reflexivity]. Qed.
