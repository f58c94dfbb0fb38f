(** C127: quasi-Monte Carlo craters given to a simulation are used when it is populated. *)
From Coq Require Import List Reals.
From Verif Require Import Common Flag_model Flag_spec Flag_proofs.
Import ListNotations.
Open Scope R_scope.

(** While the simulation was neither populated nor asked, populating it merges exactly the craters given
    last whose times lie in the period, whatever was given before.
    Missing: craters given later (C127_first_question, C127_late_refuted). *)
Theorem C127_before_partial : forall crater (time : crater -> R) process l es,
  Forall gives es -> merges_given time (history time process (new_sim crater l) es).
Proof. intros crater. exact before_asked. Qed.
Print Assumptions C127_before_partial.
Example C127_before_partial_ex : Forall gives [Given (List R [3; 5])] /\ In 3 (quasi R (history own keep (new_sim R []) [Given (List R [3; 5])])).
Proof. exact early_ex. Qed.

(** If craters are there when the simulation is first asked or populated, every later population merges
    the craters given by then, through every later history that does not switch it. *)
Theorem C127_first_question : forall crater (time : crater -> R) process l early ask es,
  Forall gives early -> (ask = Asked \/ exists a b, ask = Populated a b) -> Forall (fun e => ~ sets_flag e) es ->
  let at_first := history time process (new_sim crater l) early in
  quasi crater at_first <> [] -> merges_given time (history time process (happens time process at_first ask) es).
Proof. intros crater time process l early ask es G A F. exact (proj1 (first_ask time process l early ask es G A F)). Qed.
Print Assumptions C127_first_question.
Example C127_first_question_ex : Forall gives [Given (List R [3; 5])] /\ In 3 (quasi R (history own keep (new_sim R []) [Given (List R [3; 5])])).
Proof. exact early_ex. Qed.

(** If no crater is there when the simulation is first asked or populated, no later population merges
    any, whatever craters are given afterwards: the answer is remembered. *)
Theorem C127_late_refuted : forall crater (time : crater -> R) process l early ask es,
  Forall gives early -> (ask = Asked \/ exists a b, ask = Populated a b) -> Forall (fun e => ~ sets_flag e) es ->
  let at_first := history time process (new_sim crater l) early in
  quasi crater at_first = [] -> merges_none time (history time process (happens time process at_first ask) es).
Proof. intros crater time process l early ask es G A F. exact (proj2 (first_ask time process l early ask es G A F)). Qed.
Print Assumptions C127_late_refuted.
Example C127_late_refuted_ex : Forall gives [Given (Absent R)] /\ quasi R (history own keep (new_sim R []) [Given (Absent R)]) = []
  /\ quasi R (history own keep (happens own keep (new_sim R []) Asked) [Given (List R [3])]) = [3]
  /\ Forall (fun e => ~ sets_flag e) [Given (List R [3])].
Proof. exact late_ex. Qed.

(** Switching it on or off holds until it is switched again: on, populations merge the craters given;
    off, none. *)
Theorem C127_switched : forall crater (time : crater -> R) process s b es,
  Forall (fun e => ~ sets_flag e) es ->
  let s' := history time process (happens time process s (Flagged (Truth b))) es in
  fst (do_quasimc crater s') = b /\ (if b then merges_given time s' else merges_none time s').
Proof. intros crater. exact flagged. Qed.
Print Assumptions C127_switched.
Example C127_switched_ex : Forall (fun e : event R => ~ sets_flag e) [Asked; Populated 4 0; Given (List R [3]); Flagged Nothing].
Proof. exact flagged_ex. Qed.

(** The switch cannot be given back: None, which is documented, and every other value that is not a bool
    are a TypeError that changes nothing. *)
Theorem C127_none_refuted : forall crater (time : crater -> R) process s v, (forall b, v <> Truth b) ->
  set_do_quasimc crater s v = Err TypeError /\ happens time process s (Flagged v) = s.
Proof. intros crater. exact no_reset. Qed.
Print Assumptions C127_none_refuted.
Example C127_none_refuted_ex : forall b, Nothing <> Truth b.
Proof. exact (fun b (e : Nothing = Truth b) => match e in _ = v return match v with Nothing => True | _ => False end with eq_refl => I end). Qed.

(** The list given replaces the one before: None and an empty list clear it, craters are treated first,
    and a wrong value or a failing treatment leaves everything as it was. *)
Theorem C127_given : forall crater (time : crater -> R) process s v,
  (v = Absent crater \/ v = List crater [] -> quasi crater (happens time process s (Given v)) = [])
  /\ (forall l, v = List crater l -> l <> [] -> forall l', process l = Ok l' -> quasi crater (happens time process s (Given v)) = l')
  /\ ((v = Wrong crater \/ exists l e, v = List crater l /\ l <> [] /\ process l = Err e) -> happens time process s (Given v) = s).
Proof. intros crater. exact given_list. Qed.
Print Assumptions C127_given.
Example C127_given_ex : quasi R (happens own keep (new_sim R [1]) (Given (List R [3]))) = [3].
Proof. exact eq_refl. Qed.

(** Asking, populating and switching leave the list of craters given as it is. *)
Theorem C127_list_kept : forall crater (time : crater -> R) process es s,
  Forall (fun e => ~ gives e) es -> quasi crater (history time process s es) = quasi crater s.
Proof. intros crater. exact list_kept. Qed.
Print Assumptions C127_list_kept.
Example C127_list_kept_ex : Forall (fun e : event R => ~ gives e) [Asked; Populated 4 0; Flagged (Truth false)].
Proof. exact kept_ex. Qed.
