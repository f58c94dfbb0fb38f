(** C116: the options of a tally and the craters they reach. *)
From Coq Require Import Reals List Bool Arith Lia Lra.
From Verif Require Import Common Tally_model Tally_spec Tally_proofs.
Import ListNotations.
Open Scope string_scope.

Section Props.
Variables val measured : Type.
Variable no : val.
Variable fit : nat -> val -> val -> kwargs val -> measured -> result measured.
Variable degrade : nat -> kwargs val -> measured -> result (measured * R).
Variable visible : nat -> kwargs val -> measured -> result R.
Variable promote : measured -> measured.
Notation tally := (tally val measured no fit degrade visible).
Notation known := (known measured).
Notation values := (values measured).
Notation observed := (observed measured).
Notation emplaced := (emplaced measured).
Notation crater_of := (crater_of measured).
Notation measured_as := (measured_as val measured fit degrade visible).
Notation option_of := (option_of val no).

(** Every observed crater on the surface is measured once, in the order of the ids, with the arguments
    of the tally; what to fit is said for the first one only. *)
Theorem C116_calls_partial : forall mr kw ids s t s', tally mr kw ids s = (t, s', None) ->
  t = expected val no mr kw (known s ids).
Proof. exact (tally_calls val measured no fit degrade visible). Qed.

(** When neither option is given, or no rim is measured, all craters are treated alike. *)
Theorem C116_alike : forall mr kw ids s t s', tally mr kw ids s = (t, s', None) ->
  mr = false \/ (has val "fit_center" kw = false /\ has val "fit_ellipse" kw = false) ->
  t = flat_map (calls_for val mr no no kw) (known s ids).
Proof. exact (tally_alike val measured no fit degrade visible). Qed.

(** fit_center and fit_ellipse reach only the crater with the smallest id: the second one is measured
    with False, whatever was asked for. *)
Theorem C116_options_refuted : forall kw ids s t s' i j r, tally true kw ids s = (t, s', None) -> known s ids = i :: j :: r ->
  In (FitRim val i (option_of "fit_center" kw) (option_of "fit_ellipse" kw) (others val kw)) t /\
  In (FitRim val j no no (others val kw)) t.
Proof. exact (tally_first val measured no fit degrade visible). Qed.

(** What a tally leaves: a crater on the surface has the measurements made with its options and stays
    unless it is too worn; a crater that is not on the surface is left as it is. *)
Theorem C116_results : forall mr kw ids s t s', tally mr kw ids s = (t, s', None) -> NoDup ids -> distinct measured s ->
  forall i r, crater_of i s = Some r ->
  (~ In i ids -> crater_of i s' = Some r /\ values s' r = values s r) /\
  (In i ids ->
     (first measured s ids i -> measured_as mr (option_of "fit_center" kw) (option_of "fit_ellipse" kw) kw i (values s r) (values s' r) (crater_of i s' = None)) /\
     (~ first measured s ids i -> measured_as mr no no kw i (values s r) (values s' r) (crater_of i s' = None)) /\
     (crater_of i s' = None \/ crater_of i s' = Some r)).
Proof. exact (tally_results val measured no fit degrade visible). Qed.

(** When a measurement raises, no crater is removed, not even those already found too worn, and the
    objects of craters that are not on the surface are as they were. *)
Theorem C116_raised : forall mr kw ids s t s' e, tally mr kw ids s = (t, s', Some e) ->
  observed s' = observed s /\ emplaced s' = emplaced s /\
  (forall q, (forall i, In i ids -> crater_of i s <> Some q) -> values s' q = values s q).
Proof. exact (tally_raised val measured no fit degrade visible). Qed.

(** An argument named crater ends a tally with TypeError, but only if there is a crater to measure;
    otherwise the ids of no crater are removed. *)
Theorem C116_clash : forall mr kw ids s, has val "crater" kw = true ->
  tally mr kw ids s = (if known s ids then ([], fold_left (fun s i => remove measured i s) ids s, None) else ([], s, Some TypeError)).
Proof. exact (tally_clash val measured no fit degrade visible). Qed.

(** Assigning a morphology makes all craters of both lists anew: the same ids, with what the maker
    keeps of their measurements, and no object in both lists. *)
Theorem C116_morphology : forall s, made measured s -> let s' := set_morphology measured promote s in
  List.length (emplaced s') = List.length (emplaced s) /\ map fst (observed s') = map fst (observed s) /\
  map (values s') (emplaced s') = map (fun r => promote (values s r)) (emplaced s) /\
  map (fun p => values s' (snd p)) (observed s') = map (fun p => promote (values s (snd p))) (observed s) /\
  (forall r p, In r (emplaced s') -> In p (observed s') -> r <> snd p) /\ made measured s'.
Proof. exact (renewed_morphology measured promote). Qed.

(** So a crater that was listed as emplaced and as observed becomes two, and later tallies no longer
    change its measurements in the list of emplaced craters. *)
Theorem C116_shared_refuted : forall s mr kw ids, made measured s ->
  let s1 := set_morphology measured promote s in let s2 := snd (fst (tally mr kw ids s1)) in
  emplaced s2 = emplaced s1 /\ map (values s2) (emplaced s2) = map (fun r => promote (values s r)) (emplaced s).
Proof. intros s mr kw ids. exact (separated val measured no fit degrade visible promote s mr kw ids). Qed.
End Props.
Print Assumptions C116_calls_partial.
Print Assumptions C116_alike.
Print Assumptions C116_options_refuted.
Print Assumptions C116_results.
Print Assumptions C116_raised.
Print Assumptions C116_clash.
Print Assumptions C116_morphology.
Print Assumptions C116_shared_refuted.

Example C116_calls_partial_ex : exists t s', tally bool nat false ex_fit ex_degrade ex_visible true ex_kw [1; 2; 5] ex_counts = (t, s', None) /\
  List.length t = 6 /\ values nat s' 0 = 100 /\ values nat s' 1 = 11 /\ values nat s' 2 = 2 /\
  crater_of nat 2 s' = Some 0 /\ crater_of nat 5 s' = None.
Proof. exact ex_run. Qed.
Example C116_alike_ex : exists t s', tally bool nat false ex_fit ex_degrade ex_visible true [("tol", true)] [2; 5] ex_counts = (t, s', None) /\
  List.length t = 6.
Proof. eexists _, _. split; reflexivity. Qed.
Example C116_options_refuted_ex : exists t s', tally bool nat false ex_fit ex_degrade ex_visible true ex_kw [1; 2; 5] ex_counts = (t, s', None) /\
  In (FitRim bool 2 true false [("tol", true)]) t /\ In (FitRim bool 5 false false [("tol", true)]) t.
Proof. eexists _, _. split; [reflexivity|]. split; cbn; auto 8. Qed.
Example C116_results_ex : distinct nat ex_counts /\ NoDup [1; 2; 5] /\ first nat ex_counts [1; 2; 5] 2.
Proof.
  split; [|split; [repeat constructor; cbn; lia | reflexivity]].
  intros i j r. unfold crater_of. cbn.
  destruct i as [|[|[|[|[|[|[|[|[|[|i]]]]]]]]]], j as [|[|[|[|[|[|[|[|[|[|j]]]]]]]]]]; cbn; congruence.
Qed.
Example C116_raised_ex : exists t s', tally bool nat false (fun i _ _ _ x => if Nat.eqb i 5 then Err ValueError else Ok (x + 10)) ex_degrade ex_visible
    true ex_kw [1; 2; 5] ex_counts = (t, s', Some ValueError) /\ values nat s' 0 = 10 /\ observed nat s' = observed nat ex_counts.
Proof. eexists _, _. repeat split. Qed.
Example C116_clash_ex : tally bool nat false ex_fit ex_degrade ex_visible true [("crater", true)] [2] ex_counts = ([], ex_counts, Some TypeError).
Proof. reflexivity. Qed.
Example C116_morphology_ex : made nat ex_counts /\ emplaced nat (set_morphology nat (fun x => x) ex_counts) = [3; 4].
Proof. split; [|reflexivity]. split; [intros r I | intros p I]; cbn in *; repeat (destruct I as [<-|I]; [cbn; lia|]); destruct I. Qed.
Example C116_shared_refuted_ex :
  let s1 := set_morphology nat (fun x => x) ex_counts in
  let s2 := snd (fst (tally bool nat false ex_fit ex_degrade ex_visible true ex_kw [2; 5] s1)) in
  values nat s1 3 = 0 /\ values nat s2 3 = 0 /\ crater_of nat 2 s1 = Some 5 /\ values nat s2 5 = 100.
Proof. exact ex_two. Qed.
