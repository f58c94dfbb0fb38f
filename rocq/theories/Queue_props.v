(** C28-C30, C49: the emplacement queue. *)
From Coq Require Import QArith.
From Verif Require Import Common Queue_model Queue_spec Queue_proofs.
Import ListNotations.

(** C28: an emplacement that returns normally forms what was already queued and
    then every emplaceable crater of the list, once each, in order, and leaves
    the queue empty; whatever the overlaps, the surface, the counting settings
    and the degradation settings. *)
Theorem C28_formed_once_in_order :
  forall W g form degrade apply_degradation tally do_subpixel do_counting cadence cs s s',
  emplace W g form degrade apply_degradation tally do_subpixel do_counting cadence cs s = inl (s', None) ->
  queue W s' = [] /\
  formed (trace W s') = formed (trace W s) ++ queue W s ++ filter (emplaceable g) cs.
Proof. exact emplace_order. Qed.
Print Assumptions C28_formed_once_in_order.

(** ... and it always returns (the loop terminates), normally when no call fails. *)
Theorem C28_terminates :
  forall W g form degrade apply_degradation tally do_subpixel do_counting cadence cs s,
  (forall c w, exists w', form c w = Ok w') ->
  (forall a b w, exists w', degrade a b w = Ok w') ->
  (forall w, exists w', apply_degradation w = Ok w') ->
  (forall w, exists w', tally w = Ok w') ->
  exists s', emplace W g form degrade apply_degradation tally do_subpixel do_counting cadence cs s
             = inl (s', None).
Proof. exact emplace_total. Qed.
Print Assumptions C28_terminates.
Example C28_case : exists s', run form_ok [1; 4; 2; 3]%nat start = inl (s', None) /\
  formed (trace nat s') = [1; 2; 3]%nat.
Proof. eexists. split; vm_compute; reflexivity. Qed.

(** C29: the batch is a non-empty pairwise disjoint prefix and cannot be extended. *)
Theorem C29_batch : forall g queue,
  is_prefix (peek_next_batch g queue) queue /\
  pairwise_disjoint g (peek_next_batch g queue) /\
  (queue <> [] -> peek_next_batch g queue <> []) /\
  (forall c r, queue = peek_next_batch g queue ++ c :: r ->
     exists a, In a (peek_next_batch g queue) /\ overlap g a c).
Proof. exact batch_spec. Qed.
Print Assumptions C29_batch.
Example C29_case : peek_next_batch g0 [1; 2; 3]%nat = [1; 2]%nat /\ overlap g0 1%nat 3%nat.
Proof. split; [reflexivity|]. left. exists 11%nat. simpl. auto. Qed.

(** C30: exactly what is formed and what stays queued when a call raises.
    [done] (the finished batches) is never formed again; [pre] is a prefix of the
    interrupted batch and stays queued.  Missing from the full property: [pre]. *)
Theorem C30_failure_partial :
  forall W g form degrade apply_degradation tally do_subpixel do_counting cadence cs s,
  exists s' e,
  emplace W g form degrade apply_degradation tally do_subpixel do_counting cadence cs s = inl (s', e) /\
  exists done,
    queue W s ++ filter (emplaceable g) cs = done ++ queue W s' /\
    exists pre, formed (trace W s') = formed (trace W s) ++ done ++ pre /\
      is_prefix pre (peek_next_batch g (queue W s')) /\
      (e = None -> queue W s' = [] /\ pre = []).
Proof. exact emplace_spec. Qed.
Print Assumptions C30_failure_partial.

(** When each queued crater overlaps the next one, a batch is a single crater,
    so only the crater that failed can be formed again. *)
Theorem C30_singleton_batches_partial : forall g q,
  (forall i a b, nth_error q i = Some a -> nth_error q (S i) = Some b -> overlap g a b) ->
  (List.length (peek_next_batch g q) <= 1)%nat.
Proof. exact singleton_batches. Qed.
Print Assumptions C30_singleton_batches_partial.
Example C30_singleton_case : overlap g0 1%nat 3%nat /\ peek_next_batch g0 [1; 3]%nat = [1]%nat.
Proof. split; [left; exists 11%nat; simpl; auto|reflexivity]. Qed.

(** Finding: after a failure on the second crater of a batch, emplacing again
    (nothing new) forms the first crater a second time. *)
Theorem C30_no_repeat_refuted : exists s1 s2,
  run form_flaky [1; 2]%nat start = inl (s1, Some ValueError) /\
  run form_flaky [] (mk_st nat (queue nat s1) 5%nat (trace nat s1)) = inl (s2, None) /\
  formed (trace nat s2) = [1; 2; 1; 2]%nat.
Proof. eexists. eexists. split; [|split]; vm_compute; reflexivity. Qed.
Print Assumptions C30_no_repeat_refuted.

(** C49: with craters given oldest first, no instant is degraded twice.
    Missing: that every instant between the first and the last crater is. *)
Theorem C49_no_double_degradation_partial :
  forall W g form degrade apply_degradation tally do_subpixel do_counting cadence cs s s' e,
  time_ordered g (queue W s ++ filter (emplaceable g) cs) ->
  emplace W g form degrade apply_degradation tally do_subpixel do_counting cadence cs s = inl (s', e) ->
  exists D, degraded (trace W s') = degraded (trace W s) ++ D /\
    no_double_degradation g (queue W s ++ filter (emplaceable g) cs) D.
Proof. exact emplace_degraded. Qed.
Print Assumptions C49_no_double_degradation_partial.
Example C49_case : exists s', run form_ok [1; 2; 3]%nat start = inl (s', None) /\
  degraded (trace nat s') = [(30, 20)]%Q.
Proof. eexists. split; vm_compute; reflexivity. Qed.

(** Finding: craters 1 and 3 overlap, so each is a batch of its own and the 20
    time units between them receive no degradation at all. *)
Theorem C49_full_coverage_refuted : exists s',
  run form_ok [1; 3]%nat start = inl (s', None) /\
  time g0 1%nat = Some 30%Q /\ time g0 3%nat = Some 10%Q /\
  degraded (trace nat s') = [].
Proof. eexists. repeat split; vm_compute; reflexivity. Qed.
Print Assumptions C49_full_coverage_refuted.
