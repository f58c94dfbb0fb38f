(** Particular lists of quasi-Monte-Carlo craters. *)
From Coq Require Import Reals ZArith Lra Lia Permutation Sorted.
From Verif Require Import Common RSum Sorting Quasi_model Quasi_spec Measure_spec Quasi_proofs Quasi_order Quasi_dates Quasi_two Quasi_passes.
Open Scope R_scope.

(** A chronology in which a number is its age, a constant size distribution, and draws at the
    lower bound and at two standard deviations below the mean. *)
Definition w_csfd (_ : R) : R := 1.
Definition w_number (t : R) : result R := Ok t.
Definition w_age (n : R) : result R := if Rlt_dec n 0 then Err ValueError else Ok n.
Definition w_trunc (_ : nat) (_ _ lo _ : R) : R := lo.
Definition w_normal (_ : nat) (m s : R) : R := m - 2 * s.
Definition w_process := process w_csfd w_number w_age 1 w_trunc w_normal.
Lemma w_age_like : age_like w_age.
Proof.
  split; [intros n t|intros n m t u L]; unfold w_age.
  - destruct (Rlt_dec n 0); [discriminate|]. intros [= <-]. lra.
  - destruct (Rlt_dec n 0); [discriminate|]. destruct (Rlt_dec m 0); [discriminate|]. intros [= <-] [= <-]. exact L.
Qed.
Lemma w_trunc_ok : trunc_ok w_trunc.
Proof. intros i m s lo hi L. unfold w_trunc. lra. Qed.
Lemma w_age_ok n : 0 <= n -> w_age n = Ok n.
Proof. intros H. unfold w_age. destruct (Rlt_dec n 0); [lra|reflexivity]. Qed.
Definition at_time (k : nat) (t s : R) (q : option Z) : qcrater := mk_q k 1000 None (Some (t, s)) q.

(* ------------------------------ running the processing ------------------------------ *)
Notation w_contributions := (contributions w_csfd w_number 1).
Lemma w_contrib k t q : 0 <= t -> contribution w_csfd w_number 1 (at_time k t 0 q) = Ok [(t, 0)].
Proof. intros H. unfold contribution, at_time, w_number. cbn [q_ND q_time rbind]. rewrite Rmax_left by lra. repeat f_equal; lra. Qed.
Lemma w_draw i k t q e : 0 <= fst e -> 0 < snd e -> draw_in w_csfd w_age 1 w_trunc i (at_time k t 0 q) e = Ok (clamp t (fst e) (snd e)).
Proof.
  intros A B. unfold draw_in, bounds_of. rewrite (Rmax_left (fst e)) by lra. destruct (Req_EM_T _ 0) as [E|_]; [lra|].
  rewrite !w_age_ok by lra. cbn [rbind]. destruct (Req_EM_T _ 0) as [E|_]; [lra|]. cbn [rbind q_ND q_time at_time b_tlo b_thi].
  destruct (Rlt_dec 0 0); [lra|reflexivity].
Qed.
Lemma group_single t : group_value [(t, 0)] = (t, 0).
Proof. apply group_same; [discriminate|]. intros p [<-|[]]. reflexivity. Qed.

Definition w1 := at_time 1 1 0 (Some 1%Z).
Definition w2 := at_time 2 18 0 (Some 2%Z).
Definition w3 := at_time 3 17 0 (Some 3%Z).
Lemma w_last : exists res d, w_process None [w1; w2; w3] = Ok (res, d) /\ In (w2, 6143 / 512) res /\ In (w3, 3073 / 256) res.
Proof.
  unfold w_process, process.
  assert (V : number_from 0 (filter has_metadata [w1; w2; w3]) = [(0%nat, w1); (1%nat, w2); (2%nat, w3)]) by reflexivity. rewrite V. clear V.
  assert (G : sorted_groups [(0%nat, w1); (1%nat, w2); (2%nat, w3)] = [(1%Z, [(0%nat, w1)]); (2%Z, [(1%nat, w2)]); (3%Z, [(2%nat, w3)])]) by reflexivity. rewrite G. clear G.
  assert (X : sequence_extents w_csfd w_number 1 [(1%Z, [(0%nat, w1)]); (2%Z, [(1%nat, w2)]); (3%Z, [(2%nat, w3)])] =
    Ok [(1%Z, (6143 / 512, 3073 / 256)); (2%Z, (6143 / 512, 6143 / 512)); (3%Z, (3073 / 256, 6143 / 512))]).
  { unfold sequence_extents. cbn [group_values map snd contributions]. unfold w1, w2, w3. rewrite !w_contrib by lra. cbn [rbind app]. rewrite !group_single. cbn [rbind].
    unfold fill_in. cbn [map fst snd]. rewrite w_refine. reflexivity. }
  rewrite X. clear X. cbn [rbind].
  assert (F1 : filter (fun x => negb (is_tagged x)) [(0%nat, w1); (1%nat, w2); (2%nat, w3)] = []) by reflexivity.
  assert (F2 : filter is_tagged [(0%nat, w1); (1%nat, w2); (2%nat, w3)] = [(0%nat, w1); (1%nat, w2); (2%nat, w3)]) by reflexivity.
  rewrite F1, F2. clear F1 F2. cbn [draw_all rbind fst snd]. change (q_seq w1) with (Some 1%Z). change (q_seq w2) with (Some 2%Z). change (q_seq w3) with (Some 3%Z).
  cbn [lookup find fst snd Z.eqb Pos.eqb option_map].
  unfold w1 at 1, w2 at 1, w3 at 1.
  rewrite !w_draw by (cbn [fst snd]; lra). cbn [rbind fst snd app].
  assert (T1 : clamp 1 (6143 / 512) (3073 / 256) = 6143 / 512) by (unfold clamp, Rmax, Rmin; decide_all; lra).
  assert (T2 : clamp 18 (6143 / 512) (6143 / 512) = 6143 / 512) by (unfold clamp, Rmax, Rmin; decide_all; lra).
  assert (T3 : clamp 17 (3073 / 256) (6143 / 512) = 3073 / 256) by (unfold clamp, Rmax, Rmin; decide_all; lra).
  rewrite T1, T2, T3. clear T1 T2 T3.
  assert (C : sequence_is_consistent [(0%nat, 6143 / 512); (1%nat, 6143 / 512); (2%nat, 3073 / 256)] [(1%Z, [(0%nat, w1)]); (2%Z, [(1%nat, w2)]); (3%Z, [(2%nat, w3)])] = true).
  { cbn. unfold Rleb. decide_all. reflexivity. }
  rewrite C. eexists _, _. split; [reflexivity|]. split; (apply (Permutation_in _ (Permutation_sym (sort_perm _ _))); cbn; auto).
Qed.

(** Two craters with exact times and the same sequence number. *)
Definition m1 := at_time 1 100 0 (Some 1%Z).
Definition m2 := at_time 2 50 0 (Some 1%Z).
Lemma refine_exact n ext : 0 <= n -> refine 10 [(n, 0)] ext = [(n, n)].
Proof. intros H. rewrite refine_S. cbn [split_pass]. unfold Rltb. rewrite Rmax_left by lra. destruct (Rlt_dec _ _); [lra|]. cbn. repeat f_equal; lra. Qed.
Lemma w_moved : exists res d, w_process None [m1; m2] = Ok (res, d) /\ In (m1, 75) res /\ In (m2, 75) res.
Proof.
  unfold w_process, process.
  assert (V : number_from 0 (filter has_metadata [m1; m2]) = [(0%nat, m1); (1%nat, m2)]) by reflexivity. rewrite V. clear V.
  assert (G : sorted_groups [(0%nat, m1); (1%nat, m2)] = [(1%Z, [(0%nat, m1); (1%nat, m2)])]) by reflexivity. rewrite G. clear G.
  assert (X : sequence_extents w_csfd w_number 1 [(1%Z, [(0%nat, m1); (1%nat, m2)])] = Ok [(1%Z, (75, 75))]).
  { unfold sequence_extents. cbn [group_values map snd contributions]. unfold m1, m2. rewrite !w_contrib by lra. cbn [rbind app].
    assert (GV : group_value [(100, 0); (50, 0)] = (75, 0)).
    { unfold group_value. rewrite !lsum_cons, !lsum_nil. cbn [fst snd List.length INR]. replace (0 ^ 2 + (0 ^ 2 + 0)) with 0 by ring. rewrite sqrt_0. f_equal; lra. }
    rewrite GV. cbn [rbind]. unfold fill_in. cbn [map fst snd]. rewrite refine_exact by lra. reflexivity. }
  rewrite X. clear X. cbn [rbind].
  assert (F1 : filter (fun x => negb (is_tagged x)) [(0%nat, m1); (1%nat, m2)] = []) by reflexivity.
  assert (F2 : filter is_tagged [(0%nat, m1); (1%nat, m2)] = [(0%nat, m1); (1%nat, m2)]) by reflexivity.
  rewrite F1, F2. clear F1 F2. cbn [draw_all rbind fst snd]. change (q_seq m1) with (Some 1%Z). change (q_seq m2) with (Some 1%Z).
  cbn [lookup find fst snd Z.eqb Pos.eqb option_map].
  unfold m1 at 1, m2 at 1.
  rewrite !w_draw by (cbn [fst snd]; lra). cbn [rbind fst snd app].
  assert (T1 : clamp 100 75 75 = 75) by (unfold clamp, Rmax, Rmin; decide_all; lra).
  assert (T2 : clamp 50 75 75 = 75) by (unfold clamp, Rmax, Rmin; decide_all; lra).
  rewrite T1, T2. clear T1 T2. cbn [sequence_is_consistent removelast ordered_groups].
  eexists _, _. split; [reflexivity|]. split; (apply (Permutation_in _ (Permutation_sym (sort_perm _ _))); cbn; auto).
Qed.

(** A dated crater whose range reaches zero, and an undated one that follows it. *)
Definition z1 := at_time 1 5 10 (Some 1%Z).
Definition z2 := mk_q 2 1000 None None (Some 2%Z).
Lemma w_zero : w_process None [z1; z2] = Err ZeroDivisionError.
Proof.
  unfold w_process, process.
  assert (V : number_from 0 (filter has_metadata [z1; z2]) = [(0%nat, z1); (1%nat, z2)]) by reflexivity. rewrite V. clear V.
  assert (G : sorted_groups [(0%nat, z1); (1%nat, z2)] = [(1%Z, [(0%nat, z1)]); (2%Z, [(1%nat, z2)])]) by reflexivity. rewrite G. clear G.
  assert (X : sequence_extents w_csfd w_number 1 [(1%Z, [(0%nat, z1)]); (2%Z, [(1%nat, z2)])] = Ok [(1%Z, (0, 15)); (2%Z, (0, 0))]).
  { unfold sequence_extents. cbn [group_values map snd contributions].
    assert (C1 : contribution w_csfd w_number 1 z1 = Ok [(15 / 2, 15 / 2)]).
    { unfold contribution, z1, at_time, w_number. cbn [q_ND q_time rbind]. rewrite (Rmax_right (5 - 10)) by lra. repeat f_equal; lra. }
    assert (C2 : contribution w_csfd w_number 1 z2 = Ok []) by reflexivity. rewrite C1, C2. cbn [rbind app].
    assert (GV : group_value [(15 / 2, 15 / 2)] = (15 / 2, 15 / 2)).
    { unfold group_value. rewrite !lsum_cons, !lsum_nil. cbn [fst snd List.length INR]. rewrite !Rplus_0_r, sqrt_pow2 by lra. f_equal; lra. }
    rewrite GV. cbn [rbind]. unfold fill_in. cbn [map fst snd]. rewrite refine_S.
    assert (SP : split_pass None [(15 / 2, 15 / 2); (0, 0)] = [(0, 15); (0, 0)]) by pass_split. rewrite SP, join_two.
    assert (DE : (decreasing (map fst [((0 + 0) / 2, 15); (0, (0 + 0) / 2)]) && decreasing (map snd [((0 + 0) / 2, 15); (0, (0 + 0) / 2)]))%bool = true) by pass_dec. rewrite DE.
    cbn [combine map fst]. replace ((0 + 0) / 2) with 0 by lra. reflexivity. }
  rewrite X. clear X. cbn [rbind].
  assert (F1 : filter (fun x => negb (is_tagged x)) [(0%nat, z1); (1%nat, z2)] = []) by reflexivity.
  assert (F2 : filter is_tagged [(0%nat, z1); (1%nat, z2)] = [(0%nat, z1); (1%nat, z2)]) by reflexivity.
  rewrite F1, F2. clear F1 F2. cbn [draw_all rbind fst snd]. change (q_seq z1) with (Some 1%Z). change (q_seq z2) with (Some 2%Z).
  cbn [lookup find fst snd Z.eqb Pos.eqb option_map].
  assert (D1 : exists t, draw_in w_csfd w_age 1 w_trunc 0 z1 (0, 15) = Ok t).
  { unfold draw_in, bounds_of. cbn [fst snd]. rewrite (Rmax_left 0 0) by lra. destruct (Req_EM_T _ 0); [lra|]. rewrite !w_age_ok by lra. cbn [rbind]. destruct (Req_EM_T _ 0); [lra|].
    eexists. reflexivity. }
  destruct D1 as [t ->]. cbn [rbind].
  assert (D2 : draw_in w_csfd w_age 1 w_trunc 1 z2 (0, 0) = Err ZeroDivisionError).
  { unfold draw_in, bounds_of. cbn [fst snd]. rewrite (Rmax_left 0 0) by lra. destruct (Req_EM_T _ 0); [reflexivity|lra]. }
  rewrite D2. reflexivity.
Qed.
Lemma z_range c lo hi : In c [z1; z2] -> sigma_range w_csfd w_number 1 c lo hi -> c = z1 /\ lo = 0 /\ hi = 15.
Proof.
  intros [<-|[<-|[]]] S; inversion S as [d n s H1 H2 H3|m s H1 H2 H3 H4]; try discriminate. cbn in H2. injection H2 as <- <-.
  unfold w_number in *. rewrite Rmax_right in H3 by lra. injection H3 as <-. injection H4 as <-. repeat split; lra.
Qed.
Lemma z_in_order : in_order w_csfd w_number 1 [z1; z2].
Proof.
  split.
  - intros c lo hi I _ S. destruct (z_range c lo hi I S) as (_ & -> & ->). lra.
  - intros c1 c2 a b lo1 hi1 lo2 hi2 I1 I2 Q1 Q2 L S1 S2. destruct (z_range c1 _ _ I1 S1) as (-> & _), (z_range c2 _ _ I2 S2) as (-> & _). assert (a = b) by congruence. lia.
Qed.
Lemma z_anchored : anchored [z1; z2].
Proof.
  intros c a [<-|[<-|[]]] Q.
  - left. exists z1. split; [left; reflexivity|]. split; [exact Q|]. right. discriminate.
  - right. cbn in Q. intros c' b [<-|[<-|[]]] Q'; cbn in Q'; injection Q as <-; injection Q' as <-; lia.
Qed.

(** A crater dated 100 with an uncertainty of 100. *)
Definition n1 := at_time 1 100 100 None.
Lemma w_negative : w_process None [n1] = Ok ([(n1, -100)], Some 1000).
Proof.
  unfold w_process, process.
  assert (V : number_from 0 (filter has_metadata [n1]) = [(0%nat, n1)]) by reflexivity. rewrite V. clear V. 
  change (sorted_groups [(0%nat, n1)]) with (@nil (Z * list (nat * qcrater))). cbn [rbind].
  change (filter (fun x => negb (is_tagged x)) [(0%nat, n1)]) with [(0%nat, n1)]. change (filter is_tagged [(0%nat, n1)]) with (@nil (nat * qcrater)). cbn [draw_all fst snd].
  assert (D : draw_free w_csfd w_age 1 w_normal 0 n1 = Ok (-100)).
  { unfold draw_free, n1, at_time. cbn [q_ND q_time]. destruct (Rlt_dec 0 100); [|lra]. unfold w_normal. f_equal. lra. }
  rewrite D. reflexivity.
Qed.

(** Two craters with exact times in the order of their sequence numbers. *)
Definition o1 := at_time 1 100 0 (Some 1%Z).
Definition o2 := at_time 2 50 0 (Some 2%Z).
Lemma w_kept : exists res d, w_process None [o1; o2] = Ok (res, d) /\ In (o1, 100) res /\ In (o2, 50) res.
Proof.
  unfold w_process, process.
  assert (V : number_from 0 (filter has_metadata [o1; o2]) = [(0%nat, o1); (1%nat, o2)]) by reflexivity. rewrite V. clear V.
  assert (G : sorted_groups [(0%nat, o1); (1%nat, o2)] = [(1%Z, [(0%nat, o1)]); (2%Z, [(1%nat, o2)])]) by reflexivity. rewrite G. clear G.
  assert (X : sequence_extents w_csfd w_number 1 [(1%Z, [(0%nat, o1)]); (2%Z, [(1%nat, o2)])] = Ok [(1%Z, (75, 100)); (2%Z, (50, 75))]).
  { unfold sequence_extents. cbn [group_values map snd contributions]. unfold o1, o2. rewrite !w_contrib by lra. cbn [rbind app]. rewrite !group_single. cbn [rbind].
    unfold fill_in. cbn [map fst snd]. rewrite refine_S.
    assert (SP : split_pass None [(100, 0); (50, 0)] = [(75, 100); (50, 75)]) by pass_split. rewrite SP, join_two. replace ((75 + 75) / 2) with 75 by lra.
    assert (DE : (decreasing (map fst [(75, 100); (50, 75)]) && decreasing (map snd [(75, 100); (50, 75)]))%bool = true) by pass_dec. rewrite DE. reflexivity. }
  rewrite X. clear X. cbn [rbind].
  assert (F1 : filter (fun x => negb (is_tagged x)) [(0%nat, o1); (1%nat, o2)] = []) by reflexivity.
  assert (F2 : filter is_tagged [(0%nat, o1); (1%nat, o2)] = [(0%nat, o1); (1%nat, o2)]) by reflexivity.
  rewrite F1, F2. clear F1 F2. cbn [draw_all rbind fst snd]. change (q_seq o1) with (Some 1%Z). change (q_seq o2) with (Some 2%Z).
  cbn [lookup find fst snd Z.eqb Pos.eqb option_map]. unfold o1 at 1, o2 at 1.
  rewrite !w_draw by (cbn [fst snd]; lra). cbn [rbind fst snd app].
  assert (T1 : clamp 100 75 100 = 100) by (apply clamp_id; lra).
  assert (T2 : clamp 50 50 75 = 50) by (apply clamp_id; lra).
  rewrite T1, T2. clear T1 T2. cbn [sequence_is_consistent removelast ordered_groups].
  eexists _, _. split; [reflexivity|]. split; (apply (Permutation_in _ (Permutation_sym (sort_perm _ _))); cbn; auto).
Qed.
Lemma exact_range k t q lo hi : 0 <= t -> sigma_range w_csfd w_number 1 (at_time k t 0 q) lo hi -> lo = t /\ hi = t.
Proof.
  intros T S. inversion S as [d n s H1 H2 H3|m s H1 H2 H3 H4]; [discriminate|]. cbn in H2. injection H2 as <- <-.
  unfold w_number in *. rewrite Rmax_left in H3 by lra. injection H3 as <-. injection H4 as <-. split; lra.
Qed.
Lemma o_in_order : in_order w_csfd w_number 1 [o1; o2].
Proof.
  split.
  - intros c lo hi [<-|[<-|[]]] _ S; apply exact_range in S; lra.
  - intros c1 c2 a b lo1 hi1 lo2 hi2 [<-|[<-|[]]] [<-|[<-|[]]] Q1 Q2 L S1 S2; cbn in Q1, Q2; injection Q1 as <-; injection Q2 as <-; try lia; apply exact_range in S1; apply exact_range in S2; lra.
Qed.
Lemma o_anchored : anchored [o1; o2].
Proof.
  intros c a [<-|[<-|[]]] Q; left; [exists o1|exists o2]; (split; [cbn; auto|]); (split; [exact Q|]); right; discriminate.
Qed.
Lemma o_only : only_date o1 [o1; o2].
Proof. intros c' [<-|[<-|[]]] Q _; [reflexivity|discriminate]. Qed.
Lemma m_in_order : in_order w_csfd w_number 1 [m1; m2].
Proof.
  split.
  - intros c lo hi [<-|[<-|[]]] _ S; apply exact_range in S; lra.
  - intros c1 c2 a b lo1 hi1 lo2 hi2 [<-|[<-|[]]] [<-|[<-|[]]] Q1 Q2 L S1 S2; cbn in Q1, Q2; injection Q1 as <-; injection Q2 as <-; lia.
Qed.
Lemma o_sensible : sensible_dates w_csfd w_number 1 [o2; mk_q 1 1000 None (Some (100, 0)) (Some 3%Z)].
Proof. intros c lo hi [<-|[<-|[]]] _ S; apply exact_range in S; lra. Qed.
Lemma o_two : at_most_two_sequences [o2; mk_q 1 1000 None (Some (100, 0)) (Some 3%Z)].
Proof. intros c1 c2 c3 a b s [<-|[<-|[]]] [<-|[<-|[]]] [<-|[<-|[]]] Q1 Q2 Q3; cbn in *; injection Q1 as <-; injection Q2 as <-; injection Q3 as <-; lia. Qed.

(* ------------------------------ the properties ------------------------------ *)
Section Whole.
Context (csfd : R -> R) (number_at : R -> result R) (age : R -> result R) (nconv : R).
Context (trunc : nat -> R -> R -> R -> R -> R) (normal : nat -> R -> R -> R).
Notation process := (process csfd number_at age nconv trunc normal).
Lemma in_order_holds dmax craters : age_like age -> trunc_ok trunc -> (forall x, age x <> Err RuntimeError) -> (forall x, number_at x <> Err RuntimeError) ->
  in_order csfd number_at nconv craters -> anchored craters ->
  process dmax craters <> Err RuntimeError /\ (forall res d, process dmax craters = Ok (res, d) -> respects_sequence res).
Proof.
  intros AL TO NA NN IO AN. pose proof (in_order_good csfd number_at nconv craters IO AN) as G. split.
  - apply (never_inconsistent csfd number_at age nconv trunc normal AL TO dmax craters G NA NN).
  - intros res d E. exact (respects csfd number_at age nconv trunc normal AL TO dmax craters res d G E).
Qed.
Lemma two_holds dmax craters : age_like age -> trunc_ok trunc -> (forall x, age x <> Err RuntimeError) -> (forall x, number_at x <> Err RuntimeError) ->
  sensible_dates csfd number_at nconv craters -> at_most_two_sequences craters ->
  process dmax craters <> Err RuntimeError /\ (forall res d, process dmax craters = Ok (res, d) -> respects_sequence res).
Proof.
  intros AL TO NA NN IO AN. pose proof (two_good csfd number_at nconv craters IO AN) as G. split.
  - apply (never_inconsistent csfd number_at age nconv trunc normal AL TO dmax craters G NA NN).
  - intros res d E. exact (respects csfd number_at age nconv trunc normal AL TO dmax craters res d G E).
Qed.
Lemma nonnegative_N dmax craters res d c t : age_like age -> process dmax craters = Ok (res, d) -> In (c, t) res -> q_seq c = None -> q_ND c <> None -> 0 <= t.
Proof.
  intros [AP _] E I Q N. destruct (process_drawn csfd number_at age nconv trunc normal dmax craters res d c t E I Q) as [dd n s H1 H2 H3|dd n s i H1 H2 H3|m s H1 H2 H3 H4|m s i H1 H2 H3 H4]; try congruence; apply (AP _ _ H3).
Qed.
Lemma cleared_keeps p : exists q, set_quasimc csfd number_at age nconv trunc normal [] p = Ok q /\ p_quasi q = [] /\ p_dmax q = p_dmax p.
Proof. eexists. split; [reflexivity|]. split; reflexivity. Qed.
End Whole.
Lemma last_bad : exists res d t2 t3, w_process None [w1; w2; w3] = Ok (res, d) /\ In (w2, t2) res /\ In (w3, t3) res /\ q_seq w2 = Some 2%Z /\ q_seq w3 = Some 3%Z /\ t2 < t3.
Proof. destruct w_last as (res & d & E & I2 & I3). exists res, d, (6143 / 512), (3073 / 256). repeat split; try assumption. lra. Qed.
Lemma cleared_case : exists p, set_quasimc w_csfd w_number w_age 1 w_trunc w_normal [n1] (mk_pstate [] None) = Ok p /\
  exists q, set_quasimc w_csfd w_number w_age 1 w_trunc w_normal [] p = Ok q /\ p_quasi q = [] /\ p_dmax q = Some 1000.
Proof.
  exists (mk_pstate [(n1, -100)] (Some 1000)). split; [change (rbind (w_process None [n1]) (fun r => Ok (mk_pstate (fst r) (snd r))) = Ok (mk_pstate [(n1, -100)] (Some 1000))); rewrite w_negative; reflexivity|]. eexists. split; [reflexivity|]. split; reflexivity.
Qed.
