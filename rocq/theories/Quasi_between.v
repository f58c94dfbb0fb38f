(** A list with an undated sequence number. *)
From Coq Require Import Reals ZArith Lra Lia Permutation Sorted.
From Verif Require Import Common RSum Sorting Quasi_model Quasi_spec Quasi_proofs Quasi_order Quasi_dates Quasi_passes Quasi_cases.
Open Scope R_scope.
Definition y1 := at_time 1 100 0 (Some 1%Z).
Definition y2 := mk_q 2 1000 None None (Some 2%Z).
Definition y3 := at_time 3 20 0 (Some 5%Z).
Lemma y_run : exists res d, w_process None [y1; y2; y3] = Ok (res, d) /\ In (y2, 50) res.
Proof.
  unfold w_process, process.
  assert (V : number_from 0 (filter has_metadata [y1; y2; y3]) = [(0%nat, y1); (1%nat, y2); (2%nat, y3)]) by reflexivity. rewrite V. clear V.
  assert (G : sorted_groups [(0%nat, y1); (1%nat, y2); (2%nat, y3)] = [(1%Z, [(0%nat, y1)]); (2%Z, [(1%nat, y2)]); (5%Z, [(2%nat, y3)])]) by reflexivity. rewrite G. clear G.
  assert (X : sequence_extents w_csfd w_number 1 [(1%Z, [(0%nat, y1)]); (2%Z, [(1%nat, y2)]); (5%Z, [(2%nat, y3)])] = Ok [(1%Z, (90, 100)); (2%Z, (50, 90)); (5%Z, (20, 50))]).
  { unfold sequence_extents. cbn [group_values map snd contributions]. unfold y1, y3. rewrite !w_contrib by lra.
    change (contribution w_csfd w_number 1 y2) with (@Ok (list (R * R)) []). cbn [rbind app]. rewrite !group_single. cbn [rbind].
    unfold fill_in, filled. cbn [map fst snd flat_map app interp Z.ltb Z.leb Z.compare Pos.compare Pos.compare_cont]. replace (100 + (20 - 100) / (5 - 1) * (2 - 1)) with 80 by lra. rewrite refine_S.
    assert (SP : split_pass None [(100, 0); (80, 0); (20, 0)] = [(90, 100); (50, 90); (20, 50)]) by pass_split. rewrite SP.
    rewrite (join_id [(90, 100); (50, 90); (20, 50)] None) by (cbn; repeat split).
    assert (DE : (decreasing (map fst [(90, 100); (50, 90); (20, 50)]) && decreasing (map snd [(90, 100); (50, 90); (20, 50)]))%bool = true) by pass_dec. rewrite DE. reflexivity. }
  rewrite X. clear X. cbn [rbind].
  assert (F1 : filter (fun x => negb (is_tagged x)) [(0%nat, y1); (1%nat, y2); (2%nat, y3)] = []) by reflexivity.
  assert (F2 : filter is_tagged [(0%nat, y1); (1%nat, y2); (2%nat, y3)] = [(0%nat, y1); (1%nat, y2); (2%nat, y3)]) by reflexivity.
  rewrite F1, F2. clear F1 F2. cbn [draw_all rbind fst snd]. change (q_seq y1) with (Some 1%Z). change (q_seq y2) with (Some 2%Z). change (q_seq y3) with (Some 5%Z).
  cbn [lookup find fst snd Z.eqb Pos.eqb option_map]. unfold y1 at 1, y3 at 1.
  assert (D2 : draw_in w_csfd w_age 1 w_trunc 1 y2 (50, 90) = Ok 50).
  { unfold draw_in, bounds_of. cbn [fst snd]. rewrite (Rmax_left 50 0) by lra. destruct (Req_EM_T _ 0); [lra|]. rewrite !w_age_ok by lra. cbn [rbind]. destruct (Req_EM_T _ 0); [lra|].
    cbn [rbind q_ND q_time y2 b_nsig b_nlo b_nhi]. destruct (Rlt_dec ((90 - 50) / 2 / ((50 + 90) / 2)) 1e-12); [lra|]. destruct (Rlt_dec 0 ((90 - 50) / 2)); [|lra].
    unfold w_trunc. rewrite Rmax_left by lra. apply w_age_ok. lra. }
  rewrite D2, !w_draw by (cbn [fst snd]; lra). cbn [rbind fst snd app].
  assert (T1 : clamp 100 90 100 = 100) by (apply clamp_id; lra).
  assert (T2 : clamp 20 20 50 = 20) by (apply clamp_id; lra).
  rewrite T1, T2. clear T1 T2.
  assert (C : sequence_is_consistent [(0%nat, 100); (1%nat, 50); (2%nat, 20)] [(1%Z, [(0%nat, y1)]); (2%Z, [(1%nat, y2)]); (5%Z, [(2%nat, y3)])] = true).
  { cbn. unfold Rleb. decide_all. reflexivity. }
  rewrite C. eexists _, _. split; [reflexivity|]. (apply (Permutation_in _ (Permutation_sym (sort_perm _ _))); cbn; auto).
Qed.
Lemma y_range c lo hi : In c [y1; y2; y3] -> sigma_range w_csfd w_number 1 c lo hi -> (c = y1 /\ lo = 100 /\ hi = 100) \/ (c = y3 /\ lo = 20 /\ hi = 20).
Proof.
  intros [<-|[<-|[<-|[]]]] S.
  - left. split; [reflexivity|]. apply exact_range in S; lra.
  - inversion S; discriminate.
  - right. split; [reflexivity|]. apply exact_range in S; lra.
Qed.
Lemma y_in_order : in_order w_csfd w_number 1 [y1; y2; y3].
Proof.
  split.
  - intros c lo hi I _ S. apply y_range in S; [|exact I]. lra.
  - intros c1 c2 a b lo1 hi1 lo2 hi2 I1 I2 Q1 Q2 L S1 S2. apply y_range in S1; [|exact I1]. apply y_range in S2; [|exact I2].
    destruct S1 as [(-> & S1)|(-> & S1)], S2 as [(-> & S2)|(-> & S2)]; cbn in Q1, Q2; injection Q1 as <-; injection Q2 as <-; lra || lia.
Qed.
Lemma y_exact : exact_dates w_csfd w_number 1 [y1; y2; y3].
Proof. intros c lo hi I _ S. apply y_range in S; [|exact I]. lra. Qed.
Lemma y_anchor1 : anchor w_csfd w_number 1 [y1; y2; y3] 1 100.
Proof.
  left. exists y1. split; [left; reflexivity|]. split; [reflexivity|]. split.
  - intros c' [<-|[<-|[<-|[]]]] Q _; [reflexivity|discriminate|discriminate].
  - eapply range_time; [reflexivity|reflexivity| |]; unfold w_number; [rewrite Rmax_left by lra|]; f_equal; lra.
Qed.
Lemma y_anchor5 : anchor w_csfd w_number 1 [y1; y2; y3] 5 20.
Proof.
  left. exists y3. split; [right; right; left; reflexivity|]. split; [reflexivity|]. split.
  - intros c' [<-|[<-|[<-|[]]]] Q _; [discriminate|discriminate|reflexivity].
  - eapply range_time; [reflexivity|reflexivity| |]; unfold w_number; [rewrite Rmax_left by lra|]; f_equal; lra.
Qed.
Lemma y_line : line 1 100 5 20 2 = 80.
Proof. unfold line. lra. Qed.
