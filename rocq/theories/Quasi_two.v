From Coq Require Import Reals ZArith Lra Lia Permutation Sorted.
From Verif Require Import Common RSum Sorting Quasi_model Quasi_spec Measure_spec Quasi_proofs Quasi_order Quasi_dates.
Open Scope R_scope.

(* ------------------------------ exact dates ------------------------------ *)
Section Exact.
Context (csfd : R -> R) (number_at : R -> result R) (age : R -> result R) (nconv : R).
Context (trunc : nat -> R -> R -> R -> R -> R) (normal : nat -> R -> R -> R).
Context (AL : age_like age).
Notation process := (process csfd number_at age nconv trunc normal).
Lemma exact_kept dmax craters res dm c t n :
  process dmax craters = Ok (res, dm) -> in_order csfd number_at nconv craters -> anchored craters ->
  In (c, t) res -> q_seq c <> None -> only_date c craters -> sigma_range csfd number_at nconv c n n ->
  exists b, b_nlo b <= n <= b_nhi b /\ 0 <= n /\ age (b_nlo b) = Ok (b_tlo b) /\ age (b_nhi b) = Ok (b_thi b) /\
  match q_ND c, q_time c with
  | Some nd, _ => age (Rmax 0 (if Rlt_dec 0 (snd (to_N1 csfd nconv nd)) then if Rlt_dec 0 (b_nsig b) then trunc 0%nat (fst (to_N1 csfd nconv nd)) (snd (to_N1 csfd nconv nd)) (b_nlo b) (b_nhi b) else clamp (fst (to_N1 csfd nconv nd)) (b_nlo b) (b_nhi b) else clamp (fst (to_N1 csfd nconv nd)) (b_nlo b) (b_nhi b))) = Ok t \/ 0 < snd (to_N1 csfd nconv nd)
  | None, Some (m, s) => t = clamp m (b_tlo b) (b_thi b) \/ 0 < s
  | None, None => False
  end.
Proof.
  intros E IO AN I Q O SR.
  destruct (process_ok _ _ _ _ _ _ _ _ _ _ E) as (ext & ts & OC & R & _). rewrite R in I.
  apply (Permutation_in _ (sort_perm _ _)) in I. apply timed_in in I. destruct I as (i & V & T).
  pose proof (member_in craters i c V) as IC.
  destruct OC as (X & TT & _). destruct (TT _ V) as (u & U & D). cbn [fst snd] in *. rewrite T in U. injection U as <-.
  destruct (q_seq c) as [a|] eqn:QA; [|congruence]. destruct D as (e & L & D).
  assert (X' : sequence_extents csfd number_at nconv (sorted_groups (valid craters)) = Ok ext).
  { destruct (sorted_groups (valid craters)) eqn:G; [|exact X]. assert (ext = []) as -> by congruence. discriminate L. }
  destruct (stacked_extents csfd number_at nconv craters IO AN ext X') as (GE & W).
  destruct (W a e L) as (m & cs & IG & EC & B).
  destruct (contributions_range csfd number_at nconv _ _ EC) as [C1 C2].
  assert (DT : dated c). { destruct SR as [d n' s' H1 _ _|m' s' H1 H2 _ _]; [left|right]; congruence. }
  assert (SAME : forall p, In p cs -> p = (n, 0)).
  { intros p Ip. destruct (C1 p Ip) as (c' & I' & _ & S'). destruct (group_member craters a m c' IG I') as [I2 Q2].
    assert (c' = c) as ->. { apply O; [exact I2|congruence|]. destruct S' as [d n' s' H1 _ _|m' s' H1 H2 _ _]; [left|right]; congruence. }
    assert (lower p = n /\ upper p = n) as [A1 A2].
    { inversion SR as [d1 n1 s1 H1 H2 H3|m1 s1 H1 H2 H3 H4]; inversion S' as [d2 n2 s2 K1 K2 K3|m2 s2 K1 K2 K3 K4]; try congruence.
      - rewrite H1 in K1. injection K1 as <- <- <-. split; congruence.
      - rewrite H2 in K2. injection K2 as <- <-. split; congruence. }
    unfold lower, upper in *. destruct p as [x y]. cbn in *. f_equal; lra. }
  destruct (C2 c) as (p & Ip & EP); [apply (member_group craters a m c IG IC QA)|exact DT|].
  assert (NE : cs <> []) by (intros ->; exact Ip). specialize (B NE). rewrite (group_same cs n NE SAME) in B. cbn [fst] in B.
  destruct IO as [IO1 _]. assert (N0 : 0 <= n). { apply (IO1 c n n IC); [congruence|exact SR]. }
  unfold draw_in in D. destruct (bounds_of age e) as [b|] eqn:BO; [|discriminate]. cbn [rbind] in D.
  destruct (bounds_ok age _ _ BO) as (A1 & A2 & N1 & N2 & _).
  exists b. split; [rewrite N1, N2; split; [apply Rmax_lub; lra|lra]|]. split; [exact N0|]. rewrite N1, N2. split; [exact A1|]. split; [exact A2|].
  rewrite <- N1, <- N2.
  destruct (q_ND c) as [nd|] eqn:ND.
  - destruct (Rlt_dec 0 (snd (to_N1 csfd nconv nd))) as [P|P]; [right; exact P|left]. destruct (to_N1 csfd nconv nd) as [x y]. cbn [fst snd] in *.
    destruct (Rlt_dec 0 y); [contradiction|]. exact D.
  - destruct (q_time c) as [[m' s']|] eqn:QT.
    + destruct (Rlt_dec 0 s'); [right; assumption|left; congruence].
    + destruct DT; congruence.
Qed.
Lemma exact_N dmax craters res dm c t d n :
  process dmax craters = Ok (res, dm) -> in_order csfd number_at nconv craters -> anchored craters ->
  In (c, t) res -> q_seq c <> None -> only_date c craters -> q_ND c = Some (d, n, 0) -> age (N1_of csfd nconv d n) = Ok t.
Proof.
  intros E IO AN I Q O ND.
  assert (Z : N1_of csfd nconv d 0 = 0) by (unfold N1_of; unfold Rdiv; ring).
  assert (TN : to_N1 csfd nconv (d, n, 0) = (N1_of csfd nconv d n, 0)).
  { unfold to_N1. fold (N1_of csfd nconv d n). replace (d * 1e3) with (d * 1000) by lra. fold DSTD. change (N1_of csfd nconv d n) with (n / nconv * (csfd DSTD / csfd (d * 1000))). f_equal. unfold Rdiv. ring. }
  destruct (exact_kept dmax craters res dm c t (N1_of csfd nconv d n) E IO AN I Q O) as (b & B1 & B2 & _ & _ & B3).
  { eapply range_ND; [exact ND|rewrite Z; lra|rewrite Z; lra]. }
  rewrite ND, TN in B3. cbn [fst snd] in B3. destruct B3 as [B3|B3]; [|lra]. destruct (Rlt_dec 0 0); [lra|]. rewrite clamp_id in B3 by exact B1. rewrite Rmax_right in B3 by lra. exact B3.
Qed.
Lemma exact_T dmax craters res dm c t m n :
  process dmax craters = Ok (res, dm) -> in_order csfd number_at nconv craters -> anchored craters ->
  In (c, t) res -> q_seq c <> None -> only_date c craters -> q_ND c = None -> q_time c = Some (m, 0) -> 0 <= m ->
  number_at m = Ok n -> age n = Ok m -> t = m.
Proof.
  intros E IO AN I Q O ND QT M0 NM AM.
  destruct (exact_kept dmax craters res dm c t n E IO AN I Q O) as (b & B1 & B2 & A1 & A2 & B3).
  { eapply range_time; [exact ND|exact QT| |]; [rewrite Rminus_0_r, Rmax_left by lra; exact NM|rewrite Rplus_0_r; exact NM]. }
  rewrite ND, QT in B3. destruct B3 as [B3|B3]; [|lra]. rewrite clamp_id in B3; [exact B3|]. destruct AL as [_ MONO].
  split; [apply (MONO (b_nlo b) n); [lra|exact A1|exact AM]|apply (MONO n (b_nhi b)); [lra|exact AM|exact A2]].
Qed.
End Exact.

(* ------------------------------ two sequence numbers ------------------------------ *)
Definition mid (e : R * R) : R * R := ((fst e + snd e) / 2, (snd e - fst e) / 2).
Lemma join_two l0 h0 l1 h1 : join_pass None None [(l0, h0); (l1, h1)] = [((l0 + h1) / 2, h0); (l1, (l0 + h1) / 2)].
Proof.
  cbn [join_pass]. destruct (Req_EM_T l0 h1) as [->|N].
  - destruct (Req_EM_T h1 h1); [|congruence]. cbn. repeat f_equal; lra.
  - destruct (Req_EM_T ((l0 + h1) / 2) ((l0 + h1) / 2)); [|congruence]. reflexivity.
Qed.
Lemma split_two m h0 l1 : 0 <= m -> 0 <= h0 -> 0 <= l1 -> split_pass None (map mid [(m, h0); (l1, m)]) = [(Rmin m h0, Rmax m h0); (Rmin l1 m, Rmax l1 m)].
Proof.
  intros M H L. unfold mid. cbn [map fst snd split_pass].
  replace ((m + h0) / 2 - (h0 - m) / 2) with m by lra. replace ((m + h0) / 2 + (h0 - m) / 2) with h0 by lra.
  replace ((l1 + m) / 2 - (m - l1) / 2) with l1 by lra. replace ((l1 + m) / 2 + (m - l1) / 2) with m by lra.
  rewrite (Rmax_left m 0) by lra. rewrite (Rmax_left l1 0) by lra. replace (m + (m - m) / 2) with m by lra. rewrite (Rmax_left m 0) by lra.
  unfold Rltb, Rmin, Rmax. repeat (destruct (Rlt_dec _ _) || destruct (Rle_dec _ _)); repeat f_equal; lra.
Qed.
Lemma split_pair n0 s0 n1 s1 : 0 <= n0 -> 0 <= s0 -> 0 <= n1 -> 0 <= s1 -> exists l0 h0 l1 h1,
  split_pass None [(n0, s0); (n1, s1)] = [(l0, h0); (l1, h1)] /\ 0 <= l0 <= h0 /\ 0 <= l1 <= h1.
Proof.
  intros A B C D. cbn [split_pass]. 
  pose proof (Rmax_r (n0 - s0) 0) as X1. pose proof (Rmax_r (n1 - s1) 0) as X2.
  pose proof (Rmax_r (Rmax (n0 - s0) 0 + (n1 + s1 - Rmax (n0 - s0) 0) / 2) 0) as X3.
  unfold Rltb. do 4 eexists. split; [|split].
  - match goal with |- [?x; ?y] = _ => rewrite (surjective_pairing x), (surjective_pairing y) end. reflexivity.
  - destruct (Rlt_dec _ _); cbn [fst snd]; lra.
  - destruct (Rlt_dec _ _); cbn [fst snd]; lra.
Qed.
Definition done (e : list (R * R)) : Prop := chain e /\ decreasing (map fst e) = true /\ decreasing (map snd e) = true.
Lemma refine_pair k vals ext l0 h0 l1 h1 : split_pass None vals = [(l0, h0); (l1, h1)] -> 0 <= l0 -> 0 <= h0 -> 0 <= l1 -> 0 <= h1 ->
  let m := (l0 + h1) / 2 in
  (l1 <= m /\ m <= h0 -> done (refine (S k) vals ext)) /\
  (~ (l1 <= m /\ m <= h0) -> exists vals', refine (S k) vals ext = refine k vals' [(m, h0); (l1, m)] /\
     split_pass None vals' = [(Rmin m h0, Rmax m h0); (Rmin l1 m, Rmax l1 m)]).
Proof.
  intros E A B C D m. rewrite refine_S, E, join_two. fold m. cbn [map fst snd decreasing]. unfold Rleb. split.
  - intros [X Y]. destruct (Rle_dec l1 m); [|lra]. destruct (Rle_dec m h0); [|lra]. cbn [andb]. unfold done. cbn [chain map fst snd decreasing].
    unfold Rleb. destruct (Rle_dec l1 m); [|lra]. destruct (Rle_dec m h0); [|lra]. repeat split.
  - intros N. match goal with |- context [if ?b then _ else refine _ _ _] => assert (F : b = false) end.
    { destruct (Rle_dec l1 m), (Rle_dec m h0); try reflexivity. exfalso. apply N. split; assumption. }
    rewrite F. exists (map mid [(m, h0); (l1, m)]). split; [reflexivity|]. apply split_two; unfold m; lra.
Qed.
Lemma refine_two n0 s0 n1 s1 ext : 0 <= n0 -> 0 <= s0 -> 0 <= n1 -> 0 <= s1 -> done (refine 10 [(n0, s0); (n1, s1)] ext).
Proof.
  intros A B C D. destruct (split_pair n0 s0 n1 s1 A B C D) as (l0 & h0 & l1 & h1 & E & P0 & P1).
  destruct (refine_pair 9 _ ext _ _ _ _ E) as [Y N]; try lra. set (m := (l0 + h1) / 2) in *.
  destruct (Rle_dec l1 m) as [G1|G1]; [destruct (Rle_dec m h0) as [G2|G2]; [apply Y; split; assumption|]|];
  (destruct N as (v2 & -> & E2); [intros [? ?]; lra|]).
  - rewrite (Rmin_right m h0), (Rmax_left m h0), (Rmin_left l1 m), (Rmax_right l1 m) in E2 by lra.
    destruct (refine_pair 8 _ [(m, h0); (l1, m)] _ _ _ _ E2) as [Y2 N2]; try (unfold m; lra). set (k := (h0 + m) / 2) in *.
    destruct (Rle_dec l1 k) as [G3|G3]; [apply Y2; unfold k in *; split; lra|]. destruct N2 as (v3 & -> & E3); [intros [? ?]; lra|].
    rewrite (Rmin_left k m), (Rmax_right k m), (Rmin_right l1 k), (Rmax_left l1 k) in E3 by (unfold k in *; lra).
    destruct (refine_pair 7 _ [(k, m); (l1, k)] _ _ _ _ E3) as [Y3 _]; try (unfold k, m; lra). apply Y3. unfold k in *. split; lra.
  - destruct (Rle_dec m h0) as [G2|G2].
    + rewrite (Rmin_left m h0), (Rmax_right m h0), (Rmin_right l1 m), (Rmax_left l1 m) in E2 by lra.
      destruct (refine_pair 8 _ [(m, h0); (l1, m)] _ _ _ _ E2) as [Y2 N2]; try (unfold m; lra). set (k := (m + l1) / 2) in *.
      destruct (Rle_dec k h0) as [G3|G3]; [apply Y2; unfold k in *; split; lra|]. destruct N2 as (v3 & -> & E3); [intros [? ?]; lra|].
      rewrite (Rmin_right k h0), (Rmax_left k h0), (Rmin_left m k), (Rmax_right m k) in E3 by (unfold k in *; lra).
      destruct (refine_pair 7 _ [(k, h0); (m, k)] _ _ _ _ E3) as [Y3 _]; try (unfold k, m; lra). apply Y3. unfold k in *. split; lra.
    + rewrite (Rmin_right m h0), (Rmax_left m h0), (Rmin_right l1 m), (Rmax_left l1 m) in E2 by lra.
      destruct (refine_pair 8 _ [(m, h0); (l1, m)] _ _ _ _ E2) as [Y2 N2]; try (unfold m; lra). set (k := (h0 + l1) / 2) in *.
      destruct (Req_EM_T k m) as [K|K]; [apply Y2; split; lra|]. destruct N2 as (v3 & -> & E3); [intros [? ?]; lra|].
      destruct (Rle_dec k m) as [G3|G3].
      * rewrite (Rmin_left k m), (Rmax_right k m), (Rmin_right m k), (Rmax_left m k) in E3 by lra.
        destruct (refine_pair 7 _ [(k, m); (m, k)] _ _ _ _ E3) as [Y3 _]; try (unfold k, m; lra). apply Y3. split; lra.
      * rewrite (Rmin_right k m), (Rmax_left k m), (Rmin_left m k), (Rmax_right m k) in E3 by lra.
        destruct (refine_pair 7 _ [(k, m); (m, k)] _ _ _ _ E3) as [Y3 _]; try (unfold k, m; lra). apply Y3. split; lra.
Qed.
Lemma refine_one n s ext : exists e, refine 10 [(n, s)] ext = [e] /\ proper e.
Proof.
  rewrite refine_S. cbn [split_pass]. unfold Rltb. destruct (Rlt_dec (n + s) (Rmax (n - s) 0)); cbn; eexists; (split; [reflexivity|]); unfold proper; cbn; lra.
Qed.
Section Two.
Context (csfd : R -> R) (number_at : R -> result R) (age : R -> result R) (nconv : R).
Context (craters : list qcrater).
Context (SD : sensible_dates csfd number_at nconv craters) (TW : at_most_two_sequences craters).
Notation G := (sorted_groups (valid craters)).
Lemma two_value s m l v : In (s, m) G -> value_of csfd number_at nconv m l v -> match fst v with Some n => 0 <= n | None => True end /\ 0 <= snd v.
Proof.
  intros I (cs & E & [[N ->]|[_ ->]]); [|destruct l; cbn; lra]. cbn [fst snd]. split; [|apply group_sig, N].
  assert (0 < INR (List.length cs)) by (destruct cs; [congruence|]; apply lt_0_INR; cbn; lia).
  unfold group_value. cbn [fst]. apply Rmult_le_pos; [|left; apply Rinv_0_lt_compat; assumption]. apply lsum_nonneg. intros p Ip.
  destruct (proj1 (contributions_range csfd number_at nconv _ _ E) p Ip) as (c & K & _ & S). destruct (group_member craters s m c I K) as [C Q].
  destruct (SD c (lower p) (upper p) C) as [_ X]; [congruence|exact S|]. unfold lower, upper in X. lra.
Qed.
Lemma two_good ext : (match G with [] => Ok [] | _ => sequence_extents csfd number_at nconv G end) = Ok ext -> good_ext ext.
Proof.
  destruct (sorted_groups_good (valid craters)) as ((_ & FG & _) & S).
  assert (MEM : forall s m, In (s, m) G -> exists c, In c craters /\ q_seq c = Some s).
  { intros s m I. destruct m as [|[i c] k] eqn:EM; [exfalso; exact (proj1 (FG s [] I) eq_refl)|]. exists c. apply (group_member craters s ((i, c) :: k) c I). left. reflexivity. }
  assert (TV := two_value).
  destruct G as [|[s0 m0] g] eqn:EG; [intros [= <-]; split; [intros a e L; discriminate|intros a b e f L; discriminate]|].
  unfold sequence_extents. destruct (group_values csfd number_at nconv true ((s0, m0) :: g)) as [vals|] eqn:V; [|discriminate]. cbn [rbind]. intros X.
  assert (X' : combine (map fst ((s0, m0) :: g)) (refine 10 (fill_in vals) []) = ext) by congruence. subst ext. clear X.
  assert (NE : contributions csfd number_at nconv (map snd m0) <> Ok []). { intros K. cbn [group_values] in V. rewrite K in V. discriminate V. }
  apply group_values_spec in V.
  destruct vals as [|[s0' v0] vals]; [contradiction|]. cbn [values_of] in V. destruct V as (<- & V0 & V).
  destruct g as [|[s1 m1] g].
  - destruct vals as [|? ?]; [|contradiction]. cbn [fill_in map fst snd]. destruct (refine_one (match fst v0 with Some n => n | None => match filled [(s0, v0)] with p :: r => interp s0 p r | [] => 0 end end) (snd v0) []) as (e & E & P).
    unfold fill_in. cbn [map fst snd]. rewrite E. cbn [combine]. apply (good_from_sorted [s0] [e]); [exact S|constructor; [exact P|constructor]|repeat constructor].
  - destruct g as [|[s2 m2] g].
    + destruct vals as [|[s1' v1] vals]; [contradiction|]. cbn [values_of] in V. destruct V as (<- & V1 & V). destruct vals as [|? ?]; [|contradiction].
      assert (N0 : exists n0, fst v0 = Some n0).
      { destruct V0 as (cs & E & [[N ->]|[-> ->]]); [eexists; reflexivity|congruence]. }
      assert (N1 : exists n1, fst v1 = Some n1). { destruct V1 as (cs & E & [[N ->]|[-> ->]]); eexists; reflexivity. }
      destruct N0 as [n0 N0], N1 as [n1 N1].
      destruct (TV s0 m0 false v0) as [A0 B0]; [left; reflexivity|exact V0|]. destruct (TV s1 m1 true v1) as [A1 B1]; [right; left; reflexivity|exact V1|].
      rewrite N0 in A0. rewrite N1 in A1. unfold fill_in. cbn [map fst snd]. rewrite N0, N1.
      pose proof (refine_two n0 (snd v0) n1 (snd v1) [] A0 B0 A1 B1) as D.
      destruct (refine_good 10 [(n0, snd v0); (n1, snd v1)] []) as [P O]; [eexists; split; [reflexivity|exact D]|rewrite refine_length; [cbn; lia|right; lia]|].
      apply good_from_sorted; assumption.
    + exfalso. destruct (MEM s0 m0) as (c1 & I1 & Q1); [left; reflexivity|]. destruct (MEM s1 m1) as (c2 & I2 & Q2); [right; left; reflexivity|]. destruct (MEM s2 m2) as (c3 & I3 & Q3); [right; right; left; reflexivity|].
      apply (TW c1 c2 c3 s0 s1 s2 I1 I2 I3 Q1 Q2 Q3). cbn in S. inversion S as [|? ? S' F]; subst. inversion F; subst. inversion S' as [|? ? S'' F']; subst. inversion F'; subst. lia.
Qed.
End Two.
