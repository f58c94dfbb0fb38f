From Coq Require Import Reals ZArith Lra Lia Permutation Sorted.
From Verif Require Import Common RSum Sorting Quasi_model Quasi_spec Measure_spec Quasi_proofs.
Open Scope R_scope.

(* ------------------------------ extents ------------------------------ *)
(** Extents that touch: the upper end of each is the lower end of the one before. *)
Fixpoint chain (l : list (R * R)) : Prop :=
  match l with (lo, _) :: (((_, hi) :: _) as r) => hi = lo /\ chain r | _ => True end.
Lemma chain_cons p q r : chain (p :: q :: r) <-> snd q = fst p /\ chain (q :: r).
Proof. destruct p as [a b], q as [c d]. reflexivity. Qed.
Lemma join_length l : forall prev over, List.length (join_pass prev over l) = ((match prev with Some _ => 1 | None => 0 end) + List.length l)%nat.
Proof.
  induction l as [|[lo hi0] r IH]; intros prev over; [destruct prev; reflexivity|]. cbn [join_pass].
  set (hi := match over with Some h => h | None => hi0 end).
  destruct prev as [[plo phi]|].
  - destruct (Req_EM_T hi plo); destruct r as [|[nl nh] r']; cbn [app List.length]; try reflexivity;
    destruct (Req_EM_T lo nh); cbn [app List.length]; rewrite IH; reflexivity.
  - destruct r as [|[nl nh] r']; cbn [app List.length]; try reflexivity. destruct (Req_EM_T lo nh); cbn [app List.length]; rewrite IH; reflexivity.
Qed.
Lemma join_chain l : forall prev over, chain (join_pass prev over l) /\
  match prev with Some p => exists a r, join_pass prev over l = (a, snd p) :: r | None => True end.
Proof.
  induction l as [|[lo hi0] r IH]; intros prev over.
  - destruct prev as [[a b]|]; cbn; split; auto. exists a, []. reflexivity.
  - cbn [join_pass]. set (hi := match over with Some h => h | None => hi0 end).
    assert (T : forall p, exists q o, (match r with
      | [] => (match p with Some p => [p] | None => [] end ++ [(lo, match p with Some p => fst p | None => hi end)])%list
      | (_, nhi_next) :: _ => if Req_EM_T lo nhi_next then (match p with Some p => [p] | None => [] end ++ join_pass (Some (lo, match p with Some p => fst p | None => hi end)) None r)%list
          else (match p with Some p => [p] | None => [] end ++ join_pass (Some ((lo + nhi_next) / 2, match p with Some p => fst p | None => hi end)) (Some ((lo + nhi_next) / 2)) r)%list
      end) = (match p with Some p => [p] | None => [] end ++ join_pass (Some (q, match p with Some p => fst p | None => hi end)) o r)%list).
    { intros p. destruct r as [|[nl nh] r']; [exists lo, None; reflexivity|]. destruct (Req_EM_T lo nh); [exists lo, None|exists ((lo + nh) / 2), (Some ((lo + nh) / 2))]; reflexivity. }
    destruct prev as [[plo phi]|].
    + assert (exists p, snd p = phi /\ (if Req_EM_T hi plo then (Some (plo, phi), hi) else (Some ((plo + hi) / 2, phi), (plo + hi) / 2)) = (Some p, fst p)) as (p & P1 & P2).
      { destruct (Req_EM_T hi plo) as [->|N]; [exists (plo, phi)|exists ((plo + hi) / 2, phi)]; split; reflexivity. }
      rewrite P2. destruct (T (Some p)) as (q & o & X). cbv beta iota in X. rewrite X. destruct (IH (Some (q, fst p)) o) as (C & a & k & J). rewrite J in *. cbn [snd] in *.
      cbn [app]. split; [rewrite chain_cons; split; [reflexivity|exact C]|]. destruct p as [p1 p2]. cbn in P1. subst. exists p1, ((a, p1) :: k). reflexivity.
    + destruct (T None) as (q & o & X). cbv beta iota in X. rewrite X. destruct (IH (Some (q, hi)) o) as (C & _). cbn [app]. split; [exact C|exact I].
Qed.
Lemma join_id l : forall prev, chain (match prev with Some p => p :: l | None => l end) -> join_pass prev None l = (match prev with Some p => p :: l | None => l end).
Proof.
  induction l as [|[lo hi] r IH]; intros prev C; [destruct prev; reflexivity|]. cbn [join_pass].
  assert (C' : chain ((lo, hi) :: r)) by (destruct prev as [[a b]|]; [apply chain_cons in C; exact (proj2 C)|exact C]).
  assert (X : (match r with [] => [(lo, hi)] | (_, nh) :: _ => if Req_EM_T lo nh then join_pass (Some (lo, hi)) None r else join_pass (Some ((lo + nh) / 2, hi)) (Some ((lo + nh) / 2)) r end) = (lo, hi) :: r).
  { destruct r as [|[nl nh] r']; [reflexivity|]. destruct (proj1 (chain_cons _ _ _) C') as [E _]. cbn in E. destruct (Req_EM_T lo nh) as [_|N]; [|congruence]. apply (IH (Some (lo, hi))). exact C'. }
  destruct prev as [[plo phi]|].
  - destruct (proj1 (chain_cons _ _ _) C) as [E _]. cbn in E. destruct (Req_EM_T hi plo) as [_|N]; [|congruence].
    destruct r as [|[nl nh] r']; [reflexivity|]. destruct (Req_EM_T lo nh); cbn [app]; rewrite X; reflexivity.
  - destruct r as [|[nl nh] r']; [reflexivity|]. destruct (Req_EM_T lo nh); cbn [app]; rewrite X; reflexivity.
Qed.
Lemma split_length l : forall prev, List.length (split_pass prev l) = List.length l.
Proof. induction l as [|[n s] r IH]; intros prev; [reflexivity|]. cbn. rewrite IH. reflexivity. Qed.
(** Proper extents. *)
Definition proper (e : R * R) : Prop := fst e <= snd e.
Definition above (e f : R * R) : Prop := snd f <= fst e.
Lemma decreasing_cons x y r : decreasing (x :: y :: r) = true <-> y <= x /\ decreasing (y :: r) = true.
Proof. change (decreasing (x :: y :: r)) with (Rleb y x && decreasing (y :: r))%bool. rewrite Bool.andb_true_iff, Rleb_iff. reflexivity. Qed.
Lemma chain_sorted l : chain l -> Forall proper l -> StronglySorted above l.
Proof.
  induction l as [|p l IH]; intros C F; [constructor|]. inversion F as [|? ? P F']; subst.
  destruct l as [|q r]; [constructor; constructor|]. apply chain_cons in C. destruct C as [E C]. specialize (IH C F').
  constructor; [exact IH|]. constructor; [unfold above; lra|]. inversion IH as [|? ? _ G]; subst. inversion F' as [|? ? Q _]; subst.
  eapply Forall_impl; [|exact G]. unfold above, proper in *. intros z Z. lra.
Qed.
Lemma chain_decreasing l : chain l -> Forall proper l -> decreasing (map fst l) = true /\ decreasing (map snd l) = true.
Proof.
  induction l as [|p l IH]; intros C F; [split; reflexivity|]. inversion F as [|? ? P F']; subst.
  destruct l as [|q r]; [split; reflexivity|]. apply chain_cons in C. destruct C as [E C]. destruct (IH C F') as [A B].
  inversion F' as [|? ? Q _]; subst. unfold proper in *. cbn [map] in *. rewrite !decreasing_cons. split; (split; [lra|assumption]).
Qed.
Lemma decreasing_proper l : chain l -> (2 <= List.length l)%nat -> decreasing (map fst l) = true -> decreasing (map snd l) = true -> Forall proper l.
Proof.
  induction l as [|p l IH]; intros C L A B; [constructor|]. destruct l as [|q r]; [cbn in L; lia|].
  destruct (proj1 (chain_cons _ _ _) C) as [E C']. cbn [map] in A, B. rewrite decreasing_cons in A, B. destruct A as [A A'], B as [B B'].
  assert (P : proper p) by (unfold proper; lra). constructor; [exact P|].
  destruct r as [|w r']; [constructor; [unfold proper; lra|constructor]|]. apply IH; [exact C'|cbn; lia|exact A'|exact B'].
Qed.
Lemma refine_S k vals ext : refine (S k) vals ext =
  if (decreasing (map fst (join_pass None None (split_pass None vals))) && decreasing (map snd (join_pass None None (split_pass None vals))))%bool
  then join_pass None None (split_pass None vals)
  else refine k (map (fun e => ((fst e + snd e) / 2, (snd e - fst e) / 2)) (join_pass None None (split_pass None vals))) (join_pass None None (split_pass None vals)).
Proof. reflexivity. Qed.
Lemma refine_length k : forall vals ext, (List.length ext = List.length vals \/ (0 < k)%nat) -> List.length (refine k vals ext) = List.length vals.
Proof.
  induction k as [|k IH]; intros vals ext H; [destruct H; [assumption|lia]|]. rewrite refine_S. destruct (_ && _)%bool.
  - rewrite join_length, split_length. reflexivity.
  - rewrite IH; rewrite !map_length, join_length, split_length; [reflexivity|left; reflexivity].
Qed.

(* ------------------------------ stacked values ------------------------------ *)
Definition lower (v : R * R) : R := fst v - snd v.
Definition upper (v : R * R) : R := fst v + snd v.
(** Values with ranges that are not negative and follow one another downwards. *)
Fixpoint stacked (l : list (R * R)) : Prop :=
  match l with
  | [] => True
  | v :: r => 0 <= lower v /\ 0 <= snd v /\ match r with w :: _ => upper w <= lower v | [] => True end /\ stacked r
  end.
Lemma split_stacked l : forall prev, stacked l -> match prev, l with Some p, w :: _ => upper w <= lower p /\ 0 <= lower p | _, _ => True end ->
  Forall2 (fun v e => fst e <= fst v <= snd e) l (split_pass prev l) /\ chain (split_pass prev l) /\
  match l, split_pass prev l with v :: _, e :: _ => snd e = match prev with Some p => (upper v + lower p) / 2 | None => upper v end | _, _ => True end.
Proof.
  induction l as [|[n s] r IH]; intros prev S H; [split; [constructor|split; exact I]|]. destruct S as (S1 & S2 & S3 & S4). unfold lower, upper in *. cbn [fst snd] in *.
  destruct (IH (Some (n, s)) S4) as (F & C & D). { destruct r as [|w r']; [exact I|]. cbn [fst snd]. split; [exact S3|exact S1]. }
  cbn [split_pass].
  set (nhi := match prev with Some (np, sp) => n + s + (Rmax (np - sp) 0 - (n + s)) / 2 | None => n + s end).
  assert (HI : nhi = match prev with Some p => (n + s + (fst p - snd p)) / 2 | None => n + s end).
  { unfold nhi. destruct prev as [[np sp]|]; [|reflexivity]. cbn [fst snd] in *. rewrite Rmax_left by lra. lra. }
  set (nlo := match r with (nn, sn) :: _ => Rmax (Rmax (n - s) 0 + (nn + sn - Rmax (n - s) 0) / 2) 0 | [] => Rmax (n - s) 0 end).
  assert (LO : nlo = match r with w :: _ => (fst w + snd w + (n - s)) / 2 | [] => n - s end).
  { unfold nlo. rewrite (Rmax_left (n - s)) by lra. destruct r as [|[nn sn] r']; [reflexivity|]. cbn [fst snd] in *. destruct S4 as (W1 & W2 & _). unfold lower in W1. cbn [fst snd] in *.
    rewrite Rmax_left by lra. lra. }
  assert (A : nlo <= n). { rewrite LO. destruct r as [|w r']; lra. }
  assert (B : n <= nhi). { rewrite HI. destruct prev as [p|]; [|lra]. destruct H. lra. }
  assert (E : Rltb nhi nlo = false). { unfold Rltb. destruct (Rlt_dec nhi nlo); [lra|reflexivity]. }
  rewrite E. split; [constructor; [cbn; lra|exact F]|]. split; [|cbn [snd]; exact HI].
  destruct r as [|w r']; [exact I|]. destruct (split_pass (Some (n, s)) (w :: r')) as [|e k] eqn:K; [destruct w; discriminate K|].
  rewrite chain_cons. cbn [fst]. split; [|exact C]. rewrite D, LO. reflexivity.
Qed.
Lemma refine_stacked k l ext : stacked l -> exists r, refine (S k) l ext = r /\ Forall2 (fun v e => fst e <= fst v <= snd e) l r /\ StronglySorted above r.
Proof.
  intros S. destruct (split_stacked l None S I) as (F & C & _). exists (split_pass None l).
  assert (P : Forall proper (split_pass None l)).
  { clear -F. induction F as [|v e l r H F IH]; constructor; [unfold proper; lra|exact IH]. }
  split; [|split; [exact F|apply chain_sorted; assumption]].
  rewrite refine_S, (join_id _ None C). destruct (chain_decreasing _ C P) as [-> ->]. reflexivity.
Qed.

(* ------------------------------ times within extents ------------------------------ *)
Section Times.
Context (csfd : R -> R) (number_at : R -> result R) (age : R -> result R) (nconv : R).
Context (trunc : nat -> R -> R -> R -> R -> R) (normal : nat -> R -> R -> R).
Context (AL : age_like age) (TO : trunc_ok trunc).
Notation process := (process csfd number_at age nconv trunc normal).
Notation draw_in := (draw_in csfd age nconv trunc).
Notation draw_free := (draw_free csfd age nconv normal).
Notation sequence_extents := (sequence_extents csfd number_at nconv).
Notation outcome := (outcome csfd number_at age nconv trunc normal).

Lemma clamp_in x lo hi : lo <= hi -> lo <= clamp x lo hi <= hi.
Proof. intros H. unfold clamp. split; [apply Rmax_r|]. apply Rmax_lub; [apply Rmin_r|exact H]. Qed.
Lemma clamp_id x lo hi : lo <= x <= hi -> clamp x lo hi = x.
Proof. intros H. unfold clamp. rewrite Rmin_left by lra. apply Rmax_left. lra. Qed.
Lemma bounds_ok e b : bounds_of age e = Ok b -> age (Rmax (fst e) 0) = Ok (b_tlo b) /\ age (snd e) = Ok (b_thi b) /\
  b_nlo b = Rmax (fst e) 0 /\ b_nhi b = snd e /\ (0 < b_nsig b -> b_nlo b < b_nhi b) /\ (0 < b_tsig b -> b_tlo b < b_thi b).
Proof.
  unfold bounds_of. destruct (Req_EM_T _ 0); [discriminate|]. destruct (age (Rmax (fst e) 0)) as [tlo|] eqn:E1; [|discriminate]. cbn [rbind].
  destruct (age (snd e)) as [thi|] eqn:E2; [|discriminate]. cbn [rbind]. destruct (Req_EM_T _ 0); [discriminate|]. intros X.
  assert (B : b = mk_bounds (Rmax (fst e) 0) (snd e) (if Rlt_dec ((snd e - Rmax (fst e) 0) / 2 / ((Rmax (fst e) 0 + snd e) / 2)) 1e-12 then 0 else (snd e - Rmax (fst e) 0) / 2)
     tlo thi (if Rlt_dec ((thi - tlo) / 2 / ((tlo + thi) / 2)) 1e-12 then 0 else (thi - tlo) / 2)) by congruence.
  rewrite B. cbn [b_nlo b_nhi b_nsig b_tlo b_thi b_tsig]. repeat (split; [reflexivity|]). split.
  - match goal with |- 0 < (if ?d then _ else _) -> _ => destruct d as [_|_] end; clear; intros; lra.
  - match goal with |- 0 < (if ?d then _ else _) -> _ => destruct d as [_|_] end; clear; intros; lra.
Qed.
Lemma draw_in_bounds i c e t : proper e -> draw_in i c e = Ok t -> exists tlo thi,
  age (Rmax (fst e) 0) = Ok tlo /\ age (snd e) = Ok thi /\ tlo <= t <= thi.
Proof.
  intros P. unfold Quasi_model.draw_in. destruct (bounds_of age e) as [b|] eqn:B; [|discriminate]. cbn [rbind].
  destruct (bounds_ok _ _ B) as (A1 & A2 & N1 & N2 & K1 & K2). intros D. exists (b_tlo b), (b_thi b). split; [exact A1|]. split; [exact A2|].
  destruct AL as [AN AM]. destruct (AN _ _ A2) as [H0 _]. unfold proper in P.
  assert (NN : b_nlo b <= b_nhi b) by (rewrite N1, N2; apply Rmax_lub; lra).
  assert (TT : b_tlo b <= b_thi b) by (apply (AM _ _ _ _ (Rmax_lub _ _ _ P H0) A1 A2)).
  assert (NP : 0 <= b_nlo b) by (rewrite N1; apply Rmax_r).
  assert (KEY : forall n u, b_nlo b <= n <= b_nhi b -> age n = Ok u -> b_tlo b <= u <= b_thi b).
  { intros n u Hn Hu. split; [apply (AM (Rmax (fst e) 0) n); [rewrite <- N1; lra|exact A1|exact Hu]|apply (AM n (snd e)); [rewrite <- N2; lra|exact Hu|exact A2]]. }
  destruct (q_ND c) as [nd|]; [|destruct (q_time c) as [[m s]|]].
  - destruct (to_N1 csfd nconv nd) as [nm ns]. refine (KEY _ _ _ D). clear D.
    match goal with |- _ <= Rmax 0 ?x <= _ => assert (X : b_nlo b <= x <= b_nhi b) end.
    { destruct (Rlt_dec 0 ns); [|apply clamp_in; exact NN]. destruct (Rlt_dec 0 (b_nsig b)); [apply TO, K1; assumption|apply clamp_in; exact NN]. }
    rewrite Rmax_right by lra. exact X.
  - apply (f_equal (fun r => match r with Ok x => x | Err _ => 0 end)) in D. cbn in D. rewrite <- D.
    destruct (Rlt_dec 0 s); [|apply clamp_in; exact TT]. destruct (Rlt_dec 0 (b_tsig b)); [apply TO, K2; assumption|apply clamp_in; exact TT].
  - refine (KEY _ _ _ D). clear D.
    match goal with |- _ <= Rmax ?x 0 <= _ => assert (X : b_nlo b <= x <= b_nhi b) end.
    { destruct (Rlt_dec 0 (b_nsig b)); [apply TO, K1; assumption|lra]. }
    rewrite Rmax_left by lra. exact X.
Qed.
Definition good_ext (ext : list (Z * (R * R))) : Prop :=
  (forall a e, lookup a ext = Some e -> proper e) /\
  (forall a b e f, lookup a ext = Some e -> lookup b ext = Some f -> (a < b)%Z -> above e f).
Lemma draws_ordered ext i j c1 c2 a b e f t1 t2 : good_ext ext -> lookup a ext = Some e -> lookup b ext = Some f -> (a < b)%Z ->
  draw_in i c1 e = Ok t1 -> draw_in j c2 f = Ok t2 -> t2 <= t1.
Proof.
  intros [P A] L1 L2 L D1 D2. destruct (draw_in_bounds _ _ _ _ (P _ _ L1) D1) as (lo1 & hi1 & X1 & _ & Y1).
  destruct (draw_in_bounds _ _ _ _ (P _ _ L2) D2) as (lo2 & hi2 & _ & X2 & Y2). specialize (A _ _ _ _ L1 L2 L). unfold above in A.
  assert (hi2 <= lo1); [|lra]. apply (proj2 AL (snd f) (Rmax (fst e) 0)); [eapply Rle_trans; [exact A|apply Rmax_l]|exact X2|exact X1].
Qed.
Lemma respects dmax craters res d : (forall ext, (match sorted_groups (valid craters) with [] => Ok [] | _ => sequence_extents (sorted_groups (valid craters)) end) = Ok ext -> good_ext ext) ->
  process dmax craters = Ok (res, d) -> respects_sequence res.
Proof.
  intros G E c1 c2 a b t1 t2 I1 I2 Q1 Q2 L.
  destruct (process_ok _ _ _ _ _ _ _ _ _ _ E) as (ext & ts & O & R & _). rewrite R in I1, I2.
  apply (Permutation_in _ (sort_perm _ _)) in I1, I2. apply timed_in in I1, I2. destruct I1 as (i & V1 & T1), I2 as (j & V2 & T2).
  destruct O as (X & T & _). destruct (T _ V1) as (u1 & U1 & D1). destruct (T _ V2) as (u2 & U2 & D2). cbn [fst snd] in *.
  rewrite T1 in U1. rewrite T2 in U2. injection U1 as <-. injection U2 as <-. rewrite Q1 in D1. rewrite Q2 in D2.
  destruct D1 as (e & L1 & D1), D2 as (f & L2 & D2). eapply draws_ordered; [apply G; exact X|exact L1|exact L2|exact L|exact D1|exact D2].
Qed.
Definition no_runtime (f : R -> result R) : Prop := forall x, f x <> Err RuntimeError.
Lemma draw_in_err i c e : no_runtime age -> draw_in i c e <> Err RuntimeError.
Proof.
  intros N. unfold Quasi_model.draw_in, bounds_of. destruct (Req_EM_T _ 0); [discriminate|].
  destruct (age (Rmax (fst e) 0)) as [x|x] eqn:E1; [|cbn; intros [= ->]; exact (N _ E1)]. cbn [rbind].
  destruct (age (snd e)) as [y|y] eqn:E2; [|cbn; intros [= ->]; exact (N _ E2)]. cbn [rbind].
  destruct (Req_EM_T _ 0); [discriminate|]. cbn [rbind].
  destruct (q_ND c) as [nd|]; [destruct (to_N1 csfd nconv nd); apply N|destruct (q_time c) as [[m s]|]; [discriminate|apply N]].
Qed.
Lemma draw_free_err i c : no_runtime age -> draw_free i c <> Err RuntimeError.
Proof.
  intros N. unfold Quasi_model.draw_free. destruct (q_ND c) as [nd|]; [destruct (to_N1 csfd nconv nd); apply N|destruct (q_time c) as [[m s]|]; discriminate].
Qed.
Lemma contributions_err l : no_runtime number_at -> contributions csfd number_at nconv l <> Err RuntimeError.
Proof.
  intros N. induction l as [|c r IH]; cbn [contributions]; [discriminate|].
  assert (X : contribution csfd number_at nconv c <> Err RuntimeError).
  { unfold contribution. destruct (q_ND c); [discriminate|]. destruct (q_time c) as [[m s]|]; [|discriminate].
    destruct (number_at (Rmax (m - s) 0)) as [x|x] eqn:E1; [|cbn; intros [= ->]; exact (N _ E1)]. cbn [rbind].
    destruct (number_at (m + s)) as [y|y] eqn:E2; [|cbn; intros [= ->]; exact (N _ E2)]. discriminate. }
  destruct (contribution csfd number_at nconv c); [|cbn; congruence]. cbn [rbind]. destruct (contributions csfd number_at nconv r); [discriminate|cbn; congruence].
Qed.
Lemma group_values_err g : forall first, no_runtime number_at -> group_values csfd number_at nconv first g <> Err RuntimeError.
Proof.
  induction g as [|[s m] r IH]; intros first N; cbn [group_values]; [discriminate|].
  pose proof (contributions_err (map snd m) N). destruct (contributions csfd number_at nconv (map snd m)) as [cs|]; [|cbn; congruence]. cbn [rbind].
  match goal with |- rbind ?x _ <> _ => assert (x <> Err RuntimeError) by (destruct cs as [|p k]; [destruct first; [discriminate|destruct r; discriminate]|destruct (group_value (p :: k)); discriminate]); destruct x end.
  - cbn [rbind]. specialize (IH false N). destruct (group_values csfd number_at nconv false r); [discriminate|cbn; congruence].
  - cbn. congruence.
Qed.
Lemma never_inconsistent dmax craters : (forall ext, (match sorted_groups (valid craters) with [] => Ok [] | _ => sequence_extents (sorted_groups (valid craters)) end) = Ok ext -> good_ext ext) ->
  no_runtime age -> no_runtime number_at -> process dmax craters <> Err RuntimeError.
Proof.
  intros G NA NN. unfold Quasi_model.process. fold (valid craters). set (l := valid craters) in *.
  destruct (match sorted_groups l with [] => Ok [] | _ => sequence_extents (sorted_groups l) end) as [ext|e] eqn:E1.
  2:{ cbn. intros [= ->]. destruct (sorted_groups l); [discriminate|]. unfold Quasi_model.sequence_extents in E1.
      pose proof (group_values_err (p :: g) true NN). destruct (group_values csfd number_at nconv true (p :: g)); [discriminate|]. cbn in E1. congruence. }
  specialize (G ext eq_refl). cbn [rbind]. destruct (draw_all _ (filter (fun x => negb (is_tagged x)) l)) as [free|e] eqn:E2.
  2:{ cbn. intros [= ->]. apply draw_all_err in E2. destruct E2 as (x & _ & E2). exact (draw_free_err _ _ NA E2). }
  cbn [rbind]. destruct (draw_all _ (filter is_tagged l)) as [tagged|e] eqn:E3.
  2:{ cbn. intros [= ->]. apply draw_all_err in E3. destruct E3 as (x & _ & E3). destruct (q_seq (snd x)); [|discriminate]. destruct (lookup z ext); [|discriminate]. exact (draw_in_err _ _ _ NA E3). }
  cbn [rbind]. destruct (filter is_tagged l) eqn:F; [discriminate|]. rewrite <- F in E3. clear F.
  destruct (sequence_is_consistent (free ++ tagged) (sorted_groups l)) eqn:C; [discriminate|]. exfalso.
  apply draw_all_spec in E2. apply draw_all_spec in E3.
  apply time_at_drawn in E2; [|intros j x y I J; apply filter_In in I, J; apply (valid_functional craters j); [apply I|apply J]].
  apply time_at_drawn in E3; [|intros j x y I J; apply filter_In in I, J; apply (valid_functional craters j); [apply I|apply J]].
  set (ts := (free ++ tagged)%list) in *.
  assert (T : forall i c s, In (i, c) l -> q_seq c = Some s -> exists t e, time_at i ts = Some t /\ lookup s ext = Some e /\ draw_in i c e = Ok t).
  { intros i c s I Q. unfold ts. rewrite time_at_app. destruct E2 as [_ E2]. rewrite E2.
    - destruct E3 as [E3 _]. destruct (E3 (i, c)) as (t & T & D). { apply filter_In. split; [exact I|]. unfold is_tagged. cbn. rewrite Q. reflexivity. }
      cbn [fst snd] in *. rewrite Q in D. destruct (lookup s ext) as [e|]; [|discriminate]. exists t, e. split; [exact T|]. split; [reflexivity|exact D].
    - intros c' J. apply filter_In in J. destruct J as [J N]. assert (c' = c) as -> by exact (valid_functional craters i c' c J I).
      unfold is_tagged in N. cbn in N. rewrite Q in N. discriminate. }
  assert (X : ordered_groups ts (removelast (sorted_groups l)) = true); [|unfold sequence_is_consistent in C; congruence].
  destruct (sorted_groups_good l) as ((_ & FG & _) & S).
  assert (MEM : forall s m i c, In (s, m) (sorted_groups l) -> In (i, c) m -> In (i, c) l /\ q_seq c = Some s).
  { intros s m i c I J. rewrite (proj2 (FG s m I)) in J. apply filter_In in J. destruct J as [J K]. apply tag_is_iff in K. split; assumption. }
  apply ordered_groups_spec.
  - intros s m I. apply in_removelast in I. destruct (FG s m I) as [NE _]. destruct m as [|[i c] r]; [congruence|].
    destruct (MEM s _ i c I (or_introl eq_refl)) as [J Q]. destruct (T i c s J Q) as (t & e & A & _). intros Y. apply (in_nil (a := t)). rewrite <- Y.
    apply (times_in_in ts _ i c); [left; reflexivity|exact A].
  - apply sorted_removelast. pose proof (fun s m => MEM s m) as MM. revert S MM. clear -T G AL TO. induction (sorted_groups l) as [|[s m] r IH]; intros S MM; [constructor|].
    cbn in S. inversion S as [|? ? S' F]; subst. constructor; [apply IH; [exact S'|intros s' m' i c I; apply MM; right; exact I]|].
    apply Forall_forall. intros [s' m'] I x y Ix Iy. cbn [snd] in *. unfold times_in in Ix, Iy. apply in_flat_map in Ix, Iy.
    destruct Ix as ([i c] & Ii & Ix), Iy as ([j c'] & Ij & Iy). cbn [fst] in *.
    destruct (MM s m i c (or_introl eq_refl) Ii) as [V1 Q1]. destruct (MM s' m' j c' (or_intror I) Ij) as [V2 Q2].
    destruct (T i c s V1 Q1) as (t & e & A & L1 & D1). destruct (T j c' s' V2 Q2) as (t' & f & B & L2 & D2). rewrite A in Ix. rewrite B in Iy.
    destruct Ix as [<-|[]], Iy as [<-|[]]. eapply draws_ordered; [exact G|exact L1|exact L2| |exact D1|exact D2].
    rewrite Forall_forall in F. apply F. apply in_map_iff. exists (s', m'). split; [reflexivity|exact I].
Qed.
End Times.
