From Coq Require Import Reals List Lra Lia Permutation Sorted.
From Verif Require Import Common Random_model Random_spec Random_proofs.
Import ListNotations.
Open Scope R_scope.

Lemma search_right_spec l x : StronglySorted Rle l -> forall j a, nth_error l j = Some a ->
  ((j < searchsorted_right l x)%nat <-> a <= x).
Proof.
  unfold searchsorted_right. induction 1 as [| b l S IH F]; intros j a N; [destruct j; discriminate |]. cbn [filter].
  destruct (Rleb b x) eqn:E.
  - apply Rleb_true in E. destruct j as [| j]; cbn [nth_error] in N.
    + assert (a = b) by congruence. subst. cbn. split; [auto | lia].
    + cbn [List.length]. rewrite <- (IH j a N). lia.
  - apply Rleb_false in E. rewrite filter_none.
    + cbn. split; [lia |]. intros A. exfalso. destruct j as [| j]; cbn [nth_error] in N; [assert (a = b) by congruence; lra |].
      apply nth_error_In in N. rewrite Forall_forall in F. specialize (F a N). lra.
    + eapply Forall_impl; [| exact F]. cbn. intros c Hc. apply Rleb_false. lra.
Qed.
Lemma search_right_le l x : (searchsorted_right l x <= List.length l)%nat.
Proof. unfold searchsorted_right. induction l as [| a l IH]; cbn; [lia |]. destruct (Rleb a x); cbn; lia. Qed.

Lemma nth_last {A} (l : list A) d : l <> [] -> nth_error l (List.length l - 1) = Some (List.last l d).
Proof.
  induction l as [| a l IH]; [congruence |]. intros _. destruct l as [| b l]; [reflexivity |].
  cbn [List.length]. rewrite Nat.sub_succ, Nat.sub_0_r.
  change (List.last (a :: b :: l) d) with (List.last (b :: l) d). rewrite <- IH by discriminate.
  cbn [List.length]. rewrite Nat.sub_succ, Nat.sub_0_r. reflexivity.
Qed.
Lemma last_map {A B} (f : A -> B) l d : List.last (map f l) (f d) = f (List.last l d).
Proof. induction l as [| a l IH]; [reflexivity |]. destruct l; [reflexivity |]. cbn [map] in *. exact IH. Qed.
Lemma sorted_nth {A} (P : A -> A -> Prop) l : (forall x, P x x) -> StronglySorted P l ->
  forall i j a b, (i <= j)%nat -> nth_error l i = Some a -> nth_error l j = Some b -> P a b.
Proof.
  intros Refl. induction 1 as [| x l S IH F]; intros i j a b L Ni Nj; [destruct i; discriminate |].
  destruct i as [| i], j as [| j]; cbn [nth_error] in *; try lia.
  - assert (a = b) by congruence. subst. apply Refl.
  - assert (a = x) by congruence. subst. apply nth_error_In in Nj. rewrite Forall_forall in F. apply F. exact Nj.
  - apply (IH i j a b); [lia | exact Ni | exact Nj].
Qed.

Section Table.
Variable t : list (R * R).
Hypothesis T : decreasing_table t.
Local Notation lastc := (snd (last_row t)).

Lemma last_c : List.last (map snd t) 0 = snd (last_row t).
Proof. unfold last_row. apply (last_map snd t (0, 0)). Qed.
Lemma t_nonempty : t <> [].
Proof. destruct T as [L _]. destruct t; [cbn in L; lia | discriminate]. Qed.
Lemma last_in : In (last_row t) t.
Proof. apply nth_error_In with (n := (List.length t - 1)%nat). apply nth_last. apply t_nonempty. Qed.
Lemma first_in : In (first_row t) t.
Proof. unfold first_row. pose proof t_nonempty. destruct t; [congruence | left; reflexivity]. Qed.
Lemma row_pos r : In r t -> 0 < fst r /\ 0 < snd r.
Proof. destruct T as (_ & F & _). rewrite Forall_forall in F. apply F. Qed.
Lemma lastc_pos : 0 < lastc.
Proof. apply row_pos, last_in. Qed.
Definition lc (r : R * R) : R := ln (snd r / lastc).
Lemma frac_pos r : In r t -> 0 < fraction t r.
Proof. intros H. unfold fraction. apply Rdiv_lt_0_compat; [apply row_pos; exact H | apply lastc_pos]. Qed.
Lemma lc_sorted : StronglySorted Rle (map lc t).
Proof.
  destruct T as (_ & F & S). pose proof lastc_pos as P. unfold lc. clear T. generalize dependent (snd (last_row t)). intros c P.
  induction S as [| r l S IH G]; cbn [map]; [constructor |].
  inversion F; subst. constructor; [apply IH; assumption |]. apply Forall_forall. intros y Hy. apply in_map_iff in Hy.
  destruct Hy as (q & <- & Hq). rewrite Forall_forall in G, H2. destruct (G q Hq) as [_ Gq]. destruct (H2 q Hq) as [_ Pq].
  assert (I : 0 < / c) by (apply Rinv_0_lt_compat; exact P).
  destruct Gq as [Gq | Gq]; [left; apply ln_increasing; [apply Rdiv_lt_0_compat; lra | unfold Rdiv; apply Rmult_lt_compat_r; lra] | right; rewrite Gq; reflexivity].
Qed.
Lemma lc_le r u : In r t -> 0 < u -> (lc r <= ln u <-> fraction t r <= u).
Proof.
  intros H U. pose proof (frac_pos r H) as P. unfold lc, fraction in *. split; intros X.
  - destruct (Rle_dec (snd r / lastc) u) as [? | N]; [assumption |]. exfalso.
    assert (ln u < ln (snd r / lastc)) by (apply ln_increasing; lra). lra.
  - destruct X as [X | X]; [left; apply ln_increasing; assumption | right; rewrite X; reflexivity].
Qed.

(** The segment that a draw falls into. *)
Lemma segment u : fraction t (first_row t) <= u < 1 ->
  exists k r0 r1, nth_error t k = Some r0 /\ nth_error t (S k) = Some r1 /\
    searchsorted_right (map lc t) (ln u) = S k /\ fraction t r0 <= u < fraction t r1.
Proof.
  intros U. pose proof (frac_pos _ first_in) as P0. assert (U0 : 0 < u) by lra.
  pose proof (search_right_spec (map lc t) (ln u) lc_sorted) as SR.
  assert (Sn : forall j r, nth_error t j = Some r -> ((j < searchsorted_right (map lc t) (ln u))%nat <-> fraction t r <= u)).
  { intros j r N. rewrite (SR j (lc r)) by (rewrite nth_error_map, N; reflexivity). apply lc_le; [apply nth_error_In in N; exact N | exact U0]. }
  assert (F0 : nth_error t 0 = Some (first_row t)).
  { unfold first_row. pose proof t_nonempty. destruct t; [congruence | reflexivity]. }
  pose proof (nth_last t (0, 0) t_nonempty) as Fl. fold (last_row t) in Fl.
  assert (L1 : fraction t (last_row t) = 1) by (unfold fraction; field; pose proof lastc_pos; lra).
  pose proof (proj2 (Sn _ _ F0) (proj1 U)) as A.
  assert (B : ~ (List.length t - 1 < searchsorted_right (map lc t) (ln u))%nat) by (intros X; apply (Sn _ _ Fl) in X; lra).
  destruct (searchsorted_right (map lc t) (ln u)) as [| k] eqn:E; [lia |].
  assert (K : (S k < List.length t)%nat) by (destruct T as [Lt _]; lia).
  destruct (nth_error t k) as [r0 |] eqn:N0; [| apply nth_error_None in N0; lia].
  destruct (nth_error t (S k)) as [r1 |] eqn:N1; [| apply nth_error_None in N1; lia].
  exists k, r0, r1. repeat split; auto.
  - apply (Sn k r0 N0). lia.
  - apply Rnot_le_lt. intros X. apply (Sn (S k) r1 N1) in X. lia.
Qed.

Lemma interp_segment u : fraction t (first_row t) <= u < 1 ->
  exists k r0 r1 d, nth_error t k = Some r0 /\ nth_error t (S k) = Some r1 /\ fraction t r0 <= u < fraction t r1 /\
    interp_size (map fst t) (map snd t) u = Ok d /\ 0 < d /\ fst r1 <= d <= fst r0 /\
    (ln u - ln (fraction t r0)) * (ln (fst r1) - ln (fst r0)) = (ln d - ln (fst r0)) * (ln (fraction t r1) - ln (fraction t r0)) /\
    searchsorted_right (map lc t) (ln u) = S k.
Proof.
  intros U. destruct (segment u U) as (k & r0 & r1 & N0 & N1 & E & B).
  pose proof (nth_error_In _ _ N0) as I0. pose proof (nth_error_In _ _ N1) as I1.
  pose proof (frac_pos _ I0) as P0. destruct (row_pos _ I0) as [D0 _]. destruct (row_pos _ I1) as [D1 _].
  assert (DL : fst r1 <= fst r0).
  { destruct T as (_ & _ & S). pose proof (sorted_nth (fun a b => fst b <= fst a /\ snd a <= snd b) t (fun x => conj (Rle_refl _) (Rle_refl _)) S k (Datatypes.S k) r0 r1 (Nat.le_succ_diag_r k) N0 N1). lra. }
  assert (LD : ln (fst r1) <= ln (fst r0)).
  { destruct DL as [DL | DL]; [left; apply ln_increasing; assumption | right; rewrite DL; reflexivity]. }
  set (n0 := ln (fraction t r0)). set (n1 := ln (fraction t r1)).
  assert (Nu : n0 <= ln u < n1).
  { unfold n0, n1. split; [| apply ln_increasing; lra]. destruct (proj1 B) as [X | X]; [left; apply ln_increasing; lra | right; rewrite X; reflexivity]. }
  set (f := (ln u - n0) / (n1 - n0)).
  assert (Fr : 0 <= f < 1).
  { unfold f. assert (0 < / (n1 - n0)) by (apply Rinv_0_lt_compat; lra). split; [apply Rmult_le_pos; lra |].
    apply Rmult_lt_reg_r with (n1 - n0); [lra |]. unfold Rdiv. rewrite Rmult_assoc, Rinv_l by lra. lra. }
  set (d := exp (ln (fst r0) + f * (ln (fst r1) - ln (fst r0)))).
  exists k, r0, r1, d. split; [exact N0 |]. split; [exact N1 |]. split; [exact B |]. split.
  { unfold interp_size. rewrite last_c.  rewrite map_map. change (map (fun x => ln (snd x / lastc)) t) with (map lc t).
    rewrite E, !nth_error_map, N0, N1. reflexivity. }
  assert (Ld : ln d = ln (fst r0) + f * (ln (fst r1) - ln (fst r0))) by apply ln_exp.
  assert (Pd : 0 < d) by apply exp_pos.
  split; [exact Pd |]. split.
  - split.
    + rewrite <- (exp_ln (fst r1)) by exact D1. unfold d. assert (X : ln (fst r1) <= ln (fst r0) + f * (ln (fst r1) - ln (fst r0))) by nra.
      destruct X as [X | X]; [left; apply exp_increasing; exact X | right; rewrite <- X; reflexivity].
    + rewrite <- (exp_ln (fst r0)) at 1 by exact D0. rewrite exp_ln by exact D0. rewrite <- (exp_ln (fst r0)) by exact D0. unfold d.
      assert (X : ln (fst r0) + f * (ln (fst r1) - ln (fst r0)) <= ln (fst r0)) by nra.
      destruct X as [X | X]; [left; apply exp_increasing; exact X | right; rewrite X; reflexivity].
  - split; [| exact E]. rewrite Ld. fold n0 n1. unfold f. field. lra.
Qed.

Lemma interp_range u : fraction t (first_row t) <= u < 1 ->
  exists d, interp_size (map fst t) (map snd t) u = Ok d /\ 0 < d /\ fst (last_row t) <= d <= fst (first_row t).
Proof.
  intros U. destruct (interp_segment u U) as (k & r0 & r1 & d & N0 & N1 & _ & E & P & B & _). exists d. split; [exact E |]. split; [exact P |].
  destruct T as (Lt & _ & S).
  assert (F0 : nth_error t 0 = Some (first_row t)).
  { unfold first_row. pose proof t_nonempty. destruct t; [congruence | reflexivity]. }
  pose proof (nth_last t (0, 0) t_nonempty) as Fl. fold (last_row t) in Fl.
  assert (K : (Datatypes.S k < List.length t)%nat) by (apply nth_error_Some; rewrite N1; discriminate).
  pose proof (sorted_nth _ t (fun x => conj (Rle_refl _) (Rle_refl _)) S 0%nat k _ _ ltac:(lia) F0 N0) as A.
  pose proof (sorted_nth _ t (fun x => conj (Rle_refl _) (Rle_refl _)) S (Datatypes.S k) (List.length t - 1)%nat _ _ ltac:(lia) N1 Fl) as C.
  cbn in A, C. lra.
Qed.
Lemma interp_dist u r d : fraction t (first_row t) <= u < 1 -> In r t -> interp_size (map fst t) (map snd t) u = Ok d ->
  (u < fraction t r -> fst r <= d) /\ (fraction t r <= u -> d <= fst r).
Proof.
  intros U H E. destruct (interp_segment u U) as (k & r0 & r1 & d' & N0 & N1 & B & E' & P & Bd & _ & Se).
  assert (d' = d) by congruence. subst d'. destruct (In_nth_error _ _ H) as [j Nj]. destruct T as (Lt & _ & S).
  assert (U0 : 0 < u) by (pose proof (frac_pos _ first_in); lra).
  pose proof (search_right_spec (map lc t) (ln u) lc_sorted j (lc r) ltac:(rewrite nth_error_map, Nj; reflexivity)) as J.
  rewrite lc_le, Se in J by assumption. split; intros X.
  - assert (~ (j < Datatypes.S k)%nat) by (intros Y; apply J in Y; lra).
    pose proof (sorted_nth _ t (fun x => conj (Rle_refl _) (Rle_refl _)) S (Datatypes.S k) j _ _ ltac:(lia) N1 Nj) as C. cbn in C. lra.
  - apply J in X. pose proof (sorted_nth _ t (fun x => conj (Rle_refl _) (Rle_refl _)) S j k _ _ ltac:(lia) Nj N0) as C. cbn in C. lra.
Qed.
Lemma interp_flat u : snd (first_row t) = snd (last_row t) -> u = 1 -> interp_size (map fst t) (map snd t) u = Err IndexError.
Proof.
  intros F ->. unfold interp_size. rewrite last_c.  rewrite map_map. change (map (fun x => ln (snd x / lastc)) t) with (map lc t).
  assert (E : searchsorted_right (map lc t) (ln 1) = List.length t).
  { pose proof (search_right_spec (map lc t) (ln 1) lc_sorted) as SR.
    pose proof (nth_last t (0, 0) t_nonempty) as Fl. fold (last_row t) in Fl.
    assert (L1 : fraction t (last_row t) = 1) by (unfold fraction; field; pose proof lastc_pos; lra).
    assert (X : (List.length t - 1 < searchsorted_right (map lc t) (ln 1))%nat).
    { apply (SR _ (lc (last_row t))); [rewrite nth_error_map, Fl; reflexivity |]. apply lc_le; [apply last_in | lra | lra]. }
    pose proof (search_right_le (map lc t) (ln 1)) as Y. rewrite map_length in Y. destruct T as [Lt _]. lia. }
  rewrite E. destruct (List.length t) as [| k] eqn:L; [reflexivity |].
  rewrite !nth_error_map. destruct (nth_error t k); cbn [option_map]; [| reflexivity].
  assert (nth_error t (S k) = None) as -> by (apply nth_error_None; lia). cbn [option_map]. reflexivity.
Qed.
End Table.

Lemma nondecreasing_sorted (t : list (R * R)) : StronglySorted (fun a b => fst b <= fst a) t -> nondecreasing (map snd t) = true ->
  StronglySorted (fun a b => fst b <= fst a /\ snd a <= snd b) t.
Proof.
  induction 1 as [| r l S IH F]; intros N; [constructor |].
  assert (N' : nondecreasing (map snd l) = true).
  { cbn [map nondecreasing] in N. destruct l; [reflexivity |]. cbn [map] in *. apply andb_true_iff in N. apply N. }
  specialize (IH N'). constructor; [exact IH |]. destruct l as [| q l]; [constructor |].
  cbn [map nondecreasing] in N. apply andb_true_iff in N. destruct N as [N _]. apply Rleb_true in N.
  apply Forall_forall. intros x Hx. rewrite Forall_forall in F. split; [apply F; exact Hx |].
  destruct Hx as [<- | Hx]; [exact N |]. inversion IH as [| ? ? _ G]; subst. rewrite Forall_forall in G. destruct (G x Hx). lra.
Qed.

Lemma in_combine_fst (ds cs : list R) : List.length ds = List.length cs -> map fst (combine ds cs) = ds /\ map snd (combine ds cs) = cs.
Proof.
  revert cs. induction ds as [| d ds IH]; intros [| c cs] L; try discriminate; [split; reflexivity |]. injection L as L.
  destruct (IH cs L) as [A B]. cbn. rewrite A, B. split; reflexivity.
Qed.

Lemma existsb_pos l : existsb (fun c => Rleb c 0) l = false -> Forall (fun c => 0 < c) l.
Proof.
  induction l as [| a l IH]; cbn; intros H; constructor; apply orb_false_iff in H; destruct H as [A B]; [apply Rleb_false in A; exact A | apply IH; exact B].
Qed.

(** What a result of random_size tells about its arguments. *)
Lemma accepted ds cs t size mu poisson w z : Permutation t (combine ds cs) -> StronglySorted (fun a b => fst b <= fst a) t ->
  (random_size ds cs t size mu poisson w z = Err ValueError) \/
  (decreasing_table t /\ ~ (size <> None /\ mu <> None) /\
   random_size ds cs t size mu poisson w z = rbind (interp_size (map fst t) (map snd t) (uniform (fraction t (first_row t)) 1 w)) (fun d => Ok (d * (1 + 1e-8 * z)))).
Proof.
  intros P S. unfold random_size.
  destruct (Nat.eqb_spec (List.length ds) (List.length cs)) as [L | L]; cbn [negb]; [| left; reflexivity].
  destruct (Nat.ltb_spec (List.length ds) 2) as [L2 | L2]; [left; reflexivity |].
  destruct (existsb (fun d => Rleb d 0) ds) eqn:E1; [left; reflexivity |].
  destruct (existsb (fun d => Rleb d 0) cs) eqn:E2; [left; reflexivity |].
  destruct (sample_count size mu poisson) as [n | e] eqn:SC.
  - destruct (nondecreasing (map snd t)) eqn:N; cbn [negb]; [right | left; reflexivity].
    assert (T : decreasing_table t).
    { split; [rewrite (Permutation_length P), combine_length; lia |]. split; [| apply nondecreasing_sorted; assumption].
      apply existsb_pos in E1, E2. destruct (in_combine_fst ds cs L) as [Fd Fc]. rewrite <- Fd in E1. rewrite <- Fc in E2.
      apply Forall_forall. intros r Hr. apply (Permutation_in r P) in Hr. rewrite Forall_forall in E1, E2.
      split; [apply E1, in_map; exact Hr | apply E2, in_map; exact Hr]. }
    split; [exact T |]. split.
    + intros [A B]. unfold sample_count in SC. destruct size, mu; congruence.
    + rewrite last_c. unfold fraction, first_row. assert (hd 0 (map snd t) = snd (hd (0, 0) t)) as -> by (destruct t; reflexivity).
      pose proof (lastc_pos t T). replace (snd (last_row t) / snd (last_row t)) with 1 by (field; lra). reflexivity.
  - left. unfold sample_count in SC. destruct size, mu; congruence.
Qed.
Lemma table_first t : decreasing_table t -> snd (first_row t) <= snd (last_row t).
Proof.
  intros T. destruct T as (Lt & F & S). 
  assert (F0 : nth_error t 0 = Some (first_row t)) by (unfold first_row; destruct t; [cbn in Lt; lia | reflexivity]).
  assert (t <> []) as NE by (destruct t; [cbn in Lt; lia | discriminate]).
  pose proof (nth_last t (0, 0) NE) as Fl. fold (last_row t) in Fl.
  pose proof (sorted_nth _ t (fun x => conj (Rle_refl _) (Rle_refl _)) S 0%nat (List.length t - 1)%nat _ _ ltac:(lia) F0 Fl) as A. cbn in A. lra.
Qed.
Lemma uniform_range low w : low < 1 -> draw01 w -> low <= uniform low 1 w < 1.
Proof. unfold draw01, uniform. intros. split; nra. Qed.

Lemma size_range ds cs t size mu poisson w z d : Permutation t (combine ds cs) -> StronglySorted (fun a b => fst b <= fst a) t ->
  draw01 w -> draw01 z -> random_size ds cs t size mu poisson w z = Ok d ->
  (exists a, In a ds /\ a <= d) /\ (exists b, In b ds /\ d <= b * (1 + 1e-8)).
Proof.
  intros P S W Z E. destruct (accepted ds cs t size mu poisson w z P S) as [X | (T & _ & X)]; [congruence |]. rewrite E in X.
  assert (Ids : forall r, In r t -> In (fst r) ds).
  { intros [a b] Hr. apply (Permutation_in _ P) in Hr. apply in_combine_l in Hr. exact Hr. }
  pose proof (lastc_pos t T) as LP. pose proof (table_first t T) as FL.
  destruct (Rlt_dec (fraction t (first_row t)) 1) as [L | L].
  - destruct (interp_range t T _ (uniform_range _ w L W)) as (d0 & E0 & P0 & B0). rewrite E0 in X. cbn [rbind] in X.
    assert (d = d0 * (1 + 1e-8 * z)) as -> by congruence. unfold draw01 in Z. split.
    + exists (fst (last_row t)). split; [apply Ids, last_in; exact T | nra].
    + exists (fst (first_row t)). split; [apply Ids, first_in; exact T | nra].
  - exfalso. assert (F1 : snd (first_row t) = snd (last_row t)).
    { unfold fraction in L. destruct FL as [FL | FL]; [| exact FL]. exfalso. apply L. apply Rmult_lt_reg_r with (snd (last_row t)); [exact LP |].
      unfold Rdiv. rewrite Rmult_assoc, Rinv_l by lra. lra. }
    rewrite (interp_flat t T) in X; [discriminate X | exact F1 |]. unfold fraction. rewrite F1. unfold uniform. field. lra.
Qed.
Lemma size_exists ds cs t size mu poisson w z : List.length ds = List.length cs -> Permutation t (combine ds cs) -> decreasing_table t ->
  snd (first_row t) < snd (last_row t) -> size = None \/ mu = None -> draw01 w ->
  exists d, random_size ds cs t size mu poisson w z = Ok d.
Proof.
  intros L P T FL SM W. pose proof (lastc_pos t T) as LP.
  assert (S : StronglySorted (fun a b => fst b <= fst a) t).
  { destruct T as (_ & _ & S). clear - S. induction S as [| r l S IH F]; constructor; [exact IH |]. eapply Forall_impl; [| exact F]. cbn. intros a [X _]. exact X. }
  destruct (accepted ds cs t size mu poisson w z P S) as [X | (_ & _ & X)].
  - exfalso. unfold random_size in X. rewrite L, Nat.eqb_refl in X. cbn [negb] in X. rewrite <- L in X.
    destruct T as (Lt & F & S2). pose proof (Permutation_length P) as PL. rewrite combine_length in PL.
    destruct (Nat.ltb_spec (List.length ds) 2); [lia |].
    destruct (in_combine_fst ds cs L) as [Fd Fc].
    assert (A : existsb (fun d => Rleb d 0) ds = false).
    { apply not_true_is_false. intros Y. apply existsb_exists in Y. destruct Y as (y & Iy & Y). apply Rleb_true in Y.
      rewrite <- Fd in Iy. apply in_map_iff in Iy. destruct Iy as (r & <- & Ir). apply (Permutation_in _ (Permutation_sym P)) in Ir.
      rewrite Forall_forall in F. destruct (F r Ir). lra. }
    assert (B : existsb (fun d => Rleb d 0) cs = false).
    { apply not_true_is_false. intros Y. apply existsb_exists in Y. destruct Y as (y & Iy & Y). apply Rleb_true in Y.
      rewrite <- Fc in Iy. apply in_map_iff in Iy. destruct Iy as (r & <- & Ir). apply (Permutation_in _ (Permutation_sym P)) in Ir.
      rewrite Forall_forall in F. destruct (F r Ir). lra. }
    rewrite A, B in X.
    assert (N : nondecreasing (map snd t) = true).
    { clear - S2. induction S2 as [| r l S IH G]; [reflexivity |]. cbn [map nondecreasing]. destruct l as [| q l]; [reflexivity |]. cbn [map] in *.
      rewrite IH. inversion G; subst. assert (Rleb (snd r) (snd q) = true) as -> by (apply Rleb_true; lra). reflexivity. }
    rewrite N in X. cbn [negb] in X.
    assert (hd 0 (map snd t) = snd (first_row t)) as Hd by (unfold first_row; destruct t; reflexivity).
    rewrite last_c, Hd in X. replace (snd (last_row t) / snd (last_row t)) with 1 in X by (field; lra). fold (fraction t (first_row t)) in X.
    assert (FR : fraction t (first_row t) < 1).
    { unfold fraction. apply Rmult_lt_reg_r with (snd (last_row t)); [exact LP |]. unfold Rdiv. rewrite Rmult_assoc, Rinv_l by lra. lra. }
    destruct (interp_range t (conj Lt (conj F S2)) _ (uniform_range _ w FR W)) as (d0 & E0 & _).
    rewrite E0 in X. unfold sample_count in X. destruct SM as [-> | ->]; [destruct mu | destruct size]; discriminate X.
  - assert (FR : fraction t (first_row t) < 1).
    { unfold fraction. apply Rmult_lt_reg_r with (snd (last_row t)); [exact LP |]. unfold Rdiv. rewrite Rmult_assoc, Rinv_l by lra. lra. }
    destruct (interp_range t T _ (uniform_range _ w FR W)) as (d0 & E0 & _). rewrite E0 in X. cbn [rbind] in X. eauto.
Qed.
Lemma size_flat ds cs t size mu poisson w z : List.length ds = List.length cs -> Permutation t (combine ds cs) -> decreasing_table t ->
  snd (first_row t) = snd (last_row t) -> size = None \/ mu = None ->
  forall d, random_size ds cs t size mu poisson w z <> Ok d.
Proof.
  intros L P T FL SM d E. pose proof (lastc_pos t T) as LP.
  assert (S : StronglySorted (fun a b => fst b <= fst a) t).
  { destruct T as (_ & _ & S). clear - S. induction S as [| r l S IH F]; constructor; [exact IH |]. eapply Forall_impl; [| exact F]. cbn. intros a [X _]. exact X. }
  destruct (accepted ds cs t size mu poisson w z P S) as [X | (_ & _ & X)]; [congruence |].
  rewrite E, (interp_flat t T) in X; [discriminate X | exact FL |]. unfold fraction. rewrite FL. unfold uniform. field. lra.
Qed.

(** Witness: two rows; the smallest draw for u and a positive noise. *)
Definition two_rows : list (R * R) := [(10, 1); (1, 4)].
Lemma two_rows_ok : decreasing_table two_rows.
Proof. split; [cbn; lia |]. split; [repeat constructor; cbn; lra |]. repeat constructor; cbn; lra. Qed.
Lemma two_rows_exceeds : exists d, random_size [10; 1] [1; 4] two_rows (Some 1%nat) None (fun n => n) 0 (1/2) = Ok d /\ 10 < d.
Proof.
  destruct (accepted [10; 1] [1; 4] two_rows (Some 1%nat) None (fun n => n) 0 (1/2)) as [X | (_ & _ & X)].
  - apply Permutation_refl.
  - repeat constructor; cbn; lra.
  - exfalso. destruct (size_exists [10; 1] [1; 4] two_rows (Some 1%nat) None (fun n => n) 0 (1/2)) as [d E]; try congruence;
      [reflexivity | apply Permutation_refl | apply two_rows_ok | cbn; lra | right; reflexivity | unfold draw01; lra].
  - assert (U : uniform (fraction two_rows (first_row two_rows)) 1 0 = fraction two_rows (10, 1)) by (unfold uniform, fraction, first_row, two_rows; cbn; lra).
    rewrite U in X. assert (FR : fraction two_rows (first_row two_rows) <= fraction two_rows (10, 1) < 1) by (unfold fraction, first_row, last_row, two_rows; cbn; lra).
    destruct (interp_range two_rows two_rows_ok _ FR) as (d0 & E0 & P0 & B0).
    destruct (interp_segment two_rows two_rows_ok _ FR) as (k & r0 & r1 & d1 & N0 & N1 & B & E1 & _ & _ & Eq & _).
    assert (d1 = d0) by congruence. subst d1.
    assert (k = 0%nat). { destruct k as [| [| k]]; [reflexivity | discriminate | destruct k; discriminate]. } subst k. cbn in N0, N1.
    assert (r0 = (10, 1)) by congruence. assert (r1 = (1, 4)) by congruence. subst. cbn [fst] in *.
    rewrite Rminus_diag_eq, Rmult_0_l in Eq by reflexivity.
    assert (F4 : ln (fraction two_rows (10, 1)) < ln (fraction two_rows (1, 4))) by (apply ln_increasing; unfold fraction, last_row, two_rows; cbn; lra).
    assert (Lz : ln d0 - ln 10 = 0) by (symmetry in Eq; apply Rmult_integral in Eq; destruct Eq as [Eq | Eq]; lra).
    assert (d0 = 10) by (apply ln_inv; lra). subst d0.
    rewrite E0 in X. cbn [rbind] in X. eexists. split; [exact X | lra].
Qed.

(* ---------------------- further lemmas for the theorems ---------------------- *)
Lemma face_triangle corners u0 r1 r2 k v0 v1 v2 : 0 < rsum (map tri_area (triangles corners)) -> 0 < u0 < 1 -> draw01 r1 -> draw01 r2 ->
  nth_error (triangles corners) k = Some (v0, v1, v2) ->
  rsum (firstn k (map tri_area (triangles corners))) / rsum (map tri_area (triangles corners)) < u0
    <= rsum (firstn (S k) (map tri_area (triangles corners))) / rsum (map tri_area (triangles corners)) ->
  exists p, random_on_face corners u0 r1 r2 = Ok p /\ convex_combination [v0; v1; v2] p.
Proof.
  intros T U D1 D2 N B. unfold random_on_face.
  assert (searchsorted_left (cumsum 0 (map (fun a => a / rsum (map tri_area (triangles corners))) (map tri_area (triangles corners)))) u0 = k) as ->.
  { apply face_choice; [exact T | exact U |]. split; [| exact B]. rewrite map_length. apply nth_error_Some. rewrite N. discriminate. }
  rewrite N. pose proof (weights_ok r1 r2 D1 D2) as W. destruct (weights r1 r2) as [[w0 w1] w2]. destruct W as (W0 & W1 & W2 & WS).
  eexists. split; [reflexivity |]. exists [w0; w1; w2]. split; [reflexivity |]. split; [constructor; [assumption | constructor; [assumption | constructor; [assumption | constructor]]] |]. split; [cbn; lra |].
  cbn [wsum]. unfold vadd, vscale. cbn. f_equal; lra.
Qed.
Lemma fast_length vm ve size b rest : 0 <= ve < vm -> (size <= List.length b)%nat ->
  exists vs, random_velocity vm (Some ve) size (b :: rest) = Some vs /\ List.length vs = size /\ Forall (fun v => ve <= v) vs.
Proof.
  intros H L. destruct (random_velocity vm (Some ve) size (b :: rest)) as [vs |] eqn:E.
  - exists vs. split; [reflexivity |]. split; [| apply (fast_velocity vm ve size _ vs H E)].
    unfold random_velocity in E. destruct (Rlt_dec ve vm); [| lra]. injection E as <-. rewrite !map_length, firstn_length. cbn. lia.
  - exfalso. unfold random_velocity in E. destruct (Rlt_dec ve vm); [discriminate | lra].
Qed.
(** A velocity equal to the escape velocity: sigma * n = ve with n = ve / sigma. *)
Lemma maxwell_exact vm ve : 0 < vm -> 0 <= ve -> maxwell3 vm (ve / (vm / sqrt (8 / PI)), 0, 0) = ve.
Proof.
  intros V E. unfold maxwell3, maxwell. pose proof PI_RGT_0.
  assert (0 < sqrt (8 / PI)) by (apply sqrt_lt_R0; apply Rdiv_lt_0_compat; lra).
  set (s := vm / sqrt (8 / PI)). assert (0 < s) by (apply Rdiv_lt_0_compat; assumption).
  replace (s * (ve / s)) with ve by (field; lra). rewrite !Rmult_0_r, !Rplus_0_r. apply sqrt_square. exact E.
Qed.
Lemma stuck_run vm ve rest : 0 < vm <= ve ->
  random_velocity vm (Some ve) 1 ([(ve / (vm / sqrt (8 / PI)), 0, 0)] :: rest) = None.
Proof.
  intros H. unfold random_velocity. destruct (Rlt_dec ve vm); [lra |]. cbn [repeat rejection].
  unfold count_above. cbn [filter]. assert (Rltb ve (2 * ve) = true) as -> by (apply Rltb_true; lra). cbn [List.length firstn map].
  rewrite maxwell_exact by lra. cbn [refill]. destruct (Rlt_dec ve (2 * ve)); [| lra]. cbn [forallb].
  assert (Rltb ve ve = false) as -> by (apply Rltb_false; lra). cbn [andb]. apply stuck. left. reflexivity.
Qed.
Lemma slow_example vm ve : 0 < vm <= ve -> random_velocity vm (Some ve) 1 [[(0, 0, 0)]] = Some [0].
Proof.
  intros H. unfold random_velocity. destruct (Rlt_dec ve vm); [lra |]. cbn [repeat rejection].
  unfold count_above. cbn [filter]. assert (Rltb ve (2 * ve) = true) as -> by (apply Rltb_true; lra). cbn [List.length firstn map].
  assert (maxwell3 vm (0, 0, 0) = 0) as ->.
  { unfold maxwell3, maxwell. rewrite !Rmult_0_r, !Rplus_0_r. apply sqrt_0. }
  cbn [refill]. destruct (Rlt_dec ve (2 * ve)); [| lra]. cbn [forallb].
  assert (Rltb 0 ve = true) as -> by (apply Rltb_true; lra). reflexivity.
Qed.
(** A square face. *)
Lemma face_row_triangle node row corners u0 r1 r2 k v0 v1 v2 : corners_of node row corners -> 0 < rsum (map tri_area (triangles corners)) -> 0 < u0 < 1 -> draw01 r1 -> draw01 r2 ->
  nth_error (triangles corners) k = Some (v0, v1, v2) ->
  rsum (firstn k (map tri_area (triangles corners))) / rsum (map tri_area (triangles corners)) < u0
    <= rsum (firstn (S k) (map tri_area (triangles corners))) / rsum (map tri_area (triangles corners)) ->
  exists p, random_on_face (face_corners row node) u0 r1 r2 = Ok p /\ convex_combination [v0; v1; v2] p.
Proof. intros C. rewrite (corners_eq _ _ _ C). apply face_triangle. Qed.
Definition sq : list vec := [ {| vx := 0; vy := 0; vz := 1 |}; {| vx := 1; vy := 0; vz := 1 |};
  {| vx := 1; vy := 1; vz := 1 |}; {| vx := 0; vy := 1; vz := 1 |} ].
Lemma sq_areas : map tri_area (triangles sq) = [0.5; 0.5].
Proof.
  unfold sq, triangles, fan, map, tri_area, vnorm, vcross, vsub. cbn [vx vy vz].
  assert (X : forall y, y = 1 -> sqrt y = 1) by (intros y ->; apply sqrt_1). rewrite !X by lra. f_equal; [lra | f_equal; lra].
Qed.
Lemma size_dist ds cs t size mu poisson w z d r : Permutation t (combine ds cs) -> StronglySorted (fun a b => fst b <= fst a) t ->
  draw01 w -> draw01 z -> random_size ds cs t size mu poisson w z = Ok d -> In r t ->
  let u := fraction t (first_row t) + (1 - fraction t (first_row t)) * w in
  (u < fraction t r -> fst r <= d) /\ (fraction t r <= u -> d <= fst r * (1 + 1e-8)).
Proof.
  intros P S W Z E H u. destruct (accepted ds cs t size mu poisson w z P S) as [X | (T & _ & X)]; [congruence |].
  pose proof (table_first t T) as FL. pose proof (lastc_pos t T) as LP.
  assert (L : fraction t (first_row t) < 1).
  { destruct FL as [FL | FL]; [unfold fraction; apply Rmult_lt_reg_r with (snd (last_row t)); [exact LP |]; unfold Rdiv; rewrite Rmult_assoc, Rinv_l by lra; lra |].
    exfalso. rewrite E, (interp_flat t T) in X; [discriminate X | exact FL |]. unfold fraction. rewrite FL. unfold uniform. field. lra. }
  destruct (interp_range t T _ (uniform_range _ w L W)) as (d0 & E0 & P0 & _). rewrite E, E0 in X. cbn [rbind] in X.
  assert (d = d0 * (1 + 1e-8 * z)) as -> by congruence. destruct (row_pos t T r H) as [R1 _].
  pose proof (interp_dist t T _ r d0 (uniform_range _ w L W) H E0) as [A B].
  unfold draw01 in Z. fold u in A, B. unfold uniform in A, B. fold u in A, B. split; intros Y; [specialize (A Y); nra | specialize (B Y); nra].
Qed.
Lemma size_inverse t u : decreasing_table t -> fraction t (first_row t) <= u < 1 ->
  exists k r0 r1 d, nth_error t k = Some r0 /\ nth_error t (S k) = Some r1 /\ fraction t r0 <= u < fraction t r1 /\
    interp_size (map fst t) (map snd t) u = Ok d /\
    (ln u - ln (fraction t r0)) * (ln (fst r1) - ln (fst r0)) = (ln d - ln (fst r0)) * (ln (fraction t r1) - ln (fraction t r0)).
Proof.
  intros T U. destruct (interp_segment t T u U) as (k & r0 & r1 & d & A & B & C & D & _ & _ & E & _).
  exists k, r0, r1, d. split; [exact A |]. split; [exact B |]. split; [exact C |]. split; [exact D | exact E].
Qed.
Lemma uniform_location u v : draw01 u -> draw01 v ->
  -180 <= random_lon u < 180 /\ -90 <= random_lat v <= 90 /\
  (forall x, -180 <= x <= 180 -> (random_lon u <= x <-> u <= (x + 180) / 360)) /\
  (forall x, -90 <= x <= 90 -> (random_lat v <= x <-> 1 - v <= (1 + sin (deg2rad x)) / 2)).
Proof.
  intros U V. split; [apply lon_range; exact U |]. split; [apply lat_range; exact V |]. split.
  - intros x _. apply lon_dist.
  - intros x X. rewrite lat_dist by assumption. split; intros; lra.
Qed.
Lemma uniform_direction u : draw01 u -> 0 <= random_direction u < 360 /\ forall x, random_direction u <= x <-> u <= x / 360.
Proof. unfold draw01, random_direction. intros H. split; [lra |]. intros x. split; intros; lra. Qed.
Lemma half_draw : draw01 (1/2).
Proof. unfold draw01. lra. Qed.
Lemma one_lt_ten : 1 < 10.
Proof. lra. Qed.
Lemma stuck_some vm ve : 0 < vm <= ve -> exists first, forall rest, random_velocity vm (Some ve) 1 (first :: rest) = None.
Proof. intros H. eexists. intros rest. apply stuck_run. exact H. Qed.
(** A square given by nodes 2, 0, 3 and 1 in a row with two fill values. *)
Definition sq_node (n : nat) : vec := {| vx := match n with 0 | 3 => 1 | _ => 0 end; vy := match n with 1 | 3 => 1 | _ => 0 end; vz := 1 |}.
Lemma sq_row : corners_of sq_node [2; 0; 3; 1; -1; -1]%Z sq.
Proof.
  unfold sq. apply (corners_node sq_node 2), (corners_node sq_node 0), (corners_node sq_node 3), (corners_node sq_node 1).
  do 2 (apply corners_fill; [reflexivity |]). constructor.
Qed.
