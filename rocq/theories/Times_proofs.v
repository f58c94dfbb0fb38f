(** Proofs for C12, C13 and C54. *)
From Coq Require Import Reals Lra Lia List Arith Permutation Sorted.
From Verif Require Import Common RSum Sorting Times_model Times_spec Run_spec.
Import ListNotations.
Open Scope R_scope.

(* ---------- the grid ---------- *)
Lemma grid_step ts te num k : (2 <= num)%nat ->
  grid num ts te (S k) - grid num ts te k = (ts - te) / INR (num - 1).
Proof. intros H. unfold grid. rewrite S_INR. lra. Qed.

Lemma num_pos num : (2 <= num)%nat -> 0 < INR (num - 1).
Proof. intros H. apply lt_0_INR. lia. Qed.

Lemma grid_0 ts te num : grid num ts te 0 = te.
Proof. unfold grid. simpl INR. lra. Qed.

Lemma grid_last ts te num : (2 <= num)%nat -> grid num ts te (num - 1) = ts.
Proof.
  intros H. pose proof (num_pos num H). unfold grid. field. lra.
Qed.

Lemma grid_le ts te num i j : (2 <= num)%nat -> te <= ts -> (i <= j)%nat ->
  grid num ts te i <= grid num ts te j.
Proof.
  intros H T L. unfold grid. pose proof (num_pos num H).
  apply Rplus_le_compat_l, Rmult_le_compat_r; [|apply le_INR; exact L].
  apply Rmult_le_pos; [lra|]. left. apply Rinv_0_lt_compat. assumption.
Qed.

Lemma grid_lt ts te num i j : (2 <= num)%nat -> te < ts -> (i < j)%nat ->
  grid num ts te i < grid num ts te j.
Proof.
  intros H T L. unfold grid. pose proof (num_pos num H).
  apply Rplus_lt_compat_l, Rmult_lt_compat_r; [|apply lt_INR; exact L].
  apply Rdiv_lt_0_compat; lra.
Qed.

Lemma grid_within ts te num i : (2 <= num)%nat -> te <= ts -> (i <= num - 1)%nat ->
  te <= grid num ts te i <= ts.
Proof.
  intros H T L.
  assert (A := grid_le ts te num 0 i H T ltac:(lia)). rewrite grid_0 in A.
  assert (B := grid_le ts te num i (num - 1) H T ltac:(lia)). rewrite grid_last in B by exact H. lra.
Qed.

Lemma chosen_le F num ts te D u : (chosen F num ts te D u <= num - 2)%nat.
Proof. unfold chosen. lia. Qed.

Lemma time_of_within F num ts te D u v : (2 <= num)%nat -> te <= ts -> 0 <= v < 1 ->
  te <= time_of F num ts te D u v <= ts.
Proof.
  intros H T V. unfold time_of. pose proof (chosen_le F num ts te D u) as C.
  set (i := chosen F num ts te D u) in *.
  assert (A := grid_within ts te num i H T ltac:(lia)).
  assert (B := grid_within ts te num (S i) H T ltac:(lia)).
  assert (L := grid_le ts te num i (S i) H T ltac:(lia)).
  nra.
Qed.

(* ---------- sorting by decreasing value ---------- *)
Lemma sorted_dec l : StronglySorted (fun a b => geb a b = true) l -> decreasing l.
Proof.
  induction 1 as [|x l S IH Fa]; [constructor|]. destruct l as [|y l]; [constructor|].
  constructor; [|exact IH]. inversion Fa as [|? ? E ?]; subst. unfold geb in E.
  destruct (Rle_dec y x); [assumption|discriminate].
Qed.

Lemma geb_sorted l : decreasing (sort geb l).
Proof.
  apply sorted_dec, sort_sorted.
  - intros x y. unfold geb. destruct (Rle_dec y x), (Rle_dec x y); intros; auto; lra.
  - intros x y z. unfold geb.
    destruct (Rle_dec y x), (Rle_dec z y), (Rle_dec z x); intros; auto; try discriminate; lra.
Qed.

Lemma combine_seq_length {A} (l : list A) k : List.length (combine (seq k (List.length l)) l) = List.length l.
Proof. rewrite combine_length, seq_length. lia. Qed.

Lemma times_ok F num ts te diams draws : (2 <= num)%nat -> te <= ts -> unit_draws draws ->
  List.length (compute_time F num ts te diams draws) = List.length diams /\
  Forall (within ts te) (compute_time F num ts te diams draws) /\
  decreasing (compute_time F num ts te diams draws).
Proof.
  intros H T U. unfold compute_time. destruct diams as [|d0 ds].
  - repeat split; constructor.
  - set (l := map _ _). split; [|split].
    + rewrite (Permutation_length (sort_perm geb l)). unfold l.
      rewrite map_length. apply combine_seq_length.
    + apply Forall_forall. intros t Ht.
      apply (Permutation_in t (sort_perm geb l)) in Ht. unfold l in Ht.
      apply in_map_iff in Ht. destruct Ht as ([i d] & <- & _).
      apply time_of_within; auto. apply U.
    + apply geb_sorted.
Qed.

(* ---------- merging ---------- *)
Lemma replace_spec rl : forall ql, exists kept dropped,
  Permutation rl (kept ++ dropped) /\
  Permutation (replace rl ql) (kept ++ ql) /\
  (List.length dropped <= List.length ql)%nat /\
  Forall2 (fun q c => diam q <= diam c) (firstn (List.length dropped) ql) dropped /\
  (StronglySorted (fun a b => smaller a b = true) ql ->
   forall q c, In q (skipn (List.length dropped) ql) -> In c kept -> diam c < diam q).
Proof.
  induction rl as [|c r IH]; intros ql.
  - exists [], []. simpl. split; [constructor|]. split; [reflexivity|]. split; [lia|].
    split; [constructor|]. intros _ q c _ [].
  - destruct ql as [|q q'].
    + destruct (IH []) as (k & d & P1 & P2 & L & F2 & _). simpl in L.
      destruct d; [|simpl in L; lia].
      exists (c :: k), []. simpl. rewrite !app_nil_r in *.
      split; [constructor; assumption|]. split; [constructor; assumption|]. split; [lia|].
      split; [constructor|]. intros _ q x [].
    + simpl. destruct (Rlt_dec (diam c) (diam q)) as [Lt|Ge].
      * destruct (IH (q :: q')) as (k & d & P1 & P2 & L & F2 & S).
        exists (c :: k), d. cbn [app].
        split; [constructor; assumption|]. split; [constructor; assumption|]. split; [exact L|].
        split; [exact F2|].
        -- intros SS x y Hx [<-|Hy]; [|eapply S; eauto].
           assert (Hq : In x (q :: q')).
           { rewrite <- (firstn_skipn (List.length d) (q :: q')). apply in_or_app. auto. }
           destruct Hq as [<-|Hq]; [exact Lt|].
           inversion SS as [|? ? _ Fa]; subst. rewrite Forall_forall in Fa.
           specialize (Fa x Hq). unfold smaller in Fa.
           destruct (Rle_dec (diam q) (diam x)); [lra|discriminate].
      * destruct (IH q') as (k & d & P1 & P2 & L & F2 & S).
        exists k, (c :: d). simpl. split; [|split; [|split; [|split]]].
        -- rewrite P1. apply Permutation_middle.
        -- rewrite P2. apply Permutation_middle.
        -- lia.
        -- constructor; [lra|exact F2].
        -- intros SS. inversion SS; subst. apply S. assumption.
Qed.

Lemma smaller_sorted l : StronglySorted (fun a b => smaller a b = true) (sort smaller l).
Proof.
  apply sort_sorted.
  - intros x y. unfold smaller. destruct (Rle_dec (diam x) (diam y)), (Rle_dec (diam y) (diam x)); intros; auto; lra.
  - intros x y z. unfold smaller.
    destruct (Rle_dec (diam x) (diam y)), (Rle_dec (diam y) (diam z)), (Rle_dec (diam x) (diam z)); intros; auto; try discriminate; lra.
Qed.

Lemma older_sorted l : decreasing (map ctime (sort older l)).
Proof.
  assert (S : StronglySorted (fun a b => older a b = true) (sort older l)).
  { apply sort_sorted.
    - intros x y. unfold older. destruct (Rle_dec (ctime y) (ctime x)), (Rle_dec (ctime x) (ctime y)); intros; auto; lra.
    - intros x y z. unfold older.
      destruct (Rle_dec (ctime y) (ctime x)), (Rle_dec (ctime z) (ctime y)), (Rle_dec (ctime z) (ctime x)); intros; auto; try discriminate; lra. }
  induction S as [|x m S IH Fa]; [constructor|]. destruct m as [|y m]; [constructor|].
  simpl. constructor; [|exact IH]. inversion Fa as [|? ? E ?]; subst. unfold older in E.
  destruct (Rle_dec (ctime y) (ctime x)); [assumption|discriminate].
Qed.

Lemma in_window_iff ts te t : in_window ts te t = true <-> te < t <= ts.
Proof.
  unfold in_window. destruct (Rle_dec t ts), (Rlt_dec te t); split; intros; auto; try discriminate; lra.
Qed.

(** Everything about one merge. *)
Lemma merge_spec F num ts te l draws users :
  exists kept dropped,
    Permutation (population F num ts te l draws) (kept ++ dropped) /\
    Permutation (quasimc_merge F num ts te l draws users)
                (kept ++ filter (fun c => in_window ts te (ctime c)) users) /\
    (exists replacing free,
       Permutation (filter (fun c => in_window ts te (ctime c)) users) (replacing ++ free) /\
       Forall2 (fun q c => diam q <= diam c) replacing dropped /\
       (forall q c, In q free -> In c kept -> diam c < diam q) /\
       List.length (quasimc_merge F num ts te l draws users) =
         (List.length (population F num ts te l draws) + List.length free)%nat) /\
    decreasing (map ctime (quasimc_merge F num ts te l draws users)).
Proof.
  unfold quasimc_merge.
  set (pop := population F num ts te l draws).
  set (qs := filter _ users).
  destruct (replace_spec (sort smaller pop) (sort smaller qs)) as (k & d & P1 & P2 & L & F2 & S).
  exists k, d.
  assert (Pq : Permutation (replace (sort smaller pop) (sort smaller qs)) (k ++ qs)).
  { rewrite P2. apply Permutation_app_head. apply sort_perm. }
  split; [|split; [|split]].
  - rewrite <- P1. symmetry. apply sort_perm.
  - rewrite sort_perm. exact Pq.
  - exists (firstn (List.length d) (sort smaller qs)), (skipn (List.length d) (sort smaller qs)).
    split; [|split; [|split]].
    + rewrite firstn_skipn. symmetry. apply sort_perm.
    + exact F2.
    + apply S. apply smaller_sorted.
    + rewrite (Permutation_length (sort_perm older _)), (Permutation_length Pq).
      rewrite <- (Permutation_length (sort_perm smaller pop)), (Permutation_length P1).
      rewrite !app_length, skipn_length, (Permutation_length (sort_perm smaller qs)).
      rewrite (Permutation_length (sort_perm smaller qs)) in L. lia.
  - apply older_sorted.
Qed.

(** The generated population of a window, seen from outside. *)
Lemma population_spec F num ts te l draws :
  (2 <= num)%nat -> te <= ts -> unit_draws draws ->
  (forall g t, In g l -> gtime g = Some t -> te < t <= ts) ->
  Permutation (map (fun c => (cid c, diam c)) (population F num ts te l draws))
              (map (fun g => (gid g, gdiam g)) l) /\
  (forall c, In c (population F num ts te l draws) -> te <= ctime c <= ts) /\
  (forall g t, In g l -> gtime g = Some t -> In (mkCrater (gid g) (gdiam g) t) (population F num ts te l draws)).
Proof.
  intros H T U W. unfold population.
  destruct (times_ok F num ts te (map gdiam (untimed l)) draws H T U) as (Len & Fa & _).
  set (tv := compute_time _ _ _ _ _ _) in *. rewrite map_length in Len.
  split; [|split].
  - rewrite map_app, map_map. cbn [cid diam].
    replace (map (fun x : gen * R => (gid (fst x), gdiam (fst x))) (combine (untimed l) tv))
      with (map (fun g => (gid g, gdiam g)) (untimed l)).
    2:{ clear - Len. clearbody tv. revert tv Len. induction (untimed l) as [|g r IH]; intros [|t tv] L; simpl in *; try discriminate; auto.
        f_equal. apply IH. lia. }
    clear - W. induction l as [|g r IH]; [constructor|].
    assert (IH' := IH (fun g t Hg => W g t (or_intror Hg))).
    unfold timed, untimed in *. simpl. destruct (gtime g) as [t|] eqn:E.
    + destruct (in_window ts te t) eqn:Ew.
      * simpl. constructor. exact IH'.
      * exfalso. assert (X := proj2 (in_window_iff ts te t) (W g t (or_introl eq_refl) E)). congruence.
    + simpl. rewrite <- Permutation_middle. constructor. exact IH'.
  - intros c Hc. apply in_app_or in Hc. destruct Hc as [Hc|Hc].
    + unfold timed in Hc. apply in_flat_map in Hc. destruct Hc as (g & Hg & Hc).
      destruct (gtime g) as [t|] eqn:E; [|destruct Hc].
      destruct (in_window ts te t) eqn:Ew; [|destruct Hc].
      destruct Hc as [<-|[]]. simpl. apply in_window_iff in Ew. lra.
    + apply in_map_iff in Hc. destruct Hc as ([g t] & <- & Hc). simpl.
      apply in_combine_r in Hc. rewrite Forall_forall in Fa. apply Fa. exact Hc.
  - intros g t Hg E. apply in_or_app. left. unfold timed. apply in_flat_map. exists g.
    split; [exact Hg|]. rewrite E, (proj2 (in_window_iff ts te t) (W g t Hg E)). left. reflexivity.
Qed.

Lemma filter_perm {A} (f : A -> bool) l1 l2 : Permutation l1 l2 -> Permutation (filter f l1) (filter f l2).
Proof.
  induction 1; simpl.
  - reflexivity.
  - destruct (f x); [constructor|]; assumption.
  - destruct (f x), (f y); try reflexivity. apply perm_swap.
  - etransitivity; eauto.
Qed.

Lemma filter_true {A} (f : A -> bool) l : (forall x, In x l -> f x = true) -> filter f l = l.
Proof.
  induction l as [|x l IH]; intros H; [reflexivity|]. simpl. rewrite (H x) by (left; auto).
  f_equal. apply IH. intros; apply H; right; auto.
Qed.
Lemma filter_false {A} (f : A -> bool) l : (forall x, In x l -> f x = false) -> filter f l = [].
Proof.
  induction l as [|x l IH]; intros H; [reflexivity|]. simpl. rewrite (H x) by (left; auto).
  apply IH. intros; apply H; right; auto.
Qed.

Lemma population_ids F num ts te l draws c :
  In c (population F num ts te l draws) -> In (cid c) (map gid l).
Proof.
  unfold population. intros H. apply in_app_or in H. destruct H as [H|H].
  - unfold timed in H. apply in_flat_map in H. destruct H as (g & Hg & H).
    destruct (gtime g); [|destruct H]. destruct (in_window ts te r); [|destruct H].
    destruct H as [<-|[]]. simpl. apply in_map. exact Hg.
  - apply in_map_iff in H. destruct H as ([g t] & <- & H). simpl.
    apply in_combine_l in H. unfold untimed in H. apply filter_In in H. apply in_map. tauto.
Qed.

Lemma merge_users F num ts te l draws users :
  (forall u, In u users -> ~ In (cid u) (map gid l)) ->
  Permutation (filter (is_user users) (quasimc_merge F num ts te l draws users))
              (filter (fun c => in_window ts te (ctime c)) users).
Proof.
  intros D. destruct (merge_spec F num ts te l draws users) as (k & d & P1 & P2 & _).
  rewrite (filter_perm _ _ _ P2), filter_app.
  rewrite (filter_false (is_user users) k).
  - simpl. rewrite filter_true; [reflexivity|].
    intros x Hx. apply filter_In in Hx. unfold is_user. apply existsb_exists. exists x.
    split; [tauto|]. apply Nat.eqb_refl.
  - intros x Hx. unfold is_user. destruct (existsb _ users) eqn:E; [|reflexivity].
    apply existsb_exists in E. destruct E as (u & Hu & E). apply Nat.eqb_eq in E.
    exfalso. apply (D u Hu). rewrite E. eapply population_ids.
    apply (Permutation_in x (Permutation_sym P1)). apply in_or_app. left. exact Hx.
Qed.

Lemma tiles_lt a b l : tiles a b l -> b < a.
Proof. induction 1; lra. Qed.

Lemma window_split users a c b : b < c -> c < a ->
  Permutation (filter (fun x => in_window a c (ctime x)) users ++ filter (fun x => in_window c b (ctime x)) users)
              (filter (fun x => in_window a b (ctime x)) users).
Proof.
  intros L1 L2. induction users as [|u r IH]; [constructor|]. simpl.
  destruct (in_window a c (ctime u)) eqn:E1; destruct (in_window c b (ctime u)) eqn:E2;
    destruct (in_window a b (ctime u)) eqn:E3;
    try apply in_window_iff in E1; try apply in_window_iff in E2; try apply in_window_iff in E3;
    try lra; auto.
  - simpl. constructor. exact IH.
  - exfalso. assert (X : in_window a b (ctime u) = true) by (apply in_window_iff; lra). congruence.
  - simpl. rewrite <- Permutation_middle. constructor. exact IH.
  - exfalso. assert (X : in_window a b (ctime u) = true) by (apply in_window_iff; lra). congruence.
  - exfalso. destruct (Rle_dec (ctime u) c).
    + assert (X : in_window c b (ctime u) = true) by (apply in_window_iff; lra). congruence.
    + assert (X : in_window a c (ctime u) = true) by (apply in_window_iff; lra). congruence.
Qed.

Lemma run_users_aux F num users l : forall ts te gens draws k,
  tiles ts te l ->
  (forall i u, In u users -> ~ In (cid u) (map gid (gens i))) ->
  Permutation (filter (is_user users)
    (flat_map (fun p => quasimc_merge F num (fst (snd p)) (snd (snd p)) (gens (fst p)) (draws (fst p)) users)
       (combine (seq k (List.length l)) l)))
    (filter (fun c => in_window ts te (ctime c)) users).
Proof.
  intros ts te gens draws k T D. revert k. induction T as [a b L | a c b l L T IH]; intros k.
  - simpl. rewrite app_nil_r. apply merge_users. apply D.
  - cbn [List.length seq combine flat_map]. rewrite filter_app. rewrite IH.
    cbn [fst snd]. rewrite merge_users by apply D.
    apply window_split; [eapply tiles_lt; eauto|exact L].
Qed.

Lemma run_users F num users l ts te gens draws :
  tiles ts te l ->
  (forall i u, In u users -> ~ In (cid u) (map gid (gens i))) ->
  Permutation (filter (is_user users) (merges F num l gens draws users))
    (filter (fun c => in_window ts te (ctime c)) users).
Proof. intros. apply run_users_aux; assumption. Qed.

(* ---------- which draws choose which subinterval ---------- *)
Section Chosen.
Variables (F : R -> R -> R) (num : nat) (ts te D : R).
Hypothesis Hn : (3 <= num)%nat.
Hypothesis Hw : te < ts.
Hypothesis Inc : increasing_on te ts (F D).

Let f (k : nat) := F D (grid num ts te k).
Let total := fsum (num - 1) (fun j => f j - f 0).

Lemma f_lt i j : (i < j)%nat -> (j <= num - 1)%nat -> f i < f j.
Proof.
  intros L M. unfold f. apply Inc.
  - apply grid_within; try lia; lra.
  - apply grid_lt; try lia; lra.
  - apply grid_within; try lia; lra.
Qed.

Lemma row_min_0 : row_min F num ts te D = f 0.
Proof.
  unfold row_min. fold (f 0).
  assert (X : forall l, (forall k, In k l -> (k <= num - 1)%nat) ->
     fold_right Rmin (f 0) (map (fun k => F D (grid num ts te k)) l) = f 0).
  { induction l as [|k l IH]; intros H; [reflexivity|]. simpl. rewrite IH by (intros; apply H; right; auto).
    fold (f k). assert (K := H k (or_introl eq_refl)). destruct k.
    - apply Rmin_left. lra.
    - apply Rmin_right. left. apply f_lt; lia. }
  apply X. intros k Hk. apply in_seq in Hk. lia.
Qed.

Lemma total_pos : 0 < total.
Proof.
  unfold total. replace (num - 1)%nat with (S (num - 2)) by lia. simpl.
  assert (0 < f (num - 2) - f 0) by (assert (X := f_lt 0 (num - 2) ltac:(lia) ltac:(lia)); lra).
  assert (0 <= fsum (num - 2) (fun j => f j - f 0)).
  { apply fsum_nonneg. intros i Hi. destruct i; [lra|]. assert (X := f_lt 0 (S i) ltac:(lia) ltac:(lia)). lra. }
  lra.
Qed.

Lemma weight_eq k : weight F num ts te D k = (f k - f 0) / total.
Proof.
  unfold weight. rewrite row_min_0. fold (f k). f_equal.
Qed.

Lemma weight_pos k : (1 <= k <= num - 1)%nat -> 0 < weight F num ts te D k.
Proof.
  intros H. rewrite weight_eq. apply Rdiv_lt_0_compat; [|apply total_pos].
  assert (X := f_lt 0 k ltac:(lia) ltac:(lia)). lra.
Qed.

Lemma weight_0 : weight F num ts te D 0 = 0.
Proof. rewrite weight_eq. unfold Rdiv. ring. Qed.

Lemma cdf_S k : cdf F num ts te D (S k) = cdf F num ts te D k + weight F num ts te D (S k).
Proof. reflexivity. Qed.

Lemma cdf_0 : cdf F num ts te D 0 = 0.
Proof. unfold cdf. simpl. rewrite weight_0. lra. Qed.

Lemma cdf_le i j : (i <= j)%nat -> (j <= num - 1)%nat -> cdf F num ts te D i <= cdf F num ts te D j.
Proof.
  intros L M. induction L; [lra|]. rewrite cdf_S.
  assert (X := weight_pos (S m) ltac:(lia)). specialize (IHL ltac:(lia)). lra.
Qed.

Lemma cdf_last : cdf F num ts te D (num - 2) = 1.
Proof.
  unfold cdf. replace (S (num - 2)) with (num - 1)%nat by lia.
  rewrite (fsum_ext _ _ (fun k => / total * (f k - f 0))).
  - rewrite fsum_scal. fold total. field. pose proof total_pos. lra.
  - intros i Hi. rewrite weight_eq. unfold Rdiv. ring.
Qed.

Lemma count_le_spec u i : (S i <= num - 2)%nat ->
  cdf F num ts te D i <= u < cdf F num ts te D (S i) -> count_le F num ts te D u = S i.
Proof.
  intros Hi Hu. unfold count_le.
  replace (num - 1)%nat with (S i + (num - 1 - S i))%nat by lia.
  rewrite seq_app, filter_app, app_length.
  rewrite filter_true, filter_false, seq_length; [simpl; lia| |].
  - intros k Hk. apply in_seq in Hk.
    assert (X := cdf_le (S i) k ltac:(lia) ltac:(lia)).
    destruct (Rle_dec _ u); [lra|reflexivity].
  - intros k Hk. apply in_seq in Hk.
    assert (X := cdf_le k i ltac:(lia) ltac:(lia)).
    destruct (Rle_dec _ u); [reflexivity|lra].
Qed.

Lemma locate u : 0 <= u < 1 -> exists i, (S i <= num - 2)%nat /\
  cdf F num ts te D i <= u < cdf F num ts te D (S i).
Proof.
  intros U.
  assert (X : forall n, (n <= num - 2)%nat -> u < cdf F num ts te D n ->
     exists i, (S i <= n)%nat /\ cdf F num ts te D i <= u < cdf F num ts te D (S i)).
  { induction n as [|n IH]; intros Hn' Hu.
    - rewrite cdf_0 in Hu. lra.
    - destruct (Rlt_dec u (cdf F num ts te D n)) as [L|L].
      + destruct (IH ltac:(lia) L) as (i & Hi & E). exists i. split; [lia|exact E].
      + exists n. split; [lia|]. lra. }
  destruct (X (num - 2)%nat ltac:(lia)) as (i & Hi & E); [rewrite cdf_last; lra|].
  exists i. split; [lia|exact E].
Qed.

Lemma chosen_iff u i : 0 <= u < 1 -> (S i <= num - 2)%nat ->
  (chosen F num ts te D u = i <-> cdf F num ts te D i <= u < cdf F num ts te D (S i)).
Proof.
  intros U Hi. destruct (locate u U) as (j & Hj & E).
  assert (C : chosen F num ts te D u = j).
  { unfold chosen. rewrite (count_le_spec u j Hj E). lia. }
  rewrite C. split.
  - intros <-. exact E.
  - intros E'. destruct (Nat.lt_trichotomy i j) as [L|[L|L]]; [|exact (eq_sym L)|].
    + assert (Y := cdf_le (S i) j ltac:(lia) ltac:(lia)). lra.
    + assert (Y := cdf_le (S j) i ltac:(lia) ltac:(lia)). lra.
Qed.

Lemma chosen_share i : (i < num - 2)%nat ->
  share (chosen F num ts te D) i ((f (S i) - f 0) / total).
Proof.
  intros Hi. exists (cdf F num ts te D i), (cdf F num ts te D (S i)).
  split; [|split; [|split]].
  - split; [rewrite <- cdf_0|]; apply cdf_le; lia.
  - rewrite <- cdf_last. apply cdf_le; lia.
  - rewrite cdf_S, weight_eq. lra.
  - intros u U. apply chosen_iff; auto; lia.
Qed.

Lemma chosen_lt u : 0 <= u < 1 -> (chosen F num ts te D u < num - 2)%nat.
Proof.
  intros U. destruct (locate u U) as (j & Hj & E).
  apply (chosen_iff u j U Hj) in E. lia.
Qed.

Lemma last_share : share (chosen F num ts te D) (num - 2) 0.
Proof.
  exists 0, 0. split; [lra|]. split; [lra|]. split; [lra|].
  intros u U. assert (X := chosen_lt u U). split; [lia|lra].
Qed.

Lemma oldest_missing u v : 0 <= u < 1 -> 0 <= v < 1 ->
  time_of F num ts te D u v < ts - (ts - te) / INR (num - 1).
Proof.
  intros U V. pose proof (chosen_lt u U) as C. unfold time_of.
  set (i := chosen F num ts te D u) in *.
  assert (A := grid_step ts te num i ltac:(lia)).
  assert (B := grid_le ts te num (S i) (num - 2) ltac:(lia) ltac:(lra) ltac:(lia)).
  assert (E := grid_step ts te num (num - 2) ltac:(lia)).
  replace (S (num - 2)) with (num - 1)%nat in E by lia.
  rewrite (grid_last ts te num) in E by lia.
  assert (G := grid_lt ts te num i (S i) ltac:(lia) Hw ltac:(lia)).
  nra.
Qed.

(** ... and the times a subinterval yields are inside it. *)
Lemma time_in_chosen u v : 0 <= u < 1 -> 0 <= v < 1 ->
  grid num ts te (chosen F num ts te D u) <= time_of F num ts te D u v
    < grid num ts te (S (chosen F num ts te D u)).
Proof.
  intros U V. unfold time_of. set (i := chosen F num ts te D u).
  assert (G := grid_lt ts te num i (S i) ltac:(lia) Hw ltac:(lia)). nra.
Qed.
End Chosen.

Lemma share_unique pick i p q : share pick i p -> share pick i q -> p = q.
Proof.
  intros (a & b & A1 & A2 & -> & A3) (c & d & C1 & C2 & -> & C3).
  destruct (Rlt_dec a b) as [L1|L1]; destruct (Rlt_dec c d) as [L2|L2].
  - assert (a = c).
    { destruct (Rtotal_order a c) as [L|[L|L]]; auto; exfalso.
      - assert (X := proj2 (A3 a ltac:(lra)) ltac:(lra)). apply C3 in X; lra.
      - assert (X := proj2 (C3 c ltac:(lra)) ltac:(lra)). apply A3 in X; lra. }
    assert (b = d); [|lra].
    destruct (Rtotal_order b d) as [L|[L|L]]; auto; exfalso.
    + assert (X := proj2 (C3 b ltac:(lra)) ltac:(lra)). apply A3 in X; lra.
    + assert (X := proj2 (A3 d ltac:(lra)) ltac:(lra)). apply C3 in X; lra.
  - assert (X := proj2 (A3 a ltac:(lra)) ltac:(lra)). apply C3 in X; lra.
  - assert (X := proj2 (C3 c ltac:(lra)) ltac:(lra)). apply A3 in X; lra.
  - lra.
Qed.


Lemma sum_linear n : fsum n INR = INR n * (INR n - 1) / 2.
Proof. induction n as [|n IH]; [simpl; lra|]. cbn [fsum]. rewrite IH, S_INR. field. Qed.

Lemma constant_rate_share num ts te D i : (3 <= num)%nat -> te < ts -> (i < num - 2)%nat ->
  share (chosen (fun _ t => t) num ts te D) i
    (2 * (INR i + 1) / (INR (num - 1) * (INR (num - 1) - 1))).
Proof.
  intros Hn Hw Hi.
  assert (Inc : increasing_on te ts ((fun _ t : R => t) D)) by (intros a b _ L _; exact L).
  assert (X := chosen_share (fun _ t => t) num ts te D Hn Hw Inc i Hi).
  cbv beta in X.
  assert (N1 : 2 <= INR (num - 1)) by (change 2 with (INR 2); apply le_INR; lia).
  replace (2 * (INR i + 1) / (INR (num - 1) * (INR (num - 1) - 1)))
    with ((grid num ts te (S i) - grid num ts te 0) /
       fsum (num - 1) (fun j => grid num ts te j - grid num ts te 0)); [exact X|].
  set (h := (ts - te) / INR (num - 1)).
  assert (Hh : 0 < h) by (apply Rdiv_lt_0_compat; lra).
  rewrite (fsum_ext (num - 1) (fun j => grid num ts te j - grid num ts te 0) (fun j => h * INR j)).
  - rewrite fsum_scal, sum_linear. unfold grid. rewrite S_INR. fold h. simpl (INR 0).
    field. lra.
  - intros j _. unfold grid. fold h. simpl (INR 0). lra.
Qed.

Lemma biased num ts te D : (4 <= num)%nat -> te < ts ->
  ~ (forall i, (i < num - 1)%nat -> share (chosen (fun _ t => t) num ts te D) i (1 / INR (num - 1))).
Proof.
  intros Hn Hw H.
  assert (N1 : 3 <= INR (num - 1)) by (replace 3 with (INR 3) by (simpl; lra); apply le_INR; lia).
  assert (A := constant_rate_share num ts te D 0 ltac:(lia) Hw ltac:(lia)).
  assert (B := share_unique _ _ _ _ A (H 0%nat ltac:(lia))).
  simpl (INR 0) in B. set (n := INR (num - 1)) in *.
  assert (C : 2 * (0 + 1) / (n * (n - 1)) * (n * (n-1)) = 1 / n * (n * (n-1))) by (rewrite B; reflexivity).
  replace (2 * (0 + 1) / (n * (n - 1)) * (n * (n-1))) with 2 in C by (field; lra).
  replace (1 / n * (n * (n-1))) with (n - 1) in C by (field; lra).
  assert (n = 3) by lra.
  (* num = 4: the second subinterval has twice the share of the first *)
  assert (A1 := constant_rate_share num ts te D 1 ltac:(lia) Hw ltac:(lia)).
  assert (B1 := share_unique _ _ _ _ A1 (H 1%nat ltac:(lia))).
  fold n in B1. rewrite H0 in B1. simpl in B1. lra.
Qed.

Lemma partition {A} (f : A -> bool) l : Permutation l (filter f l ++ filter (fun x => negb (f x)) l).
Proof.
  induction l as [|x l IH]; [constructor|]. simpl. destruct (f x); simpl.
  - constructor. exact IH.
  - rewrite <- Permutation_middle. constructor. exact IH.
Qed.

Lemma window_parts ts te users : window_of ts te users (filter (fun c => in_window ts te (ctime c)) users).
Proof.
  exists (filter (fun c => negb (in_window ts te (ctime c))) users). split; [apply partition|]. split.
  - apply Forall_forall. intros c Hc. apply filter_In in Hc. apply in_window_iff. tauto.
  - apply Forall_forall. intros c Hc. apply filter_In in Hc. destruct Hc as [_ Hc].
    intros X. apply in_window_iff in X. rewrite X in Hc. discriminate.
Qed.

Lemma merged F num ts te l draws users :
  (2 <= num)%nat -> te <= ts -> unit_draws draws ->
  (forall g t, In g l -> gtime g = Some t -> te < t <= ts) ->
  exists inside replacing free kept dropped,
    window_of ts te users inside /\
    Permutation inside (replacing ++ free) /\
    Permutation (map (fun c => (cid c, diam c)) (kept ++ dropped)) (map (fun g => (gid g, gdiam g)) l) /\
    (forall g t, In g l -> gtime g = Some t -> In (mkCrater (gid g) (gdiam g) t) (kept ++ dropped)) /\
    Forall (fun c => te <= ctime c <= ts) kept /\
    Permutation (quasimc_merge F num ts te l draws users) (kept ++ inside) /\
    Forall2 (fun q c => diam q <= diam c) replacing dropped /\
    (forall q c, In q free -> In c kept -> diam c < diam q) /\
    List.length (quasimc_merge F num ts te l draws users) = (List.length l + List.length free)%nat /\
    decreasing (map ctime (quasimc_merge F num ts te l draws users)).
Proof.
  intros H T U W.
  destruct (merge_spec F num ts te l draws users) as (k & d & P1 & P2 & (rp & fr & P3 & F2 & S & L) & O).
  destruct (population_spec F num ts te l draws H T U W) as (Q1 & Q2 & Q3).
  exists (filter (fun c => in_window ts te (ctime c)) users), rp, fr, k, d.
  split; [apply window_parts|]. split; [exact P3|]. split.
  { rewrite <- Q1. apply Permutation_map. symmetry. exact P1. }
  split.
  { intros g t Hg E. apply (Permutation_in _ P1). apply Q3; assumption. }
  split.
  { apply Forall_forall. intros c Hc. apply Q2. apply (Permutation_in _ (Permutation_sym P1)).
    apply in_or_app. left. exact Hc. }
  split; [exact P2|]. split; [exact F2|]. split; [exact S|]. split; [|exact O].
  rewrite L. f_equal. rewrite <- (map_length (fun c => (cid c, diam c))), (Permutation_length Q1).
  apply map_length.
Qed.

Lemma merged_over_run F num users l ts te gens draws :
  tiles ts te l ->
  (forall i u, In u users -> ~ In (cid u) (map gid (gens i))) ->
  exists inside, window_of ts te users inside /\
  Permutation (filter (is_user users) (merges F num l gens draws users)) inside.
Proof.
  intros T D. exists (filter (fun c => in_window ts te (ctime c)) users).
  split; [apply window_parts|apply run_users; assumption].
Qed.

(** A concrete case. *)
Definition draws0 : nat -> R * R := fun _ => (1/2, 1/2).
Lemma draws0_ok : unit_draws draws0.
Proof. intros i. simpl. lra. Qed.
Definition gens0 : list gen := [mkGen 1 10 (Some 5); mkGen 2 30 None].
Definition users0 : list crater := [mkCrater 7 20 8; mkCrater 8 40 3; mkCrater 9 50 60].
Lemma case0 num : (2 <= num)%nat ->
  List.length (quasimc_merge (fun _ t => t) num 10 0 gens0 draws0 users0) = 3%nat.
Proof.
  intros H.
  destruct (times_ok (fun _ t => t) num 10 0 [30] draws0 H ltac:(lra) draws0_ok) as (L & _).
  unfold quasimc_merge. rewrite (Permutation_length (sort_perm older _)).
  assert (E : exists t, population (fun _ t => t) num 10 0 gens0 draws0 = [mkCrater 1 10 5; mkCrater 2 30 t]).
  { unfold population, gens0, timed. cbn [flat_map gtime untimed filter map gid gdiam].
    unfold in_window. destruct (Rle_dec 5 10); [|lra]. destruct (Rlt_dec 0 5); [|lra].
    destruct (compute_time (fun _ t : R => t) num 10 0 [30] draws0) as [|t [|t' r']]; try discriminate.
    exists t. reflexivity. }
  destruct E as (t & E). rewrite E.
  unfold users0. cbn [filter ctime]. unfold in_window.
  repeat match goal with |- context [Rle_dec ?a ?b] => destruct (Rle_dec a b); try lra end.
  repeat match goal with |- context [Rlt_dec ?a ?b] => destruct (Rlt_dec a b); try lra end.
  unfold sort, insert, smaller. cbn [fold_right diam].
  repeat match goal with |- context [Rle_dec ?a ?b] => destruct (Rle_dec a b); try lra end.
  cbn [replace diam].
  repeat match goal with |- context [Rlt_dec ?a ?b] => destruct (Rlt_dec a b); try lra; cbn [replace diam] end.
  reflexivity.
Qed.
