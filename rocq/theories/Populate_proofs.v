(** Proofs about Populate_model. *)
From Coq Require Import Reals List Sorted Permutation Lra Lia Arith.
From Verif Require Import Common Sorting Run_spec Region_spec Region_more Populate_model Populate_spec.
From Verif Require Run_model Run_proofs Limits_model Limits_spec Region_model Random_model Random_proofs Random_sizes.
Import ListNotations.
Open Scope R_scope.

Lemma area_eq areas faces : bin_area areas faces = area_of areas faces.
Proof. unfold bin_area, total, areas_of, area_of. induction faces as [| f r IH]; [reflexivity |]. cbn. rewrite IH. reflexivity. Qed.

Lemma min_size_ok areas faces : faces <> [] -> (forall f, In f faces -> 0 <= nth f areas 0) -> smallest_size areas faces (bin_min_size areas faces).
Proof.
  intros NE P. unfold bin_min_size, areas_of. destruct faces as [| f r]; [congruence |]. cbn [map].
  pose proof (rmin_spec (map (fun f => nth f areas 0) r) (nth f areas 0)) as [I LE]. set (m := Region_model.rmin _ _) in *.
  change (In m (map (fun f => nth f areas 0) (f :: r))) in I. apply in_map_iff in I. destruct I as (x & E & X). split.
  - exists x. split; [exact X | rewrite E; reflexivity].
  - intros y Y. apply sqrt_le_1; [rewrite <- E; apply P; exact X | apply P; exact Y |]. apply LE.
    change (In (nth y areas 0) (map (fun f => nth f areas 0) (f :: r))). apply in_map_iff. exists y. split; [reflexivity | exact Y].
Qed.
Lemma smallest_size_unique areas faces s t : smallest_size areas faces s -> smallest_size areas faces t -> s = t.
Proof. intros [(f & F & ->) A] [(h & H & ->) B]. apply Rle_antisym; [apply A; exact H | apply B; exact F]. Qed.

(* ------------------------- the order of the bins ------------------------- *)
Lemma ord_filter {A} (P : A -> A -> Prop) f (l : list A) : ForallOrdPairs P l -> ForallOrdPairs P (filter f l).
Proof.
  induction 1 as [| x l F O IH]; [constructor |]. cbn. destruct (f x); [| exact IH]. constructor; [| exact IH].
  apply Forall_forall. intros y Y. apply filter_In in Y. rewrite Forall_forall in F. apply F, Y.
Qed.
Lemma ord_nth {A} (P : A -> A -> Prop) d (l : list A) : (forall i j, (i < j < List.length l)%nat -> P (nth i l d) (nth j l d)) -> ForallOrdPairs P l.
Proof.
  induction l as [| x l IH]; intros H; constructor.
  - apply Forall_forall. intros y Y. apply (In_nth _ _ d) in Y. destruct Y as (k & K & <-). apply (H 0%nat (S k)). cbn. lia.
  - apply IH. intros i j K. apply (H (S i) (S j)). cbn. lia.
Qed.
Definition below (areas : list R) (a b : list nat) : Prop := forall i j, In i a -> In j b -> nth i areas 0 < nth j areas 0.
Lemma bins_ordered areas lo hi bins : smallest areas lo -> largest areas hi -> 0 < lo -> (forall k : nat, hi <> lo * 2 ^ k) ->
  Region_model.face_bins areas = Ok bins -> ForallOrdPairs (below areas) bins.
Proof.
  intros S1 L1 P NE. destruct areas as [| a r]; [destruct S1 as [[] _] |]. unfold Region_model.face_bins.
  rewrite (smallest_eq _ _ _ (rmin_spec r a) S1), (largest_eq _ _ _ (rmax_spec r a) L1). cbv zeta. fold (nbins lo hi).
  destruct (fill_ok lo (a :: r) 0 (repeat [] (nbins lo hi))) as (out & A & B & C & D).
  { intros x Hx. rewrite repeat_length. apply Nat.le_lt_trans with (kof lo hi); [apply kof_mono; [exact P | apply S1; exact Hx | apply L1; exact Hx] |]. apply kof_nbins; [exact P | apply S1, L1 | exact NE]. }
  rewrite A. cbn [rbind]. intros E. injection E as <-. apply ord_filter, (ord_nth _ []). intros i j K x y X Y.
  assert (G : forall k x, In x (nth k out []) -> In (nth x (a :: r) 0) (a :: r) /\ kof lo (nth x (a :: r) 0) = k).
  { intros k z Hz. destruct (D k z Hz) as [E | (w & c & E1 & E2 & E3)]; [exfalso; clear - E; revert k E; induction (nbins lo hi) as [| n IH]; intros [| k] E; cbn in E; try contradiction; exact (IH _ E) |].
    cbn [Nat.add] in E2. subst w. rewrite (nth_error_nth _ _ _ E1). split; [apply nth_error_In in E1; exact E1 | exact E3]. }
  destruct (G i x X) as [I1 I2]. destruct (G j y Y) as [J1 J2]. apply Rnot_le_lt. intros Q.
  pose proof (kof_mono lo _ _ P (proj2 S1 _ J1) Q). lia.
Qed.

(* ------------------------------ the choice ------------------------------ *)
Lemma search_right_iff l : forall acc x k, Forall (fun a => 0 <= a) l -> acc <= x -> x < acc + Random_model.rsum l ->
  (Random_model.searchsorted_right (Random_model.cumsum acc l) x = k <->
   (k < List.length l)%nat /\ acc + Random_model.rsum (firstn k l) <= x < acc + Random_model.rsum (firstn (S k) l)).
Proof.
  induction l as [| a l IH]; intros acc x k F A B.
  - cbn in B. lra.
  - inversion F; subst. cbn [Random_model.rsum] in B. unfold Random_model.searchsorted_right in *. cbn [Random_model.cumsum filter].
    destruct (Random_model.Rleb (acc + a) x) eqn:E.
    + apply Random_proofs.Rleb_true in E. cbn [List.length]. destruct k as [| k].
      * cbn [firstn Random_model.rsum]. split; [discriminate |]. intros [_ [_ X]]. lra.
      * specialize (IH (acc + a) x k H2 E ltac:(lra)). cbn [firstn Random_model.rsum] in *. split.
        -- intros X. injection X as X. apply IH in X. destruct X as [X1 X2]. split; [cbn; lia | lra].
        -- intros [X1 X2]. f_equal. apply IH. cbn in X1. split; [lia | lra].
    + apply Random_proofs.Rleb_false in E. rewrite Random_proofs.filter_none.
      * cbn [List.length]. split.
        -- intros <-. cbn. split; [lia | lra].
        -- intros [X1 X2]. destruct k as [| k]; [reflexivity |]. exfalso. cbn [firstn Random_model.rsum] in X2.
           assert (0 <= Random_model.rsum (firstn k l)); [| lra]. apply Random_proofs.rsum_nonneg.
           clear - H2. revert k. induction H2 as [| b l Hb H IH]; intros [| k]; cbn; constructor; auto.
      * eapply Forall_impl; [| apply Random_proofs.cumsum_ge; exact H2]. cbn. intros c Hc. apply Random_proofs.Rleb_false. lra.
Qed.
Lemma last_cumsum l : forall acc d, l <> [] -> List.last (Random_model.cumsum acc l) d = acc + Random_model.rsum l.
Proof.
  induction l as [| a l IH]; intros acc d NE; [congruence |]. destruct l as [| b l]; [cbn; lra |].
  change (List.last (Random_model.cumsum (acc + a) (b :: l)) d = acc + (a + Random_model.rsum (b :: l))). rewrite IH by discriminate. lra.
Qed.
Lemma map_div1 (l : list R) : map (fun c => c / 1) l = l.
Proof. induction l as [| x l IH]; [reflexivity |]. cbn. rewrite IH. f_equal. lra. Qed.
Lemma firstn_map_div c l : forall k, Random_model.rsum (firstn k (map (fun a => a / c) l)) = Random_model.rsum (firstn k l) / c.
Proof. intros k. rewrite firstn_map. apply Random_proofs.rsum_scale. Qed.
Lemma rsum_firstn_S l : forall k a, nth_error l k = Some a -> Random_model.rsum (firstn (S k) l) = Random_model.rsum (firstn k l) + a.
Proof. induction l as [| x l IH]; intros [| k] a E; cbn in E; try discriminate; [injection E as ->; cbn; lra |]. change (x + Random_model.rsum (firstn (S k) l) = x + Random_model.rsum (firstn k l) + a). rewrite (IH k a E). lra. Qed.
Lemma rsum_firstn_le l : forall k, Forall (fun a => 0 <= a) l -> Random_model.rsum (firstn k l) <= Random_model.rsum l.
Proof. induction l as [| x l IH]; intros [| k] F; cbn; try lra; inversion F; subst; [pose proof (Random_proofs.rsum_nonneg l H2); lra |]. pose proof (IH k H2). lra. Qed.

Lemma choose_spec areas faces u : (forall f, In f faces -> 0 <= nth f areas 0) -> 0 < bin_area areas faces -> 0 <= u < 1 ->
  exists k f, nth_error faces k = Some f /\ choose faces (map (fun a => a / bin_area areas faces) (areas_of areas faces)) u = Ok f /\
  Random_model.searchsorted_right (Random_model.cumsum 0 (map (fun a => a / bin_area areas faces) (areas_of areas faces))) u = k.
Proof.
  intros P A U. set (w := map _ _). assert (W : Forall (fun a => 0 <= a) w).
  { unfold w. apply Forall_forall. intros x X. apply in_map_iff in X. destruct X as (y & <- & Y). unfold areas_of in Y. apply in_map_iff in Y. destruct Y as (f & <- & F).
    pose proof (P f F). unfold Rdiv. apply Rmult_le_pos; [assumption | apply Rlt_le, Rinv_0_lt_compat; assumption]. }
  assert (SW : Random_model.rsum w = 1). { unfold w. rewrite Random_proofs.rsum_scale. unfold bin_area, total. unfold bin_area, total in A. field. lra. }
  assert (NE : w <> []). { intros E. rewrite E in SW. cbn in SW. lra. }
  set (k := Random_model.searchsorted_right (Random_model.cumsum 0 w) u).
  destruct (proj1 (search_right_iff w 0 u k W (proj1 U) ltac:(lra)) eq_refl) as [K _].
  assert (LF : List.length w = List.length faces) by (unfold w, areas_of; rewrite !map_length; reflexivity).
  destruct (nth_error faces k) as [f |] eqn:E; [| apply nth_error_None in E; lia].
  exists k, f. split; [exact E |]. split; [| reflexivity]. unfold choose. rewrite last_cumsum by exact NE. rewrite SW. replace (0 + 1) with 1 by lra. rewrite map_div1. fold k. rewrite E. reflexivity.
Qed.
Lemma nodup_pos (l : list nat) i j x : NoDup l -> nth_error l i = Some x -> nth_error l j = Some x -> i = j.
Proof. intros N A B. rewrite NoDup_nth_error in N. apply N; [apply nth_error_Some; congruence | congruence]. Qed.
Lemma choose_share areas faces f : NoDup faces -> (forall f, In f faces -> 0 <= nth f areas 0) -> 0 < bin_area areas faces -> In f faces ->
  exists a b, 0 <= a <= b /\ b <= 1 /\ b - a = nth f areas 0 / area_of areas faces /\
    forall u, 0 <= u < 1 -> (choose faces (map (fun a => a / bin_area areas faces) (areas_of areas faces)) u = Ok f <-> a <= u < b).
Proof.
  intros N P A F. set (w := map (fun a => a / bin_area areas faces) (areas_of areas faces)). assert (W : Forall (fun a => 0 <= a) w).
  { unfold w. apply Forall_forall. intros x X. apply in_map_iff in X. destruct X as (y & <- & Y). unfold areas_of in Y. apply in_map_iff in Y. destruct Y as (h & <- & H).
    pose proof (P h H). unfold Rdiv. apply Rmult_le_pos; [assumption | apply Rlt_le, Rinv_0_lt_compat; assumption]. }
  assert (SW : Random_model.rsum w = 1). { unfold w. rewrite Random_proofs.rsum_scale. unfold bin_area, total. unfold bin_area, total in A. field. lra. }
  apply In_nth_error in F. destruct F as (k & K).
  assert (WK : nth_error w k = Some (nth f areas 0 / bin_area areas faces)) by (unfold w, areas_of; rewrite map_map, nth_error_map, K; reflexivity).
  exists (Random_model.rsum (firstn k w)), (Random_model.rsum (firstn (S k) w)). rewrite (rsum_firstn_S _ _ _ WK).
  assert (0 <= Random_model.rsum (firstn k w)). { apply Random_proofs.rsum_nonneg. clear - W. revert k. induction W as [| b l Hb H IH]; intros [| k]; cbn; constructor; auto. }
  assert (0 <= nth f areas 0 / bin_area areas faces). { apply nth_error_In in WK. rewrite Forall_forall in W. exact (W _ WK). }
  split; [lra |]. split; [rewrite <- (rsum_firstn_S _ _ _ WK), <- SW; apply rsum_firstn_le; exact W |]. split; [rewrite area_eq; lra |].
  intros u U. destruct (choose_spec areas faces u P A U) as (j & h & J & CH & E). fold w in E, CH. rewrite CH. clear CH.
  pose proof (search_right_iff w 0 u k W (proj1 U) ltac:(lra)) as I. rewrite E in I. rewrite (rsum_firstn_S _ _ _ WK) in I. split.
  - intros Q. injection Q as ->. assert (j = k) by (eapply nodup_pos; eassumption). apply I in H1. lra.
  - intros Q. assert (j = k). { apply I. split; [apply nth_error_Some; congruence | lra]. } subst j. congruence.
Qed.
