(** Proofs about raised surfaces, quantiles and the rim fitting loop (C70, C71). *)
From Coq Require Import Reals NArith Lra Permutation Sorted.
From Verif Require Import Common RSum Sorting Crater_model Measure_model Measure_spec Measure_proofs Measure_score.
Open Scope R_scope.

Lemma in_shift h l x : In (Some x) (map (option_map (fun e => e + h)) l) <-> In (Some (x - h)) l.
Proof.
  rewrite in_map_iff. split.
  - intros ([y |] & E & H); [| discriminate]. injection E as <-. replace (y + h - h) with y by lra. exact H.
  - intros H. exists (Some (x - h)). split; [simpl; f_equal; lra | exact H].
Qed.
Lemma rescale_shift h l : (exists u v, In (Some u) l /\ In (Some v) l /\ u < v) -> rescale (map (option_map (fun e => e + h)) l) = rescale l.
Proof.
  intros (u & v & U & V & L). destruct (nanmin_ex l u U) as [lo E1], (nanmax_ex l v V) as [hi E2].
  destruct (nanmin_some l lo E1) as [I1 B1], (nanmax_some l hi E2) as [I2 B2].
  assert (F1 : nanmin (map (option_map (fun e => e + h)) l) = Some (lo + h)).
  { apply nanmin_is; [apply in_shift; now replace (lo + h - h) with lo by lra |]. intros x Hx. apply in_shift in Hx. apply B1 in Hx. lra. }
  assert (F2 : nanmax (map (option_map (fun e => e + h)) l) = Some (hi + h)).
  { apply nanmax_is; [apply in_shift; now replace (hi + h - h) with hi by lra |]. intros x Hx. apply in_shift in Hx. apply B2 in Hx. lra. }
  unfold rescale. rewrite E1, E2, F1, F2. pose proof (B1 u U). pose proof (B2 v V).
  destruct (Rlt_dec 0 (hi + h - (lo + h))) as [_ | N]; [| lra]. destruct (Rlt_dec 0 (hi - lo)) as [_ | N]; [| lra].
  rewrite map_map. apply map_ext. intros [x |]; simpl; [| reflexivity]. f_equal. replace (hi + h - (lo + h)) with (hi - lo) by lra. f_equal. lra.
Qed.
Lemma lifted_score scale ap bp q gm cm hm h fs : (exists u v, In (Some u) (map s_elev fs) /\ In (Some v) (map s_elev fs) /\ u < v) ->
  score_rim scale ap bp q gm cm hm (map (lifted h) fs) = score_rim scale ap bp q gm cm hm fs.
Proof.
  intros D.
  assert (O : outside ap bp (map (lifted h) fs) = outside ap bp fs) by (unfold outside; rewrite map_map; reflexivity).
  assert (DS : distscore scale ap bp (map (lifted h) fs) = distscore scale ap bp fs) by (unfold distscore; rewrite O, map_map; reflexivity).
  assert (C : combined scale ap bp gm cm hm (map (lifted h) fs) = combined scale ap bp gm cm hm fs).
  { unfold combined. cbv zeta. rewrite DS. f_equal.
    - unfold gradscore. rewrite O, map_map. reflexivity.
    - unfold curvscore. rewrite O, map_map. reflexivity.
    - unfold heightscore. f_equal. rewrite map_map. 
      replace (map (fun x => s_elev (lifted h x)) fs) with (map (option_map (fun e => e + h)) (map s_elev fs)) by (rewrite map_map; reflexivity).
      now apply rescale_shift. }
  unfold score_rim. rewrite C, map_length, map_map. reflexivity.
Qed.
Lemma n1 : n_sectors_of 1 = 9%nat. Proof. reflexivity. Qed.
Definition flat (h : R) : list sface := [mk_sface (Some h) (Some 0) (Some 0) 0 0 0].
Lemma flat_score h : score_rim 1 1 1 0.95 1 1 1 (flat h) = [if Rlt_dec 0 (1 + h) then Some 1 else None].
Proof.
  assert (M : Rmax 1 1 = 1) by (apply Rmax_left; lra).
  assert (F : Rltb (1.5 * Rmax 1 1) 0 = false) by (apply Rltb_false; rewrite M; lra).
  assert (D : distscore 1 1 1 (flat h) = [Some 1]).
  { unfold distscore, outside, flat. cbn [map nan_where]. cbn [s_dist s_rim]. rewrite F. unfold by_max, nanmax. cbn [somes flat_map app fold_left].
    destruct (Rlt_dec 0 (1 / ((0 / 1) ^ 2 + 0.05))) as [P | P]; [| lra]. cbn [map option_map]. do 2 f_equal. lra. }
  assert (C : combined 1 1 1 1 1 1 (flat h) = [Some (1 + h)]).
  { unfold combined. cbv zeta. rewrite D.
    assert (G : gradscore 1 1 [Some 1] (flat h) = [Some 1]).
    { unfold gradscore, outside, flat. cbn [map nan_where option_map]. cbn [s_dist s_grad option_map]. rewrite F. cbn [map option_map times mul]. unfold by_max, nanmax. cbn [somes flat_map app fold_left].
      rewrite Rabs_R0. destruct (Rlt_dec 0 (1 / (0 + 1e-16) * 1)) as [P | P]; [| lra]. cbn [map option_map]. do 2 f_equal. lra. }
    assert (Cu : curvscore 1 1 [Some 1] (flat h) = [Some 0]).
    { unfold curvscore, outside, flat. cbn [map nan_where option_map]. cbn [s_dist s_curv]. rewrite F. cbn [map option_map times mul]. unfold by_max, nanmax. cbn [somes flat_map app fold_left].
      destruct (Rlt_dec 0 0) as [P | P]; [lra |]. destruct (Rlt_dec 0 (-0 * 1)) as [Q | Q]; [lra |]. do 2 f_equal. lra. }
    assert (H : heightscore [Some 1] (flat h) = [Some h]).
    { unfold heightscore, flat. cbn [map]. cbn [s_elev]. unfold rescale, nanmin, nanmax. cbn [somes flat_map app fold_left]. destruct (Rlt_dec 0 (h - h)) as [P | P]; [lra |]. cbn [times mul]. do 2 f_equal. lra. }
    rewrite G, Cu, H. cbn [weighted]. do 2 f_equal. lra. }
  unfold score_rim. rewrite C. change (List.length (flat h)) with 1%nat. rewrite n1. cbn [map flat]. generalize (sector_of 9 (s_bearing (mk_sface (Some h) (Some 0) (Some 0) 0 0 0))). intros s.
  assert (N : normalised [Some (1 + h)] [s] = [if Rlt_dec 0 (1 + h) then Some 1 else None]).
  { unfold normalised. cbn [combine map fst snd in_sector]. rewrite Nat.eqb_refl. unfold nanmax. cbn [somes flat_map app fold_left].
    destruct (Rlt_dec 0 (1 + h)) as [P | P]; [| reflexivity]. do 2 f_equal. field. lra. }
  rewrite N. destruct (Rlt_dec 0 (1 + h)) as [P | P].
  - assert (HH : high_scores 0.95 9 [Some 1] [s] = [true]).
    { unfold high_scores. cbv zeta. destruct (Nat.ltb (trues (above_quantile 0.95 [Some 1] [s])) (3 * 9)) eqn:E; [reflexivity |].
      exfalso. apply Nat.ltb_ge in E. assert (L : (trues (above_quantile 0.95 [Some 1%R] [s]) <= 1)%nat) by (unfold trues; eapply Nat.le_trans; [apply filter_length_le | reflexivity]). lia. }
    rewrite HH. cbn [map negb nan_where]. unfold rescale, nanmin, nanmax. cbn [somes flat_map app fold_left]. destruct (Rlt_dec 0 (1 - 1)); [lra | reflexivity].
  - assert (HH : forall b, nan_where [None] b = [] \/ nan_where [None] b = [None]) by (intros [| [|] b]; simpl; auto; destruct b; auto).
    assert (LH : List.length (map negb (high_scores 0.95 9 [None] [s])) = 1%nat) by (rewrite map_length; apply len_high; reflexivity).
    destruct (map negb (high_scores 0.95 9 [None] [s])) as [| b [| c l]]; try discriminate. destruct b; reflexivity.
Qed.
Lemma quantile_low : nanquantile [Some 0; Some 1] 0.5 = Some 0.
Proof.
  unfold nanquantile. cbn [somes flat_map app]. unfold sort. cbn [fold_right insert].
  replace (Rleb 0 1) with true by (symmetry; apply Rleb_true; lra). cbv zeta. f_equal.
  replace (INR (List.length [0; 1] - 1) * Rmin (Rmax 0.5 0) 1) with 0.5.
  - replace (Int_part 0.5) with 0%Z; [reflexivity |]. unfold Int_part. rewrite <- (tech_up 0.5 1); [reflexivity | lra | lra].
  - cbn [List.length Nat.sub INR]. rewrite Rmax_left by lra. rewrite Rmin_left by lra. lra.
Qed.
Lemma quantile_keeps l q t : 0 <= q <= 1 -> nanquantile l q = Some t ->
  In (Some t) l /\ INR (how_many (fun x => Rltb x t) (somes l)) <= q * (INR (List.length (somes l)) - 1).
Proof.
  intros Q H. apply quantile_spec in H as (A & B & C). split; [exact A |].
  rewrite (Rmax_left q 0), (Rmin_left q 1) in B, C by lra.
  assert (P : (1 <= List.length (somes l))%nat) by lia. set (n := List.length (somes l)) in *.
  assert (E : INR (n - 1) = INR n - 1) by (rewrite minus_INR by exact P; simpl; lra).
  assert (0 <= INR (n - 1)) by apply pos_INR.
  assert (X : 0 <= INR (n - 1) * q <= INR (n - 1)) by (split; [apply Rmult_le_pos; lra |]; rewrite <- (Rmult_1_r (INR (n - 1))) at 2; apply Rmult_le_compat_l; lra).
  destruct (Int_part_range _ _ X) as [_ I]. apply le_INR in B. replace (q * (INR n - 1)) with (INR (n - 1) * q) by (rewrite E; ring). lra.
Qed.

(** The loop. *)
Section Loop.
Context {region : Type} (extract : R * R -> R -> option region) (fit : nat -> region -> estimate -> result ((R * R) * R * R * R)) (tol radius : R).
Lemma loop_asks k i e asks r : fit_loop extract fit tol radius k i e = (asks, r) ->
  (1 <= List.length asks <= S k)%nat /\ forall q, In q asks -> snd q = 2 * e_radius e.
Proof.
  revert i e asks r. induction k as [| k IH]; intros i e asks r; cbn [fit_loop].
  - destruct (extract _ _) as [g |]; [| intros [= <- <-]; split; [simpl; lia | intros q [<- | []]; reflexivity]].
    destruct (fit i g e) as [[[[loc a] b] o] | x]; [| intros [= <- <-]; split; [simpl; lia | intros q [<- | []]; reflexivity]].
    destruct (_ && _); intros [= <- <-]; (split; [simpl; lia | intros q [<- | []]; reflexivity]).
  - destruct (extract _ _) as [g |]; [| intros [= <- <-]; split; [simpl; lia | intros q [<- | []]; reflexivity]].
    destruct (fit i g e) as [[[[loc a] b] o] | x]; [| intros [= <- <-]; split; [simpl; lia | intros q [<- | []]; reflexivity]].
    destruct (_ && _); [intros [= <- <-]; split; [simpl; lia | intros q [<- | []]; reflexivity] |].
    destruct (fit_loop extract fit tol radius k (S i) _) as [asks' r'] eqn:E. intros [= <- <-]. apply IH in E as [L A].
    split; [simpl; lia |]. intros q [<- | H]; [reflexivity |]. now apply A.
Qed.
Lemma loop_result e0 k i e asks res : refined extract fit tol radius e0 i e -> e_radius e = e_radius e0 ->
  fit_loop extract fit tol radius k i e = (asks, Ok res) ->
  exists n e' g, (i <= n <= i + k)%nat /\ List.length asks = S (n - i) /\ refined extract fit tol radius e0 n e' /\
    extract (e_loc e') (2 * e_radius e') = Some g /\ fit n g e' = Ok res /\
    (close tol radius e' (snd (fst (fst res))) (snd (fst res)) \/ n = (i + k)%nat).
Proof.
  revert i e asks res. induction k as [| k IH]; intros i e asks res Rf Er; cbn [fit_loop].
  - destruct (extract _ _) as [g |] eqn:X; [| discriminate]. destruct (fit i g e) as [[[[loc a] b] o] | x] eqn:F; [| discriminate].
    assert (Q : forall asks', ([(e_loc e, 2 * e_radius e)] = asks') -> (asks' = asks) -> (loc, a, b, o) = res -> exists n e' g, (i <= n <= i + 0)%nat /\ List.length asks = S (n - i) /\ refined extract fit tol radius e0 n e' /\
    extract (e_loc e') (2 * e_radius e') = Some g /\ fit n g e' = Ok res /\
    (close tol radius e' (snd (fst (fst res))) (snd (fst res)) \/ n = (i + 0)%nat)).
    { intros asks' <- <- <-. exists i, e, g. split; [lia |]. split; [simpl; lia |]. split; [exact Rf |]. split; [exact X |]. split; [exact F |]. right. lia. }
    destruct (_ && _); intros [= H1 H2]; now apply (Q asks).
  - destruct (extract _ _) as [g |] eqn:X; [| discriminate]. destruct (fit i g e) as [[[[loc a] b] o] | x] eqn:F; [| discriminate].
    destruct (Rltb (Rabs (a - e_major e) / radius) tol && Rltb (Rabs (b - e_minor e) / radius) tol) eqn:E.
    + intros [= <- <-]. exists i, e, g. split; [lia |]. split; [simpl; lia |]. split; [exact Rf |]. split; [exact X |]. split; [exact F |]. left.
      apply andb_true_iff in E as [E1 E2]. apply Rltb_true in E1, E2. split; assumption.
    + destruct (fit_loop extract fit tol radius k (S i) _) as [asks' r'] eqn:L. intros [= <- ->].
      apply IH in L.
      * destruct L as (n & e' & g' & A1 & A2 & A3 & A4 & A5 & A6). exists n, e', g'. split; [lia |].
        split; [cbn [List.length]; rewrite A2; f_equal; lia |]. split; [exact A3 |]. split; [exact A4 |]. split; [exact A5 |].
        destruct A6 as [A6 | A6]; [now left | right; lia].
      * rewrite Er. eapply refined_next; [exact Rf | exact X | exact F |]. intros [C1 C2]. apply Rltb_true in C1, C2. rewrite C1, C2 in E. discriminate.
      * exact Er.
Qed.
Lemma binding_asks nloops e asks r : fit_rim_binding extract fit tol radius nloops e = (asks, r) ->
  (1 <= List.length asks <= Nat.max 1 nloops)%nat /\ forall q, In q asks -> snd q = 2 * e_radius e.
Proof. intros H. apply loop_asks in H as [L A]. split; [lia | exact A]. Qed.
Lemma binding_result nloops e asks res : fit_rim_binding extract fit tol radius nloops e = (asks, Ok res) ->
  exists n e' g, List.length asks = S n /\ refined extract fit tol radius e n e' /\
    extract (e_loc e') (2 * e_radius e') = Some g /\ fit n g e' = Ok res /\
    (close tol radius e' (snd (fst (fst res))) (snd (fst res)) \/ S n = Nat.max 1 nloops).
Proof.
  intros H. apply (loop_result e) in H; [| constructor | reflexivity]. destruct H as (n & e' & g & A & B & C & D & E & F).
  exists n, e', g. split; [lia |]. split; [exact C |]. split; [exact D |]. split; [exact E |]. destruct F as [F | F]; [now left | right; lia].
Qed.
End Loop.

(** The recorded axes. *)
Lemma record_exact norm loc a b o v m : 0 < b <= a -> v_minor v = Some m ->
  exists v', record_fit norm (loc, a, b, o) v = Ok v' /\ v_minor v' = Some b /\ v_loc v' = Some (norm loc) /\ v_orient v' = Some (mod360 (o * 180 / PI)) /\
  v_major v' = Some (if Rlt_dec a m then m else a).
Proof.
  intros [B A] Hm. unfold record_fit, set_major. destruct (Rle_dec a 0); [lra |]. rewrite Hm. destruct (Rlt_dec a m) as [L | L]; cbn [rbind]; unfold set_minor; (destruct (Rle_dec b 0); [lra |]); cbn.
  - destruct (Rgt_dec b m); [lra |]. cbn. eexists. split; [reflexivity |]. repeat split.
  - destruct (Rgt_dec b a); [lra |]. cbn. eexists. split; [reflexivity |]. repeat split.
Qed.
Lemma record_good norm loc a b o v m : 0 < b <= a -> v_minor v = Some m -> m <= a ->
  exists v', record_fit norm (loc, a, b, o) v = Ok v' /\ v_major v' = Some a /\ v_minor v' = Some b /\ v_loc v' = Some (norm loc) /\ v_orient v' = Some (mod360 (o * 180 / PI)).
Proof.
  intros B Hm L. destruct (record_exact norm loc a b o v m B Hm) as (v' & E & A1 & A2 & A3 & A4). exists v'. destruct (Rlt_dec a m); [lra |]. auto.
Qed.
Lemma record_bad norm loc a b o v m : 0 < b <= a -> v_minor v = Some m -> a < m ->
  exists v', record_fit norm (loc, a, b, o) v = Ok v' /\ v_major v' = Some m /\ v_major v' <> Some a /\ v_minor v' = Some b /\ exists r, measured_radius v' = Some r /\ sqrt (a * b) < r.
Proof.
  intros B Hm L. destruct (record_exact norm loc a b o v m B Hm) as (v' & E & A1 & A2 & A3 & A4). exists v'. destruct (Rlt_dec a m); [| lra].
  split; [exact E |]. split; [exact A4 |]. split; [rewrite A4; intros [= X]; lra |]. split; [exact A1 |].
  unfold measured_radius. rewrite A4, A1. eexists. split; [reflexivity |]. apply sqrt_lt_1.
  - apply Rmult_le_pos; lra.
  - apply Rmult_le_pos; lra.
  - apply Rmult_lt_compat_r; lra.
Qed.

(** Cases. *)
Definition cv : var := with_orient (Some 0) (with_loc (Some (0, 0)) (with_axes (Some 100) (Some 100) empty_var)).
Definition shrink : nat -> unit -> estimate -> result ((R * R) * R * R * R) := fun _ _ _ => Ok ((0, 0), 90, 90, 0).
Lemma shrink_case : exists v', fit_rim (fun _ _ => Some tt) shrink (fun p => p) 0.01 100 4 cv = Ok v' /\ v_major v' = Some 100 /\ v_minor v' = Some 90.
Proof.
  assert (B : forall e k i, snd (fit_loop (fun _ _ => Some tt) shrink 0.01 100 k i e) = Ok ((0, 0), 90, 90, 0)).
  { intros e k. revert e. induction k as [| k IH]; intros e i; cbn [fit_loop shrink].
    - destruct (_ && _); reflexivity.
    - destruct (_ && _); [reflexivity |]. specialize (IH (mk_estimate (0, 0) (e_radius e) 90 90 (0 * 180 / PI)) (S i)). destruct (fit_loop _ _ _ _ _ _ _) as [asks r]. exact IH. }
  unfold fit_rim. change (estimate_of cv) with (Some (mk_estimate (0, 0) (sqrt (100 * 100)) 100 100 0)). unfold fit_rim_binding. rewrite B. cbn [rbind].
  destruct (record_exact (fun p => p) (0, 0) 90 90 0 cv 100 ltac:(lra) eq_refl) as (v' & E & A1 & _ & _ & A4). exists v'. split; [exact E |]. rewrite A4, A1. destruct (Rlt_dec 90 100); [| lra]. split; reflexivity.
Qed.
Lemma stale_region : exists asks r, fit_rim_binding (fun _ _ => Some tt) (fun i _ _ => Ok ((0, 0), 100 * INR (2 + i), 100 * INR (2 + i), 0)) 0.01 100 2 (mk_estimate (0, 0) 100 100 100 0) = (asks, Ok r) /\
  asks = [((0, 0), 200); ((0, 0), 200)] /\ snd (fst (fst r)) = 300.
Proof.
  unfold fit_rim_binding. cbn [Nat.sub fit_loop e_loc e_radius e_major e_minor Nat.add].
  assert (E : Rltb (Rabs (100 * INR 2 - 100) / 100) 0.01 = false).
  { apply Rltb_false. simpl. rewrite Rabs_right; lra. }
  rewrite E. cbn [andb]. destruct (_ && _); eexists; eexists; (split; [reflexivity |]; split; [repeat f_equal; lra | simpl; lra]).
Qed.
Definition faces4 : list cface := [mk_cface [7; 3]%N (-2) 0; mk_cface [3]%N (-1) 15; mk_cface [3]%N 4 100; mk_cface [9]%N 50 100].
Lemma picks_case : picks (on_floor 100 3) faces4 [mk_cface [7; 3]%N (-2) 0; mk_cface [3]%N (-1) 15].
Proof.
  unfold faces4. apply picks_yes; [split; simpl; [tauto | lra] |]. apply picks_yes; [split; simpl; [tauto | lra] |].
  apply picks_no; [intros [_ H]; simpl in H; lra |]. apply picks_no; [intros [[H | H] _]; [discriminate | easy] |]. constructor.
Qed.
Lemma picks_case_rim : picks (on_rim 100 3) faces4 [mk_cface [3]%N 4 100].
Proof.
  unfold faces4. apply picks_no; [intros [_ H]; simpl in H; lra |]. apply picks_no; [intros [_ H]; simpl in H; lra |].
  apply picks_yes; [split; simpl; [tauto | lra] |]. apply picks_no; [intros [[H | H] _]; [discriminate | easy] |]. constructor.
Qed.
Definition stale_case : cregion := mk_cregion (Some [[3]%N]) [Some 10] (Some [Some 100]) None.
Lemma stale_rim : let '(g1, v1) := read_rim_height (fun e => e) 100 3 stale_case in
  v1 = Ok 10 /\ snd (read_rim_height (fun e => e) 100 3 (with_elev [Some 2] g1)) = Ok 10 /\
  snd (read_rim_height (fun e => e) 100 3 (with_elev [Some 2] stale_case)) = Ok 2.
Proof.
  assert (A : rim_accept 100 100 = true) by (unfold rim_accept; apply andb_true_iff; split; apply Rleb_true; lra).
  unfold read_rim_height, stale_case, deslope_if_needed, with_elev, with_cache, used_elev, binding_rim_height, rust_rim_height, measure, mask_crater, filter_crater_faces, mean_where. cbn [g_cache g_elev g_ids g_dist map existsb N.eqb Pos.eqb orb List.length Nat.eqb keep_masked Nat.ltb Nat.leb combine filter snd].
  rewrite !A. cbn [rbind]. repeat split; f_equal; simpl; lra.
Qed.
Definition sfaces : list sface := [mk_sface (Some 5) (Some 0.1) (Some (-1)) 0 10 45; mk_sface (Some 1) (Some 0.2) (Some 2) (-5) 5 200; mk_sface (Some 0) None (Some 2) (-5) 5 200].
Lemma sfaces_case : (exists u v, In (Some u) (map s_elev sfaces) /\ In (Some v) (map s_elev sfaces) /\ u < v) /\
  picks (scorable 10 8) sfaces [mk_sface (Some 5) (Some 0.1) (Some (-1)) 0 10 45; mk_sface (Some 1) (Some 0.2) (Some 2) (-5) 5 200].
Proof.
  assert (M : Rmax 10 8 = 10) by (apply Rmax_left; lra). split.
  - exists 1, 5. simpl. split; [tauto |]. split; [tauto | lra].
  - unfold sfaces. apply picks_yes; [repeat split; simpl; try discriminate; rewrite M; lra |]. apply picks_yes; [repeat split; simpl; try discriminate; rewrite M; lra |].
    apply picks_no; [intros (_ & H & _); now apply H |]. constructor.
Qed.

Lemma enough_faces scale ap bp q gm cm hm fs s : 0 < gm -> 0 <= cm -> 0 <= hm ->
  (exists u v, In (Some u) (map s_elev fs) /\ In (Some v) (map s_elev fs) /\ u < v) -> picks (scorable ap bp) fs s ->
  (s <> [] -> In (Some 1) (score_rim scale ap bp q gm cm hm fs)) /\
  exists n, (9 <= n <= 18 /\ Nat.min (3 * n) (List.length s) <= how_many is_num (score_rim scale ap bp q gm cm hm fs))%nat.
Proof.
  intros G C H D P. split.
  - intros N. assert (E : exists f, In f fs /\ scorable ap bp f).
    { clear -N P. induction P as [| f l s F P IH | f l s F P IH]; [easy | exists f; split; [now left | exact F] |]. destruct (IH N) as (x & X & Y). exists x. split; [now right | exact Y]. }
    destruct E as (f & I & S'). exact (score_one scale ap bp q gm cm hm fs G C H D f I S').
  - exists (n_sectors_of (List.length fs)). split; [apply ns_pos |]. now apply score_count.
Qed.
