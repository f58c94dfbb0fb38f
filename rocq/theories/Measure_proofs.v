(** Proofs about rim height, floor depth and degradation (C68, C69). *)
From Coq Require Import Reals NArith Lra.
From Verif Require Import Common RSum Crater_model Measure_model Measure_spec.
Open Scope R_scope.

Lemma Rleb_true a b : Rleb a b = true <-> a <= b.
Proof. unfold Rleb. destruct (Rle_dec a b); split; intros; try easy. Qed.
Lemma Rleb_false a b : Rleb a b = false <-> b < a.
Proof. unfold Rleb. destruct (Rle_dec a b); split; intros; try easy; lra. Qed.
Lemma Rltb_true a b : Rltb a b = true <-> a < b.
Proof. unfold Rltb. destruct (Rlt_dec a b); split; intros; try easy. Qed.
Lemma Rltb_false a b : Rltb a b = false <-> b <= a.
Proof. unfold Rltb. destruct (Rlt_dec a b); split; intros; try easy; lra. Qed.

Lemma mask_true id row : existsb (N.eqb id) row = true <-> In id row.
Proof.
  rewrite existsb_exists. split.
  - intros (x & H & E). apply N.eqb_eq in E. now subst.
  - intros H. exists id. split; [exact H | apply N.eqb_refl].
Qed.

Lemma keep_elev fs id : keep_masked (elev_of fs) (mask_crater (map c_ids fs) id) = map c_elev (filter (fun f => existsb (N.eqb id) (c_ids f)) fs).
Proof. induction fs as [| f fs IH]; simpl; [reflexivity |]. destruct (existsb (N.eqb id) (c_ids f)); simpl; rewrite <- IH; reflexivity. Qed.
Lemma keep_dist fs id : keep_masked (map (fun f => Some (c_dist f)) fs) (mask_crater (map c_ids fs) id) = map c_dist (filter (fun f => existsb (N.eqb id) (c_ids f)) fs).
Proof. induction fs as [| f fs IH]; simpl; [reflexivity |]. destruct (existsb (N.eqb id) (c_ids f)); simpl; rewrite <- IH; reflexivity. Qed.
Lemma combine_maps {A} (f g : A -> R) l : combine (map f l) (map g l) = map (fun x => (f x, g x)) l.
Proof. induction l; simpl; congruence. Qed.
Lemma filter_map_pair {A} (h : R -> bool) (f g : A -> R) l : filter (fun p => h (snd p)) (map (fun x => (f x, g x)) l) = map (fun x => (f x, g x)) (filter (fun x => h (g x)) l).
Proof. induction l as [| x l IH]; simpl; [reflexivity |]. destruct (h (g x)); simpl; congruence. Qed.
Lemma filter_filter' {A} (p q : A -> bool) l : filter q (filter p l) = filter (fun x => p x && q x) l.
Proof. induction l as [| x l IH]; simpl; [reflexivity |]. destruct (p x); simpl; [destruct (q x); congruence | exact IH]. Qed.
Lemma picks_filter {A} (P : A -> Prop) (p : A -> bool) l s : (forall x, p x = true <-> P x) -> picks P l s -> s = filter p l.
Proof.
  intros H. induction 1 as [| x l s Hx _ IH | x l s Hx _ IH]; simpl; [reflexivity | |].
  - apply H in Hx. rewrite Hx. congruence.
  - destruct (p x) eqn:E; [apply H in E; contradiction | exact IH].
Qed.
Lemma filter_picks {A} (P : A -> Prop) (p : A -> bool) l : (forall x, p x = true <-> P x) -> picks P l (filter p l).
Proof.
  intros H. induction l as [| x l IH]; simpl; [constructor |].
  destruct (p x) eqn:E; constructor; trivial; rewrite <- H; [exact E | rewrite E; discriminate].
Qed.

Lemma measure_picks accept fs id s : picks (fun f => In id (c_ids f) /\ accept (c_dist f) = true) fs s ->
  measure accept (ids_of fs) (elev_of fs) (dist_of fs) id =
  Ok (match s with [] => None | _ => Some (lsum c_elev s / INR (List.length s)) end).
Proof.
  intros P. apply (picks_filter _ (fun f => existsb (N.eqb id) (c_ids f) && accept (c_dist f))) in P.
  2:{ intros f. rewrite andb_true_iff, mask_true. tauto. }
  unfold measure, ids_of, dist_of, filter_crater_faces.
  replace (Nat.eqb (List.length (elev_of fs)) (List.length (mask_crater (map c_ids fs) id))) with true
    by (symmetry; apply Nat.eqb_eq; unfold elev_of, mask_crater; now rewrite !map_length).
  replace (Nat.eqb (List.length (map (fun f => Some (c_dist f)) fs)) (List.length (mask_crater (map c_ids fs) id))) with true
    by (symmetry; apply Nat.eqb_eq; unfold mask_crater; now rewrite !map_length).
  rewrite keep_elev, keep_dist. unfold mean_where. rewrite !map_length, Nat.ltb_irrefl, combine_maps, filter_map_pair, filter_filter', <- P.
  destruct s as [| f s]; [reflexivity |]. cbn [map]. rewrite <- (map_cons (fun x => (c_elev x, c_dist x)) f s).
  f_equal. f_equal. rewrite map_length. f_equal.
  clear. induction (f :: s) as [| x l IH]; [reflexivity |]. cbn [map]. rewrite !lsum_cons, IH. reflexivity.
Qed.

Lemma lsum_map {A} (f : A -> R) l : lsum (fun x => x) (map f l) = lsum f l.
Proof. induction l as [| x l IH]; [reflexivity |]. cbn [map]. rewrite !lsum_cons, IH. reflexivity. Qed.
Lemma measure_mean accept fs id s : picks (fun f => In id (c_ids f) /\ accept (c_dist f) = true) fs s ->
  (s = [] -> measure accept (ids_of fs) (elev_of fs) (dist_of fs) id = Ok None) /\
  (s <> [] -> exists m, measure accept (ids_of fs) (elev_of fs) (dist_of fs) id = Ok (Some m) /\ is_mean (map c_elev s) m).
Proof.
  intros P. rewrite (measure_picks accept fs id s P). split.
  - intros ->. reflexivity.
  - destruct s as [| f s]; [easy |]. intros _. exists (lsum c_elev (f :: s) / INR (List.length (f :: s))). split; [reflexivity |]. split.
    + discriminate.
    + rewrite map_length, lsum_map. field. apply not_0_INR. simpl. lia.
Qed.
Lemma picks_ext {A} (P Q : A -> Prop) l s : (forall x, P x <-> Q x) -> picks P l s -> picks Q l s.
Proof. intros H. induction 1; constructor; trivial; rewrite <- H; assumption. Qed.

Lemma floor_mean r fs id s : picks (on_floor r id) fs s ->
  (s = [] -> rust_floor_depth r (ids_of fs) (elev_of fs) (dist_of fs) id = Ok None) /\
  (s <> [] -> exists m, rust_floor_depth r (ids_of fs) (elev_of fs) (dist_of fs) id = Ok (Some m) /\ is_mean (map c_elev s) m).
Proof.
  intros P. apply (measure_mean (floor_accept r)). revert P. apply picks_ext.
  intros f. unfold on_floor, floor_accept. now rewrite Rleb_true.
Qed.
Lemma rim_mean r fs id s : picks (on_rim r id) fs s ->
  (s = [] -> rust_rim_height r (ids_of fs) (elev_of fs) (dist_of fs) id = Ok None) /\
  (s <> [] -> exists m, rust_rim_height r (ids_of fs) (elev_of fs) (dist_of fs) id = Ok (Some m) /\ is_mean (map c_elev s) m).
Proof.
  intros P. apply (measure_mean (rim_accept r)). revert P. apply picks_ext.
  intros f. unfold on_rim, rim_accept. rewrite andb_true_iff, !Rleb_true. split; intros (A & B & C); repeat split; trivial; lra.
Qed.

(** Raising everything. *)
Lemma raised_measure accept h fs id v :
  measure accept (ids_of fs) (elev_of fs) (dist_of fs) id = Ok (Some v) ->
  measure accept (ids_of (map (raised h) fs)) (elev_of (map (raised h) fs)) (dist_of (map (raised h) fs)) id = Ok (Some (v + h)).
Proof.
  set (p := fun f => existsb (N.eqb id) (c_ids f) && accept (c_dist f)).
  assert (D : forall f, p f = true <-> In id (c_ids f) /\ accept (c_dist f) = true) by (intros f; unfold p; rewrite andb_true_iff, mask_true; tauto).
  pose proof (filter_picks _ p fs D) as P1. pose proof (filter_picks _ p (map (raised h) fs) D) as P2.
  rewrite (measure_picks accept _ id _ P1), (measure_picks accept _ id _ P2).
  assert (E : filter p (map (raised h) fs) = map (raised h) (filter p fs)).
  { clear. induction fs as [| f fs IH]; [reflexivity |]. cbn [map filter]. change (p (raised h f)) with (p f). destruct (p f); cbn [map]; congruence. }
  rewrite E. destruct (filter p fs) as [| f s]; [discriminate |]. intros [= <-]. cbn [map]. do 2 f_equal.
  rewrite <- (map_cons (raised h) f s), map_length.
  assert (L : lsum c_elev (map (raised h) (f :: s)) = lsum c_elev (f :: s) + h * INR (List.length (f :: s))).
  { generalize (f :: s). clear. induction l as [| x l IH]; [simpl; lra |]. cbn [map]. rewrite !lsum_cons, IH. cbn [List.length]. rewrite S_INR. cbn [c_elev raised]. lra. }
  rewrite L. change (c_elev f + lsum c_elev s) with (lsum c_elev (f :: s)).
  change (match List.length s with 0%nat => 1 | S _ => INR (List.length s) + 1 end) with (INR (List.length (f :: s))). field. apply not_0_INR. simpl. lia.
Qed.
Lemma raised_both r h fs id fl rim :
  rust_floor_depth r (ids_of fs) (elev_of fs) (dist_of fs) id = Ok (Some fl) ->
  rust_rim_height r (ids_of fs) (elev_of fs) (dist_of fs) id = Ok (Some rim) ->
  rust_floor_depth r (ids_of (map (raised h) fs)) (elev_of (map (raised h) fs)) (dist_of (map (raised h) fs)) id = Ok (Some (fl + h)) /\
  rust_rim_height r (ids_of (map (raised h) fs)) (elev_of (map (raised h) fs)) (dist_of (map (raised h) fs)) id = Ok (Some (rim + h)).
Proof. intros A B. split; apply raised_measure; assumption. Qed.

(** NaN elevations. *)
Lemma misaligned r h : 0 < r ->
  rust_floor_depth r (Some [[1%N]; [1%N]]) [None; Some h] (Some [Some 0; Some r]) 1%N = Ok (Some h).
Proof.
  intros P. unfold rust_floor_depth, measure, filter_crater_faces, mean_where, floor_accept. simpl.
  replace (Rleb 0 (0.2 * r)) with true by (symmetry; apply Rleb_true; lra). simpl. do 2 f_equal. lra.
Qed.

(** Stale elevations. *)
Lemma rim_stale deslope r id g e : 
  let '(g1, v1) := read_rim_height deslope r id g in
  snd (read_rim_height deslope r id (with_elev e g1)) = v1.
Proof. unfold read_rim_height, deslope_if_needed, with_elev, with_cache, used_elev. destruct (g_cache g) eqn:E; cbn; rewrite ?E; reflexivity. Qed.
Lemma depth_fresh deslope r id g c : snd (read_depth_to_diameter deslope r id (with_cache c g)) = snd (read_depth_to_diameter deslope r id g).
Proof. reflexivity. Qed.
Lemma depth_value deslope r id g fl rim :
  binding_floor_depth r (g_ids g) (deslope (g_elev g)) (g_dist g) id = Ok fl ->
  binding_rim_height r (g_ids g) (deslope (g_elev g)) (g_dist g) id = Ok rim ->
  snd (read_depth_to_diameter deslope r id g) = Ok ((rim - fl) / (2 * r)).
Proof.
  intros A B. unfold read_depth_to_diameter, read_floor_depth, read_rim_height, deslope_if_needed, with_cache, used_elev. cbn.
  rewrite A, B. cbn. do 2 f_equal. lra.
Qed.

(** Degradation. *)
Lemma exp_big : 10000 < exp 10.
Proof.
  assert (H : exp 10 = exp (/ 10) ^ 100).
  { rewrite <- Rpower_pow by apply exp_pos. unfold Rpower. rewrite ln_exp. f_equal. rewrite INR_IZR_INZ. simpl Z.of_nat. lra. }
  assert (A : 1.1 < exp (/ 10)) by (pose proof (exp_ineq1 (/ 10) ltac:(lra)); lra).
  assert (B : forall x y n, 0 < x < y -> x ^ S n < y ^ S n).
  { intros x y n L. induction n as [| n IH]; [simpl; lra |].
    change (x * x ^ S n < y * y ^ S n). pose proof (pow_lt x (S n) ltac:(lra)). apply Rmult_gt_0_lt_compat; lra. }
  rewrite H. eapply Rlt_trans; [| apply (B 1.1 _ 99%nat); lra].
  assert (C : 2.55 < 1.1 ^ 10) by lra. assert (D : 1.1 ^ 100 = (1.1 ^ 10) ^ 10) by (rewrite <- pow_mult; reflexivity).
  rewrite D. eapply Rlt_trans; [| apply (B 2.55 _ 9%nat); lra]. lra.
Qed.
Lemma ln_DTR : 0 < ln DTR < 10.
Proof.
  unfold DTR. replace 10.0e3 with 10000 by lra. split; [rewrite <- ln_1; apply ln_increasing; lra |].
  rewrite <- (ln_exp 10). apply ln_increasing; [lra | exact exp_big].
Qed.
Lemma ln_mono x y : 0 < x -> x <= y -> ln x <= ln y.
Proof. intros P [L | ->]; [left; now apply ln_increasing | lra]. Qed.
Lemma a_range d : 1 <= d -> 0.11 < a_vs_diameter d < 0.39.
Proof.
  intros H. unfold a_vs_diameter. destruct (Rlt_dec d DTR) as [L | G].
  - assert (0 <= ln d < 10).
    { split; [rewrite <- ln_1; apply ln_mono; lra |]. eapply Rle_lt_trans; [apply ln_mono; [lra | left; exact L] |]. apply ln_DTR. }
    lra.
  - assert (0 < exp ((DTR * 1e-3 - d * 1e-3) / 178.40182304735092) <= 1).
    { assert (E : (DTR * 1e-3 - d * 1e-3) / 178.40182304735092 <= 0) by lra. revert E. generalize ((DTR * 1e-3 - d * 1e-3) / 178.40182304735092).
      intros u [E | ->]; split; try apply exp_pos; [left; rewrite <- exp_0; now apply exp_increasing | rewrite exp_0; lra]. }
    lra.
Qed.
Lemma p_range d : 1 <= d -> 2 < p_vs_diameter d < 3.
Proof.
  intros H. unfold p_vs_diameter. pose proof ln_DTR as [A B]. destruct (Rlt_dec DTR d) as [L | G]; [lra |].
  assert (0 <= ln d <= ln DTR) by (split; [rewrite <- ln_1; apply ln_mono; lra | apply ln_mono; lra]). lra.
Qed.
Lemma VSMALL_range : 0 < VSMALL < 1 / 64.
Proof.
  unfold VSMALL. assert (P : 0 < 2 ^ 1022) by (apply pow_lt; lra). split; [apply Rmult_lt_0_compat; [lra | now apply Rinv_0_lt_compat] |].
  assert (L : 2 ^ 10 <= 2 ^ 1022) by (apply Rle_pow; [lra | lia]).
  assert (I : / 2 ^ 1022 <= / 2 ^ 10) by (apply Rinv_le_contravar; [apply pow_lt; lra | exact L]). lra.
Qed.

(** x^(-1/p) - 1 >= k iff x <= (1 + k)^(-p) *)
Lemma root_iff x k p : 0 < x -> 0 < p -> 0 <= k -> (k <= Rpower x (-1 / p) - 1 <-> x <= Rpower (1 + k) (- p)).
Proof.
  intros X P K.
  assert (E1 : forall y, Rpower (Rpower y (-1 / p)) (- p) = Rpower y 1) by (intros y; rewrite Rpower_mult; f_equal; field; lra).
  assert (E2 : Rpower (Rpower (1 + k) (- p)) (-1 / p) = 1 + k) by (rewrite Rpower_mult; replace (- p * (-1 / p)) with 1 by (field; lra); apply Rpower_1; lra).
  assert (Neg : forall u v q, 0 < u -> u <= v -> 0 < q -> Rpower v (- q) <= Rpower u (- q)).
  { intros u v q U L Q. rewrite !Rpower_Ropp. apply Rinv_le_contravar; [apply exp_pos |]. apply Rle_Rpower_l; lra. }
  assert (Q : -1 / p = - (1 / p)) by (field; lra). assert (IP : 0 < 1 / p) by (apply Rdiv_lt_0_compat; lra).
  split; intros H.
  - assert (L : 1 + k <= Rpower x (-1 / p)) by lra. apply (Neg _ _ p) in L; [| lra | exact P].
    rewrite E1 in L. rewrite (Rpower_1 x X) in L. exact L.
  - apply (Neg _ _ (1 / p)) in H; [| exact X | exact IP]. rewrite <- Q, E2 in H. lra.
Qed.
Definition threshold (r Kv1 : R) : R := Rpower (1 + Kv1 / a_vs_diameter (r * 2)) (- p_vs_diameter (r * 2)).
Lemma worn_clipped depth orig r Kv1 : 1 / 2 <= r -> 0 <= Kv1 -> orig <> 0 ->
  (worn (Some depth) orig r Kv1 2 = Ok true <-> (if Rlt_dec (depth / orig) VSMALL then VSMALL else depth / orig) <= threshold r Kv1).
Proof.
  intros Hr HK Ho. unfold worn, degradation_state. destruct (Req_EM_T orig 0); [contradiction |]. cbn [rbind].
  pose proof (a_range (r * 2) ltac:(lra)) as A. pose proof (p_range (r * 2) ltac:(lra)) as P.
  set (x := if Rlt_dec (depth / orig) VSMALL then VSMALL else depth / orig).
  assert (X : 0 < x) by (pose proof VSMALL_range; unfold x; destruct (Rlt_dec (depth / orig) VSMALL); lra).
  unfold threshold. rewrite <- root_iff; [| exact X | lra | apply Rmult_le_pos; [lra | left; apply Rinv_0_lt_compat; lra]].
  unfold visibility. replace (Rpower r 2) with (r ^ 2) by (rewrite <- Rpower_pow by lra; f_equal; simpl; lra).
  assert (R2 : 0 < r ^ 2) by (apply pow_lt; lra). set (u := Rpower x (-1 / p_vs_diameter (r * 2)) - 1). set (a := a_vs_diameter (r * 2)) in *.
  split.
  - intros [= H]. apply Rleb_true in H. apply Rmult_le_reg_r in H; [| exact R2].
    apply (Rmult_le_reg_r a); [lra |]. replace (Kv1 / a * a) with Kv1 by (field; lra). lra.
  - intros H. f_equal. apply Rleb_true. apply Rmult_le_compat_r; [lra |].
    apply (Rmult_le_compat_r a) in H; [| lra]. replace (Kv1 / a * a) with Kv1 in H by (field; lra). lra.
Qed.
Lemma threshold_range r : 1 / 2 <= r -> 1 / 64 <= threshold r 0.3 < 1.
Proof.
  intros Hr. unfold threshold. pose proof (a_range (r * 2) ltac:(lra)) as A. pose proof (p_range (r * 2) ltac:(lra)) as P.
  set (a := a_vs_diameter (r * 2)) in *. set (p := p_vs_diameter (r * 2)) in *.
  assert (I : / 0.39 < / a < / 0.11) by (split; apply Rinv_lt_contravar; try apply Rmult_lt_0_compat; lra).
  assert (X : 1 < 1 + 0.3 / a < 4) by (unfold Rdiv; lra). set (x := 1 + 0.3 / a) in *.
  rewrite Rpower_Ropp. split.
  - replace (1 / 64) with (/ 64) by lra. apply Rinv_le_contravar; [apply exp_pos |].
    apply Rle_trans with (Rpower 4 p); [apply Rle_Rpower_l; lra |].
    apply Rle_trans with (Rpower 4 3); [apply Rle_Rpower; lra |].
    replace 3 with (INR 3) by (simpl; lra). rewrite Rpower_pow by lra. lra.
  - rewrite <- Rinv_1. apply Rinv_lt_contravar; [rewrite Rmult_1_l; apply exp_pos |].
    unfold Rpower. rewrite <- exp_0. apply exp_increasing. apply Rmult_lt_0_compat; [lra |]. rewrite <- ln_1. apply ln_increasing; lra.
Qed.
Lemma worn_default r : 1 / 2 <= r -> exists t, 1 / 64 <= t < 1 /\
  forall depth orig, 0 < orig -> (worn (Some depth) orig r 0.3 2 = Ok true <-> depth <= t * orig) /\ (worn (Some depth) orig r 0.3 2 = Ok false <-> t * orig < depth).
Proof.
  intros Hr. exists (threshold r 0.3). pose proof (threshold_range r Hr) as T. split; [exact T |].
  intros depth orig Ho. 
  assert (W : worn (Some depth) orig r 0.3 2 = Ok true <-> depth <= threshold r 0.3 * orig).
  { rewrite worn_clipped by lra. pose proof VSMALL_range as V.
    assert (E : depth = depth / orig * orig) by (field; lra).
    assert (EQ : depth <= threshold r 0.3 * orig <-> depth / orig <= threshold r 0.3).
    { rewrite E at 1. split; intros H; [now apply Rmult_le_reg_r in H | apply Rmult_le_compat_r; lra]. }
    rewrite EQ. destruct (Rlt_dec (depth / orig) VSMALL); split; intros; lra. }
  split; [exact W |].
  assert (B : exists b, worn (Some depth) orig r 0.3 2 = Ok b).
  { unfold worn, degradation_state. destruct (Req_EM_T orig 0); [lra |]. eexists. reflexivity. }
  destruct B as [b B]. rewrite B in *. destruct b; split; intros H; try discriminate; [| | reflexivity].
  - assert (depth <= threshold r 0.3 * orig) by (apply W; reflexivity). lra.
  - destruct (Rlt_dec (threshold r 0.3 * orig) depth) as [L | L]; [exact L |]. assert (D : depth <= threshold r 0.3 * orig) by lra. apply W in D. discriminate.
Qed.
Lemma worn_bool depth orig r Kv1 gamma : orig <> 0 -> exists b, worn (Some depth) orig r Kv1 gamma = Ok b.
Proof. intros H. unfold worn, degradation_state. destruct (Req_EM_T orig 0); [contradiction |]. eexists. reflexivity. Qed.

Lemma power_anti x y q : 0 < x -> x < y -> 0 < q -> Rpower y (- q) < Rpower x (- q).
Proof.
  intros X L Q. rewrite !Rpower_Ropp. apply Rinv_lt_contravar; [apply Rmult_lt_0_compat; apply exp_pos |].
  apply exp_increasing. apply Rmult_lt_compat_l; [exact Q |]. now apply ln_increasing.
Qed.
Lemma degradation_decreases orig r d1 d2 : 1 / 2 <= r -> 0 < orig -> d1 <= d2 ->
  exists k1 k2, degradation_state (Some d1) orig r = Ok k1 /\ degradation_state (Some d2) orig r = Ok k2 /\ k2 <= k1 /\
  (VSMALL * orig < d2 -> d1 < d2 -> k2 < k1).
Proof.
  intros Hr Ho L. unfold degradation_state. destruct (Req_EM_T orig 0) as [E | _]; [lra |].
  pose proof (a_range (r * 2) ltac:(lra)) as A. pose proof (p_range (r * 2) ltac:(lra)) as P. pose proof VSMALL_range as V.
  set (a := a_vs_diameter (r * 2)) in *. set (p := p_vs_diameter (r * 2)) in *.
  set (x1 := if Rlt_dec (d1 / orig) VSMALL then VSMALL else d1 / orig). set (x2 := if Rlt_dec (d2 / orig) VSMALL then VSMALL else d2 / orig).
  assert (Q : -1 / p = - (1 / p)) by (field; lra). assert (IP : 0 < 1 / p) by (apply Rdiv_lt_0_compat; lra).
  assert (R2 : 0 < r ^ 2) by (apply pow_lt; lra). assert (AR : 0 < a * r ^ 2) by (apply Rmult_lt_0_compat; lra).
  assert (L1 : d1 / orig <= d2 / orig) by (apply Rmult_le_compat_r; [left; now apply Rinv_0_lt_compat | exact L]).
  assert (X1 : 0 < x1) by (unfold x1; destruct (Rlt_dec (d1 / orig) VSMALL); lra).
  assert (strict : x1 < x2 -> a * (Rpower x2 (-1 / p) - 1) * r ^ 2 < a * (Rpower x1 (-1 / p) - 1) * r ^ 2).
  { intros S'. rewrite Q. pose proof (power_anti x1 x2 (1 / p) X1 S' IP) as H.
    replace (a * (Rpower x2 (- (1 / p)) - 1) * r ^ 2) with (a * r ^ 2 * (Rpower x2 (- (1 / p)) - 1)) by ring.
    replace (a * (Rpower x1 (- (1 / p)) - 1) * r ^ 2) with (a * r ^ 2 * (Rpower x1 (- (1 / p)) - 1)) by ring.
    apply Rmult_lt_compat_l; lra. }
  eexists. eexists. split; [reflexivity |]. split; [reflexivity |]. split.
  - assert (C : x1 < x2 \/ x1 = x2) by (unfold x1, x2; destruct (Rlt_dec (d1 / orig) VSMALL), (Rlt_dec (d2 / orig) VSMALL); lra).
    destruct C as [C | C]; [left; apply strict; exact C | fold x1 x2; rewrite C; lra].
  - intros G S'. apply strict. assert (L2 : d1 / orig < d2 / orig) by (apply Rmult_lt_compat_r; [now apply Rinv_0_lt_compat | exact S']).
    assert (G2 : VSMALL < d2 / orig) by (apply (Rmult_lt_reg_r orig); [exact Ho |]; replace (d2 / orig * orig) with d2 by (field; lra); exact G).
    unfold x1, x2. destruct (Rlt_dec (d1 / orig) VSMALL), (Rlt_dec (d2 / orig) VSMALL); lra.
Qed.
Lemma pristine orig r : 1 / 2 <= r -> 0 < orig -> degradation_state (Some orig) orig r = Ok 0.
Proof.
  intros Hr Ho. unfold degradation_state. destruct (Req_EM_T orig 0) as [E | _]; [lra |]. pose proof VSMALL_range as V.
  replace (orig / orig) with 1 by (field; lra). destruct (Rlt_dec 1 VSMALL) as [H | _]; [lra |].
  unfold Rpower. rewrite ln_1, Rmult_0_r, exp_0. f_equal. ring.
Qed.

(** Unresolved craters. *)
Lemma keep_in e arr mask : In e (keep_masked arr mask) -> In (Some e) arr.
Proof.
  revert mask. induction arr as [| [x |] arr IH]; intros [| [|] mask]; simpl; try easy.
  - intros [-> | H]; [now left | right; now apply (IH mask)].
  - intros H. right. now apply (IH mask).
  - intros H. right. now apply (IH mask).
  - intros H. right. now apply (IH mask).
Qed.
Lemma mean_bounded l m : (forall p, In p l -> - m < fst p < m) -> l <> [] -> - m < @lsum (R * R) fst l / INR (List.length l) < m.
Proof.
  intros B N. assert (P : 0 < INR (List.length l)) by (apply lt_0_INR; destruct l; [easy | simpl; lia]).
  assert (S' : - m * INR (List.length l) < lsum fst l < m * INR (List.length l)).
  { clear P. induction l as [| x l IH]; [easy |]. pose proof (B x (or_introl eq_refl)) as X. cbn [List.length]. rewrite S_INR, lsum_cons.
    destruct l as [| y l]; [simpl; lra |].
    assert (H : - m * INR (List.length (y :: l)) < lsum fst (y :: l) < m * INR (List.length (y :: l))) by (apply IH; [intros q Hq; apply B; now right | discriminate]). lra. }
  split; apply (Rmult_lt_reg_r (INR (List.length l))); try exact P; replace (lsum fst l / INR (List.length l) * INR (List.length l)) with (@lsum (R * R) fst l) by (field; lra); lra.
Qed.
Lemma measure_bounded accept ids elev dist id v M : (forall e, In (Some e) elev -> - M < e < M) ->
  measure accept ids elev dist id = Ok (Some v) -> - M < v < M.
Proof.
  intros B. unfold measure, filter_crater_faces. destruct ids as [ids |]; [| discriminate].
  destruct (Nat.eqb (List.length elev) _); [| discriminate]. destruct dist as [dist |]; [| discriminate].
  destruct (Nat.eqb (List.length dist) _); [| discriminate]. unfold mean_where. destruct (Nat.ltb _ _); [discriminate |].
  set (l := filter _ _). assert (H : forall p, In p l -> - M < fst p < M).
  { intros [e d] Hp. unfold l in Hp. apply filter_In in Hp as [Hp _]. apply in_combine_l in Hp. apply keep_in in Hp. now apply B. }
  destruct l as [| p l'] eqn:E; [discriminate |]. intros [= <-]. apply (mean_bounded (p :: l')); [exact H | discriminate].
Qed.
Lemma unresolved deslope r id g depth orig : 1 / 2 <= r -> 0 < orig ->
  (forall e, In (Some e) (deslope (g_elev g)) -> - f64_max < e < f64_max) ->
  rust_floor_depth r (g_ids g) (deslope (g_elev g)) (g_dist g) id = Ok None \/ rust_rim_height r (g_ids g) (deslope (g_elev g)) (g_dist g) id = Ok None ->
  snd (read_depth_to_diameter deslope r id g) = Ok depth ->
  depth < 0 /\ worn (Some depth) orig r 0.3 2 = Ok true.
Proof.
  intros Hr Ho B U D.
  assert (M : 0 < f64_max).
  { unfold f64_max. assert (2 ^ 971 < 2 ^ 1024) by (apply Rlt_pow; [lra | lia]). lra. }
  assert (N : depth < 0).
  { unfold read_depth_to_diameter, read_floor_depth, read_rim_height, deslope_if_needed, with_cache, used_elev, binding_floor_depth, binding_rim_height in D. cbn in D.
    destruct (rust_floor_depth r (g_ids g) (deslope (g_elev g)) (g_dist g) id) as [o1 | x] eqn:E1; [| discriminate]. cbn in D.
    destruct (rust_rim_height r (g_ids g) (deslope (g_elev g)) (g_dist g) id) as [o2 | x] eqn:E2; [| discriminate]. cbn in D.
    assert (I : 0 < / (r * 2)) by (apply Rinv_0_lt_compat; lra).
    injection D as <-. unfold Rdiv. rewrite <- (Rmult_0_l (/ (r * 2))). apply Rmult_lt_compat_r; [exact I |].
    destruct o1 as [v1 |], o2 as [v2 |].
    - destruct U as [U | U]; [injection U; discriminate | injection U; discriminate].
    - pose proof (measure_bounded _ _ _ _ _ v1 f64_max B E1). lra.
    - pose proof (measure_bounded _ _ _ _ _ v2 f64_max B E2). lra.
    - lra. }
  split; [exact N |]. destruct (worn_default r Hr) as (t & T & W). apply W; [exact Ho |]. assert (0 < t * orig) by (apply Rmult_lt_0_compat; lra). lra.
Qed.
