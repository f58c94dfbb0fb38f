(** Proofs about Size_model. *)
From Coq Require Import Reals ZArith List Lra Lia Bool Arith.
From Verif Require Import Common Trig_model Geo_spec Geo_proofs Outline_model Outline_spec Place_model Place_spec Place_proofs Size_model Size_spec.
Import ListNotations.
Open Scope R_scope.

(** A question changes no later answer. *)
Ltac simp := unfold with_sizes; cbn [ask with_sizes k_sizes k_area k_smallest k_coord k_across k_lengths radius mesh fst snd].
Ltac cases := repeat (simp; try reflexivity; match goal with |- context [match ?x with _ => _ end] => lazymatch x with context [match _ with _ => _ end] => fail | _ => destruct x eqn:? end end).
Lemma stable s p q : answers (snd (ask s p)) q = answers s q.
Proof.
  destruct s as [r g z ka ks kc kx kl]. unfold answers.
  destruct p; simp.
  1-6: destruct z; destruct q; cases.
  - destruct ka; [reflexivity |]. destruct z; destruct q; cases.
  - destruct ks; [reflexivity |]. destruct z; destruct q; cases.
  - destruct (kc face axis) as [l |] eqn:E; [reflexivity |]. destruct z; destruct q; simp; try solve [cases].
    all: destruct (Bool.eqb face0 face && Nat.eqb axis0 axis)%bool eqn:X; [| cases].
    all: apply andb_prop in X as [A B]; apply eqb_prop in A; apply Nat.eqb_eq in B; subst; rewrite E; reflexivity.
  - destruct kx; [reflexivity |]. destruct (edge_distances (g_faces g) r (g_edge_faces g)) eqn:E; [| reflexivity]. destruct z; destruct q; simp; rewrite ?E; cases.
  - destruct kl; [reflexivity |]. destruct (edge_distances (g_nodes g) r (g_edge_nodes g)) eqn:E; [| reflexivity]. destruct z; destruct q; simp; rewrite ?E; cases.
Qed.
Lemma stable_after qs : forall s q, answers (after qs s) q = answers s q.
Proof. induction qs as [| p qs IH]; intros s q; [reflexivity |]. cbn [after]. rewrite IH. apply stable. Qed.

(** What has been kept after some questions. *)
Definition good_edges (places : list (R * R)) (es : list (Z * Z)) : Prop :=
  Forall (fun e => valid_end (List.length places) (fst e) /\ valid_end (List.length places) (snd e)) es.
Lemma edges_ok places r es : good_edges places es -> exists l, edge_distances places r es = Ok l /\ Forall2 (spans r places) es l.
Proof.
  induction 1 as [| e es [A B] F (l & E & IH)]; [exists []; split; [reflexivity | constructor] |].
  assert (exists d, edge_distance places r e = Ok d /\ spans r places e d) as (d & D & S).
  { unfold edge_distance. destruct (Z.ltb_spec (fst e) 0) as [N | N]; cbn [orb]; [exists 0; split; [reflexivity | right; auto] |].
    destruct (Z.ltb_spec (snd e) 0) as [M | M]; [exists 0; split; [reflexivity | right; auto] |]. unfold valid_end in *.
    destruct (nth_error places (Z.to_nat (fst e))) as [p |] eqn:P; [| apply nth_error_None in P; lia].
    destruct (nth_error places (Z.to_nat (snd e))) as [q |] eqn:Q; [| apply nth_error_None in Q; lia].
    eexists. split; [reflexivity |]. left. exists p, q. repeat split; auto. rewrite distance_angle. reflexivity. }
  exists (d :: l). cbn [edge_distances]. rewrite D, E. split; [reflexivity | constructor; assumption].
Qed.
Definition when {A} (b : bool) (x : A) : option A := if b then Some x else None.
Definition asked (q : query) (qs : list query) : bool := existsb (same_question q) qs.
Section Kept.
Variables (r : R) (g : grid) (across lengths : list R).
Hypothesis HX : edge_distances (g_faces g) r (g_edge_faces g) = Ok across.
Hypothesis HL : edge_distances (g_nodes g) r (g_edge_nodes g) = Ok lengths.
Definition kept (qs : list query) (s : surface) : Prop :=
  radius s = r /\ mesh s = g /\
  k_sizes s = when (existsb is_size qs) (compute_face_size r g) /\
  k_area s = when (asked Area qs) (sum (z_areas (compute_face_size r g))) /\
  k_smallest s = when (asked Smallest qs) (least (z_sizes (compute_face_size r g)) * (1 / 100000)) /\
  (forall f i, k_coord s f i = when (asked (Coord f i) qs) (map (fun x => x * r) (g_unit g f i))) /\
  k_across s = when (asked EdgeFaceDistance qs) across /\
  k_lengths s = when (asked EdgeLength qs) lengths.
Lemma kept_ask qs s q : kept qs s -> kept (qs ++ [q]) (snd (ask s q)).
Proof.
  unfold kept, asked. intros (E1 & E2 & E3 & E4 & E5 & E6 & E7 & E8). rewrite !existsb_app. cbn [existsb]. rewrite !orb_false_r.
  destruct s as [r' g' z ka ks kc kx kl]. cbn [radius mesh k_sizes k_area k_smallest k_coord k_across k_lengths] in *. subst r' g'.
  assert (K : forall x y, (existsb (same_question (Coord x y)) (qs ++ [q])) = (existsb (same_question (Coord x y)) qs || same_question (Coord x y) q)%bool)
    by (intros; rewrite existsb_app; cbn [existsb]; rewrite orb_false_r; reflexivity).
  assert (W : fst (with_sizes (mk_surface r g z ka ks kc kx kl)) = compute_face_size r g) by (unfold with_sizes; cbn; rewrite E3; destruct (existsb is_size qs); reflexivity).
  destruct q; cbn [is_size same_question]; rewrite ?orb_true_r, ?orb_false_r; cbn [ask with_sizes k_sizes k_area k_smallest k_coord k_across k_lengths radius mesh].
  1-6: destruct z as [z |]; cbn [snd radius mesh k_sizes k_area k_smallest k_coord k_across k_lengths]; unfold when in E3;
    destruct (existsb is_size qs); try discriminate; try injection E3 as ->; repeat split; auto; intros; rewrite K; cbn [same_question]; rewrite orb_false_r; apply E6.
  - unfold when in *. destruct (existsb (same_question Area) qs) eqn:A; subst ka; cbn [snd radius mesh k_sizes k_area k_smallest k_coord k_across k_lengths].
    + assert (existsb is_size qs = true) as Z by (apply existsb_exists in A as (p & I & P); apply existsb_exists; exists p; split; [exact I | destruct p; try discriminate; reflexivity]).
      rewrite Z in E3. repeat split; auto. intros; rewrite K; cbn [same_question]; rewrite orb_false_r; apply E6.
    + destruct z as [z |]; cbn [snd radius mesh k_sizes k_area k_smallest k_coord k_across k_lengths]; destruct (existsb is_size qs); try discriminate; try injection E3 as ->;
        repeat split; auto; intros; rewrite K; cbn [same_question]; rewrite orb_false_r; apply E6.
  - unfold when in *. destruct (existsb (same_question Smallest) qs) eqn:A; subst ks; cbn [snd radius mesh k_sizes k_area k_smallest k_coord k_across k_lengths].
    + assert (existsb is_size qs = true) as Z by (apply existsb_exists in A as (p & I & P); apply existsb_exists; exists p; split; [exact I | destruct p; try discriminate; reflexivity]).
      rewrite Z in E3. repeat split; auto. intros; rewrite K; cbn [same_question]; rewrite orb_false_r; apply E6.
    + destruct z as [z |]; cbn [snd radius mesh k_sizes k_area k_smallest k_coord k_across k_lengths]; destruct (existsb is_size qs); try discriminate; try injection E3 as ->;
        repeat split; auto; intros; rewrite K; cbn [same_question]; rewrite orb_false_r; apply E6.
  - pose proof (E6 face axis) as E. unfold when in E. destruct (existsb (same_question (Coord face axis)) qs) eqn:A; rewrite E; cbn [snd radius mesh k_sizes k_area k_smallest k_coord k_across k_lengths];
      repeat split; auto; intros f i; rewrite K; cbn [same_question]; rewrite E6; destruct (Bool.eqb f face && Nat.eqb i axis)%bool eqn:X; rewrite ?orb_false_r, ?orb_true_r; try reflexivity;
      apply andb_prop in X as [X1 X2]; apply eqb_prop in X1; apply Nat.eqb_eq in X2; subst; [rewrite A; reflexivity | reflexivity].
  - unfold when in *. destruct (existsb (same_question EdgeFaceDistance) qs) eqn:A; subst kx; [| rewrite HX]; cbn [snd radius mesh k_sizes k_area k_smallest k_coord k_across k_lengths];
      repeat split; auto; intros; rewrite K; cbn [same_question]; rewrite orb_false_r; apply E6.
  - unfold when in *. destruct (existsb (same_question EdgeLength) qs) eqn:A; subst kl; [| rewrite HL]; cbn [snd radius mesh k_sizes k_area k_smallest k_coord k_across k_lengths];
      repeat split; auto; intros; rewrite K; cbn [same_question]; rewrite orb_false_r; apply E6.
Qed.
Lemma kept_after qs : forall ps s, kept ps s -> kept (ps ++ qs) (after qs s).
Proof.
  induction qs as [| q qs IH]; intros ps s K; [rewrite app_nil_r; exact K |]. cbn [after]. replace (ps ++ q :: qs)%list with ((ps ++ [q]) ++ qs)%list by (rewrite <- app_assoc; reflexivity).
  apply IH, kept_ask, K.
Qed.
Lemma kept_new qs : kept qs (after qs (new_surface r g)).
Proof. apply (kept_after qs []). repeat split. Qed.
End Kept.

Lemma size_settled qs q : is_size q = true -> settled_target qs q = existsb is_size qs.
Proof.
  intros H. unfold settled_target. induction qs as [| p qs IH]; [reflexivity |]. cbn [existsb]. rewrite IH, H. f_equal.
  destruct q, p; try discriminate; reflexivity.
Qed.
Lemma other_settled qs q : is_size q = false -> settled_target qs q = asked q qs.
Proof. intros H. unfold settled_target, asked. induction qs as [| p qs IH]; [reflexivity |]. cbn [existsb]. rewrite IH, H. reflexivity. Qed.
Lemma size_asked qs q : is_size q = true -> asked q qs = true -> existsb is_size qs = true.
Proof.
  intros H A. apply existsb_exists in A as (p & I & P). apply existsb_exists. exists p. split; [exact I |]. destruct q, p; try discriminate; reflexivity.
Qed.
Lemma new_target r' qs later r g q : proper_mesh g ->
  answers (after later (set_target r' (after qs (new_surface r g)))) q = answers (new_surface (if settled_target qs q then r else r') g) q.
Proof.
  intros (_ & _ & GN & GF). rewrite stable_after. destruct (edges_ok _ r _ GF) as (ax & HX & _). destruct (edges_ok _ r _ GN) as (le & HL & _).
  pose proof (kept_new r g ax le HX HL qs) as (E1 & E2 & E3 & E4 & E5 & E6 & E7 & E8). destruct (after qs (new_surface r g)) as [r0 g0 z ka ks kc kx kl].
  cbn [radius mesh k_sizes k_area k_smallest k_coord k_across k_lengths] in *. subst r0 g0. unfold set_target. cbn [radius mesh k_sizes k_area k_smallest k_coord k_across k_lengths].
  unfold when in *. destruct (is_size q) eqn:Z.
  - rewrite (size_settled qs q Z). unfold answers. destruct (existsb is_size qs) eqn:Y.
    + destruct q; try discriminate; cbn [ask with_sizes new_surface k_sizes k_area k_smallest k_coord k_across k_lengths radius mesh]; subst; try reflexivity;
        destruct (asked _ qs); reflexivity.
    + destruct (asked Area qs) eqn:A; [apply (size_asked qs Area eq_refl) in A; congruence |]. destruct (asked Smallest qs) eqn:B; [apply (size_asked qs Smallest eq_refl) in B; congruence |].
      subst. destruct q; try discriminate; reflexivity.
  - rewrite (other_settled qs q Z). unfold answers. destruct q; try discriminate; cbn [ask with_sizes new_surface k_sizes k_area k_smallest k_coord k_across k_lengths radius mesh].
    + rewrite E6. destruct (asked (Coord face axis) qs); reflexivity.
    + rewrite E7. destruct (asked EdgeFaceDistance qs); [rewrite HX |]; try reflexivity. match goal with |- context [edge_distances ?x ?y ?t] => destruct (edge_distances x y t) end; reflexivity.
    + rewrite E8. destruct (asked EdgeLength qs); [rewrite HL |]; try reflexivity. match goal with |- context [edge_distances ?x ?y ?t] => destruct (edge_distances x y t) end; reflexivity.
Qed.
Lemma never_asked qs p : (forall x, same_question p x = false) -> asked p qs = false.
Proof. intros H. induction qs as [| x qs IH]; [reflexivity |]. unfold asked. cbn [existsb]. rewrite H. exact IH. Qed.
Lemma new_mesh g' qs later r g q : proper_mesh g ->
  answers (after later (regrid g' (after qs (new_surface r g)))) q = answers (new_surface r (if settled_mesh qs q then g else g')) q.
Proof.
  intros (_ & _ & GN & GF). rewrite stable_after. destruct (edges_ok _ r _ GF) as (ax & HX & _). destruct (edges_ok _ r _ GN) as (le & HL & _).
  pose proof (kept_new r g ax le HX HL qs) as (E1 & E2 & E3 & E4 & E5 & E6 & E7 & E8). destruct (after qs (new_surface r g)) as [r0 g0 z ka ks kc kx kl].
  cbn [radius mesh k_sizes k_area k_smallest k_coord k_across k_lengths] in *. subst r0 g0. unfold regrid. cbn [radius mesh k_sizes k_area k_smallest k_coord k_across k_lengths].
  unfold when in *. change (settled_mesh qs q) with (asked q qs).
  unfold answers. destruct q; cbn [ask with_sizes new_surface k_sizes k_area k_smallest k_coord k_across k_lengths radius mesh]; try (rewrite never_asked by reflexivity; reflexivity).
  - rewrite E4. destruct (asked Area qs); reflexivity.
  - rewrite E5. destruct (asked Smallest qs); reflexivity.
  - rewrite E6. destruct (asked (Coord face axis) qs); reflexivity.
  - rewrite E7. destruct (asked EdgeFaceDistance qs); [rewrite HX |]; try reflexivity. match goal with |- context [edge_distances ?x ?y ?t] => destruct (edge_distances x y t) end; reflexivity.
  - rewrite E8. destruct (asked EdgeLength qs); [rewrite HL |]; try reflexivity. match goal with |- context [edge_distances ?x ?y ?t] => destruct (edge_distances x y t) end; reflexivity.
Qed.

(** The values. *)
Lemma least_spec x l : smallest_of (x :: l) (fold_left Rmin l x).
Proof.
  revert x. induction l as [| y l IH]; intros x; cbn [fold_left]; [split; [left; reflexivity | intros z [<- | []]; lra] |].
  destruct (IH (Rmin x y)) as [A B]. split.
  - destruct A as [A | A]; [| right; right; exact A]. rewrite <- A. unfold Rmin. destruct (Rle_dec x y); [left | right; left]; reflexivity.
  - intros z [<- | [<- | I]]; [| | apply B; right; exact I]; (eapply Rle_trans; [apply B; left; reflexivity |]); [apply Rmin_l | apply Rmin_r].
Qed.
Lemma largest_spec x l : largest_of (x :: l) (fold_left Rmax l x).
Proof.
  revert x. induction l as [| y l IH]; intros x; cbn [fold_left]; [split; [left; reflexivity | intros z [<- | []]; lra] |].
  destruct (IH (Rmax x y)) as [A B]. split.
  - destruct A as [A | A]; [| right; right; exact A]. rewrite <- A. unfold Rmax. destruct (Rle_dec x y); [right; left | left]; reflexivity.
  - intros z [<- | [<- | I]]; [| | apply B; right; exact I]; (eapply Rle_trans; [| apply B; left; reflexivity]); [apply Rmax_l | apply Rmax_r].
Qed.
Lemma sum_sq m l : sum (map (fun x => (x - m) ^ 2) l) = sum (map (fun x => x ^ 2) l) - 2 * m * sum l + INR (List.length l) * m ^ 2.
Proof.
  induction l as [| x l IH]; [unfold sum; cbn; ring |]. change (List.length (x :: l)) with (S (List.length l)). rewrite S_INR. unfold sum in *. cbn [map fold_right]. rewrite IH. ring.
Qed.
Lemma sum_nonneg l : (forall x, In x l -> 0 <= x) -> 0 <= sum l.
Proof.
  induction l as [| x l IH]; intros H; [unfold sum; cbn; lra |]. unfold sum in *. cbn [fold_right]. pose proof (H x (or_introl eq_refl)). assert (forall y, In y l -> 0 <= y) by (intros; apply H; right; assumption). specialize (IH H1). lra.
Qed.
Lemma len_pos {A} (l : list A) : l <> [] -> 0 < INR (List.length l).
Proof. destruct l; [congruence |]. intros _. apply lt_0_INR. cbn. lia. Qed.
Lemma mean_n l : l <> [] -> mean l * INR (List.length l) = sum l.
Proof. intros N. unfold mean. field. pose proof (len_pos l N). lra. Qed.
Lemma std_n l : l <> [] -> 0 <= std l /\ (mean l ^ 2 + std l ^ 2) * INR (List.length l) = sum (map (fun x => x ^ 2) l).
Proof.
  intros N. pose proof (len_pos l N) as P. unfold std. set (v := mean (map _ l)).
  assert (V : v * INR (List.length l) = sum (map (fun x => (x - mean l) ^ 2) l)) by (unfold v, mean at 1; rewrite map_length; field; lra).
  assert (0 <= v).
  { apply Rmult_le_reg_r with (INR (List.length l)); [exact P |]. rewrite V, Rmult_0_l. apply sum_nonneg. intros x I. apply in_map_iff in I as (y & <- & _). apply pow2_ge_0. }
  split; [apply sqrt_pos |]. rewrite pow2_sqrt by assumption. rewrite Rmult_plus_distr_r, V, sum_sq, <- (mean_n l N). ring.
Qed.
Section Values.
Variables (r : R) (g : grid).
Hypotheses (P : proper_mesh g) (Rpos : 0 < r).
Lemma areas_pos a : In a (areas_of r g) -> 0 < a.
Proof. intros I. apply in_map_iff in I as (b & <- & I). destruct P as (_ & Q & _). specialize (Q b I). apply Rmult_lt_0_compat; [exact Q |]. apply pow_lt, Rpos. Qed.
Lemma areas_some : areas_of r g <> [].
Proof. destruct P as (N & _). unfold areas_of. intros E. apply map_eq_nil in E. contradiction. Qed.
Lemma squares : map (fun x => x ^ 2) (map sqrt (areas_of r g)) = areas_of r g.
Proof. rewrite map_map. rewrite <- (map_id (areas_of r g)) at 2. apply map_ext_in. intros a I. apply pow2_sqrt. left. apply areas_pos, I. Qed.
Lemma true_new q : exists a, answers (new_surface r g) q = Ok a /\ true_answer r g q a.
Proof.
  pose proof areas_some as N. assert (Ns : map sqrt (areas_of r g) <> []) by (intros E; apply map_eq_nil in E; contradiction).
  unfold answers. destruct q; cbn [ask with_sizes new_surface k_sizes k_area k_smallest k_coord k_across k_lengths radius mesh fst compute_face_size z_areas z_sizes z_mean z_std z_min z_max];
    fold (areas_of r g); try (eexists; split; [reflexivity |]); cbn [true_answer].
  - reflexivity.
  - assert (H : forall a, In a (areas_of r g) -> 0 < a) by (intros; apply areas_pos; assumption). clear - H. induction (areas_of r g) as [| a l IH]; cbn [map]; constructor.
    + split; [apply sqrt_pos | apply pow2_sqrt; left; apply H; left; reflexivity].
    + apply IH. intros; apply H; right; assumption.
  - rewrite <- (map_length sqrt). apply (mean_n _ Ns).
  - exists (mean (map sqrt (areas_of r g))). rewrite <- (map_length sqrt). destruct (std_n _ Ns) as [A B]. split; [apply (mean_n _ Ns) |]. split; [exact A |]. rewrite B, squares. reflexivity.
  - destruct (map sqrt (areas_of r g)); [congruence |]. apply least_spec.
  - destruct (map sqrt (areas_of r g)); [congruence |]. apply largest_spec.
  - reflexivity.
  - replace (least (map sqrt (areas_of r g)) * (1 / 100000) * 100000) with (least (map sqrt (areas_of r g))) by field. destruct (map sqrt (areas_of r g)); [congruence |]. apply least_spec.
  - reflexivity.
  - destruct P as (_ & _ & _ & GF). destruct (edges_ok _ r _ GF) as (l & E & F). rewrite E. eexists. split; [reflexivity | exact F].
  - destruct P as (_ & _ & GN & _). destruct (edges_ok _ r _ GN) as (l & E & F). rewrite E. eexists. split; [reflexivity | exact F].
Qed.
Lemma true_after qs q : exists a, answers (after qs (new_surface r g)) q = Ok a /\ true_answer r g q a.
Proof. rewrite stable_after. apply true_new. Qed.
Lemma in_order qs m d lo hi :
  answers (after qs (new_surface r g)) PixMean = Ok (Num m) -> answers (after qs (new_surface r g)) PixStd = Ok (Num d) ->
  answers (after qs (new_surface r g)) PixMin = Ok (Num lo) -> answers (after qs (new_surface r g)) PixMax = Ok (Num hi) ->
  0 < lo <= m /\ m <= hi /\ 0 <= d /\ d ^ 2 <= (hi - m) * (m - lo).
Proof.
  rewrite !stable_after. intros A B C D. pose proof areas_some as N. assert (Ns : map sqrt (areas_of r g) <> []) by (intros E; apply map_eq_nil in E; contradiction).
  destruct (true_new PixMin) as (a & Ea & Ta). rewrite C in Ea. injection Ea as <-. destruct (true_new PixMax) as (a & Ea & Tb). rewrite D in Ea. injection Ea as <-. cbn [true_answer] in Ta, Tb.
  unfold answers in A, B. cbn [ask with_sizes new_surface k_sizes radius mesh fst snd compute_face_size z_mean z_std] in A, B. fold (areas_of r g) in A, B. injection A as <-. injection B as <-. set (l := map sqrt (areas_of r g)) in *. destruct Ta as [L1 L2], Tb as [H1 H2].
  destruct (std_n l Ns) as [S1 S2]. pose proof (mean_n l Ns) as M. pose proof (len_pos l Ns) as Pn. set (n := INR (List.length l)) in *.
  assert (K : forall t, (forall x, In x t -> lo <= x <= hi) ->
     INR (List.length t) * lo <= sum t <= INR (List.length t) * hi /\
     0 <= sum t * (hi + lo) - sum (map (fun x => x ^ 2) t) - INR (List.length t) * (hi * lo)).
  { clear. induction t as [| x t IH]; intros H; [unfold sum; cbn; lra |]. change (List.length (x :: t)) with (S (List.length t)). rewrite S_INR.
    destruct (IH (fun y I => H y (or_intror I))) as [[I1 I2] I3]. destruct (H x (or_introl eq_refl)) as [X1 X2]. unfold sum in *. cbn [map fold_right]. split; [split; lra |]. nra. }
  destruct (K l) as [[K1 K2] K3]; [intros x I; split; [apply L2 | apply H2]; exact I |]. fold n in K1, K2, K3. rewrite <- M in K1, K2, K3. rewrite <- S2 in K3.
  assert (0 < lo) by (apply in_map_iff in L1 as (a & <- & I); apply sqrt_lt_R0, areas_pos, I).
  split; [split; [assumption |] |]; [apply Rmult_le_reg_r with n; [exact Pn |]; lra |]. split; [apply Rmult_le_reg_r with n; [exact Pn |]; lra |]. split; [exact S1 |].
  apply Rmult_le_reg_r with n; [exact Pn |]. lra.
Qed.
Lemma region_edges qs edges : (forall i, In i edges -> (i < List.length (g_edge_nodes g))%nat) ->
  exists l, answers (after qs (new_surface r g)) EdgeLength = Ok (Array l) /\
    Forall2 (fun i d => exists e, nth_error (g_edge_nodes g) i = Some e /\ spans r (g_nodes g) e d) edges (of_region edges l).
Proof.
  intros H. destruct (true_after qs EdgeLength) as (a & E & T). destruct a as [x | l]; cbn in T; [contradiction |]. exists l. split; [exact E |]. clear - H T.
  induction edges as [| i edges IH]; cbn; constructor; [| apply IH; intros; apply H; right; assumption].
  assert (I : (i < List.length (g_edge_nodes g))%nat) by (apply H; left; reflexivity). clear - T I. revert i I. induction T as [| e d es ds S F IH]; intros i I; [cbn in I; lia |].
  destruct i; [exists e; split; [reflexivity | exact S] |]. cbn. apply IH. cbn in I. lia.
Qed.
End Values.

Lemma ex_proper : proper_mesh ex_mesh.
Proof. split; [discriminate |]. split; [intros a [<- | [<- | []]]; lra |]. unfold valid_end. split; repeat constructor; cbn; lia. Qed.
Lemma ex_proper2 : proper_mesh ex_mesh2.
Proof. split; [discriminate |]. split; [intros a [<- | []]; lra |]. unfold valid_end. split; repeat constructor; cbn; lia. Qed.
