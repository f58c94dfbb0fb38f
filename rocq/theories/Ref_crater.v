From Coq Require Import Reals List Bool Arith Lra Lia.
From Verif Require Import Common RSum Profile_model Profile_spec Profile_proofs Ref_model Ref_spec Ref_proofs Ref_surface.
Import ListNotations.
Open Scope R_scope.

Section Crater.
Variable lstsq : solver.
Variable s : shape.
Hypothesis LS : least_squares lstsq.
Hypothesis AD : admissible s.
Notation rad := (diameter s / 2).
Notation rv := (refval lstsq rad false).

Lemma meanref_map (F : point -> R) pts m : meanref rad (map (fun p => (p_dist p, F p)) pts) = Some m -> filter (within rad) pts <> [] ->
  m * INR (List.length (filter (within rad) pts)) = lsum F (filter (within rad) pts).
Proof.
  intros E N.
  assert (A : filter (fun p : R * R => if Rle_dec (fst p) rad then true else false) (map (fun p => (p_dist p, F p)) pts) = map (fun p => (p_dist p, F p)) (filter (within rad) pts)).
  { clear. induction pts as [|p l IH]; [reflexivity|]. cbn [map filter fst]. unfold within at 1. destruct (Rle_dec (p_dist p) rad); cbn [map]; rewrite IH; reflexivity. }
  unfold meanref in E. rewrite A in E. destruct (filter (within rad) pts) as [|p l] eqn:P; [congruence|]. cbn [map] in E. apply some_inj in E. subst m.
  match goal with |- context [sum_list ?x] => assert (T : sum_list x = lsum F (p :: l)) by (rewrite <- total_lsum; unfold total; cbn [map snd]; rewrite map_map; reflexivity) end.
  rewrite T. cbn [List.length]. rewrite map_length. field. apply not_0_INR. lia.
Qed.
Lemma shape_map faces nodes : (faces ++ nodes)%list <> [] -> exists m,
  crater_shape lstsq s faces nodes = Ok (map (fun p => height s m (p_dist p) (rv faces nodes p) - p_elev p) (faces ++ nodes)) /\
  after_crater lstsq s faces nodes = Ok (map (fun p => height s m (p_dist p) (rv faces nodes p)) (faces ++ nodes)) /\
  (filter (within rad) (faces ++ nodes) <> [] -> m * INR (List.length (filter (within rad) (faces ++ nodes))) = lsum (rv faces nodes) (filter (within rad) (faces ++ nodes))) .
Proof.
  intro N. unfold after_crater, crater_shape. rewrite reference_map. cbn [points]. rewrite combine_maps.
  destruct (profile_total s (map (fun p => (p_dist p, rv faces nodes p)) (faces ++ nodes))) as [out E]; [intro C; apply map_eq_nil in C; contradiction|].
  rewrite E. cbn [rbind]. destruct (profile_heights _ _ _ AD E) as (m & M & ->). exists m. rewrite map_map. cbn [fst snd].
  rewrite !combine_maps, !map_map. cbn [fst snd]. rewrite combine_maps, map_map. cbn [fst snd]. split; [reflexivity|]. split.
  - f_equal. apply map_ext. intro p. ring.
  - intro P. exact (meanref_map _ _ _ M P).
Qed.
Lemma shape_defined faces nodes : (faces ++ nodes)%list <> [] -> exists dz, crater_shape lstsq s faces nodes = Ok dz /\ List.length dz = List.length (faces ++ nodes).
Proof. intro N. destruct (shape_map faces nodes N) as (m & E & _). eexists. split; [exact E|]. apply map_length. Qed.

Lemma height_inside (m0 d e0 : R) : d <= rad -> exists q, forall m e, height s m d e = Rmax (e + q) (m + floor_depth s).
Proof.
  intro L. unfold height. destruct (Rle_dec d rad); [|contradiction]. destruct (Rle_dec 1 (d / rad)).
  - eexists. intros. reflexivity.
  - exists (rim_height s + c1_of s * (gpoly (d / rad) - gpoly 1)). intros. f_equal. ring.
Qed.
Lemma rmax_shift a b t u : Rabs ((Rmax (a + t) (b + u) - t) - Rmax a b) <= Rabs (t - u).
Proof. unfold Rmax, Rabs. repeat destruct (Rle_dec _ _); repeat destruct (Rcase_abs _); lra. Qed.

Lemma outside_value faces nodes dz p z : crater_shape lstsq s faces nodes = Ok dz -> value (faces ++ nodes) dz p z -> rad < p_dist p ->
  z = (rim_height s - ejrim s) * Rpower (p_dist p / rad) (- RIMDROP).
Proof.
  intros E V O. destruct (shape_map faces nodes) as (m & E2 & _).
  { intro C. destruct V as (i & V & _). rewrite C in V. destruct i; discriminate. }
  rewrite E2 in E. injection E as <-. apply value_map in V as [I ->]. rewrite exterior_value; [|apply AD|exact O].
  assert (X : rv faces nodes p = p_elev p).
  { apply (ref_far lstsq rad false faces nodes p (rv faces nodes p)); [|left; exact O]. rewrite reference_map. apply value_map. auto. }
  rewrite X. ring.
Qed.
Lemma some_near pts p : In p pts -> p_dist p <= rad -> filter (within rad) pts <> [].
Proof. intros I L C. assert (In p (filter (within rad) pts)) by (apply filter_In; rewrite within_spec; auto). rewrite C in H. destruct H. Qed.
Lemma mean_eq l a b : l <> [] -> a * INR (List.length l) = b * INR (@List.length point l) -> a = b.
Proof. intros N E. apply Rmult_eq_reg_r in E; [exact E|]. apply not_0_INR. destruct l; [congruence|cbn; lia]. Qed.

Lemma floor_bound faces nodes out p z m : after_crater lstsq s faces nodes = Ok out -> value (faces ++ nodes) out p z -> p_dist p <= rad ->
  mean_within rad p_elev (faces ++ nodes) m -> m + floor_depth s <= z.
Proof.
  intros E V L [N M]. destruct (shape_map faces nodes) as (m' & _ & E2 & M').
  { intro C. destruct V as (i & V & _). rewrite C in V. destruct i; discriminate. }
  rewrite E2 in E. injection E as <-. apply value_map in V as [I ->]. specialize (M' N).
  rewrite total_lsum in M. pose proof (refval_total lstsq rad false faces nodes LS) as T. cbn [points] in T. rewrite T, <- M in M'.
  apply mean_eq in M' as ->; [|exact N]. destruct (height_inside 0 _ 0 L) as [q ->]. apply Rmax_r.
Qed.

Lemma tilt_bound faces nodes d dz dz' i p z z' : crater_shape lstsq s faces nodes = Ok dz ->
  crater_shape lstsq s (map (tilt d) faces) (map (tilt d) nodes) = Ok dz' ->
  nth_error (faces ++ nodes) i = Some p -> nth_error dz i = Some z -> nth_error dz' i = Some z' ->
  (rad < p_dist p -> z' = z) /\
  (p_dist p <= rad -> forall t, mean_within rad (fun q => plane d (proj_x q) (proj_y q)) (faces ++ nodes) t -> Rabs (z' - z) <= Rabs (plane d (proj_x p) (proj_y p) - t)).
Proof.
  intros E E' P Z Z'. assert (N : (faces ++ nodes)%list <> []) by (intro C; rewrite C in P; destruct i; discriminate).
  assert (PT : (map (tilt d) faces ++ map (tilt d) nodes)%list = map (tilt d) (faces ++ nodes)) by (rewrite map_app; reflexivity).
  assert (N' : (map (tilt d) faces ++ map (tilt d) nodes)%list <> []) by (rewrite PT; intro C; apply map_eq_nil in C; contradiction).
  split.
  - intro O. rewrite (outside_value _ _ _ p z E); [|exists i; auto|exact O].
    apply (outside_value _ _ _ (tilt d p) z' E'); [|exact O]. exists i. rewrite PT, nth_error_map, P. auto.
  - intros L t [_ T]. destruct (shape_map _ _ N) as (m & E2 & _ & M). destruct (shape_map _ _ N') as (m' & E2' & _ & M').
    assert (I : In p (faces ++ nodes)) by (eapply nth_error_In; exact P). pose proof (some_near _ _ I L) as NN.
    rewrite E2 in E. injection E as <-. rewrite E2' in E'. injection E' as <-. rewrite nth_error_map, P in Z. injection Z as <-.
    rewrite PT in Z', M'. rewrite map_map, nth_error_map, P in Z'. injection Z' as <-.
    rewrite filter_tilt, map_length in M'. assert (X : map (tilt d) (filter (within rad) (faces ++ nodes)) <> []) by (intro C; apply map_eq_nil in C; contradiction).
    specialize (M' X). specialize (M NN). rewrite lsum_map in M'.
    assert (MM : m' = m + t).
    { apply (mean_eq _ _ _ NN). rewrite M', Rmult_plus_distr_r, M, T, total_lsum, <- lsum_plus. apply lsum_ext. intros q Iq. apply filter_In in Iq as [Iq _].
      rewrite refval_tilt; [reflexivity|exact LS|exact Iq]. }
    rewrite refval_tilt by (try exact LS; exact I). cbn [p_dist p_elev tilt]. change (height_at d p) with (plane d (proj_x p) (proj_y p)). destruct (height_inside 0 _ 0 L) as [q H]. rewrite !H, MM.
    pose proof (rmax_shift (rv faces nodes p + q) (m + floor_depth s) (plane d (proj_x p) (proj_y p)) t) as B.
    match goal with |- Rabs ?a <= _ => match type of B with Rabs ?b <= _ => replace a with b; [exact B|] end end.
    replace (rv faces nodes p + plane d (proj_x p) (proj_y p) + q) with (rv faces nodes p + q + plane d (proj_x p) (proj_y p)) by ring.
    replace (m + t + floor_depth s) with (m + floor_depth s + t) by ring. ring.
Qed.
Lemma const_mean h pts : filter (within rad) pts <> [] -> mean_within rad (fun q => plane (0, 0, h) (proj_x q) (proj_y q)) pts h.
Proof.
  intro N. split; [exact N|]. rewrite total_lsum. generalize (filter (within rad) pts). clear N. intro l. induction l as [|p l IH]; [cbn; ring|].
  rewrite lsum_cons, <- IH. cbn [List.length]. rewrite S_INR. unfold plane. cbn [fst snd]. ring.
Qed.
Lemma nth_error_ext {A} (l m : list A) : (forall i, nth_error l i = nth_error m i) -> l = m.
Proof.
  revert m. induction l as [|a l IH]; intros [|b m] H; [reflexivity|specialize (H 0%nat); discriminate|specialize (H 0%nat); discriminate|].
  pose proof (H 0%nat) as H0. cbn in H0. injection H0 as ->. f_equal. apply IH. intro i. exact (H (S i)).
Qed.
Lemma level faces nodes h : (faces ++ nodes)%list <> [] -> crater_shape lstsq s (map (tilt (0, 0, h)) faces) (map (tilt (0, 0, h)) nodes) = crater_shape lstsq s faces nodes.
Proof.
  intro N. assert (N' : (map (tilt (0, 0, h)) faces ++ map (tilt (0, 0, h)) nodes)%list <> []) by (rewrite <- map_app; intro C; apply map_eq_nil in C; contradiction).
  destruct (shape_defined _ _ N) as (dz & E & Ln). destruct (shape_defined _ _ N') as (dz' & E' & Ln'). rewrite E, E'. f_equal.
  rewrite <- map_app, map_length in Ln'.
  apply nth_error_ext. intro i. destruct (nth_error (faces ++ nodes) i) as [p|] eqn:P.
  - assert (I : (i < List.length (faces ++ nodes))%nat) by (apply nth_error_Some; congruence).
    destruct (nth_error dz i) as [z|] eqn:Z; [|apply nth_error_None in Z; lia]. destruct (nth_error dz' i) as [z'|] eqn:Z'; [|apply nth_error_None in Z'; lia].
    destruct (tilt_bound _ _ _ _ _ _ _ _ _ E E' P Z Z') as [O In_]. destruct (Rle_lt_dec (p_dist p) rad) as [L|L]; [|rewrite (O L); reflexivity].
    pose proof (some_near _ _ (nth_error_In _ _ P) L) as NN. specialize (In_ L h (const_mean h _ NN)). unfold plane in In_. cbn [fst snd] in In_.
    replace (0 * proj_x p + 0 * proj_y p + h - h) with 0 in In_ by ring. rewrite Rabs_R0 in In_. f_equal. pose proof (Rabs_pos (z' - z)).
    assert (A : Rabs (z' - z) = 0) by lra. destruct (Req_dec (z' - z) 0) as [|B]; [lra|]. apply Rabs_no_R0 in B. contradiction.
  - apply nth_error_None in P. rewrite (proj2 (nth_error_None dz i)), (proj2 (nth_error_None dz' i)); [reflexivity|lia|lia].
Qed.

(** What was there before. *)
Lemma places_within l m : same_places l m -> List.length (filter (within rad) l) = List.length (filter (within rad) m) /\
  forall c, lsum (fun q => plane c (proj_x q) (proj_y q)) (filter (within rad) l) = lsum (fun q => plane c (proj_x q) (proj_y q)) (filter (within rad) m).
Proof.
  induction 1 as [|p q l m [D B] H [IH1 IH2]]; [auto|]. cbn [filter]. assert (W : within rad p = within rad q) by (unfold within; rewrite D; reflexivity). rewrite W. destruct (within rad q); [|auto]. cbn [List.length]. split; [congruence|].
  intro c. rewrite !lsum_cons, IH2. unfold proj_x, proj_y. rewrite D, B. reflexivity.
Qed.
Lemma places_exists l m : same_places l m -> existsb (within rad) l = existsb (within rad) m.
Proof. induction 1 as [|p q l m [D B] H IH]; [reflexivity|]. cbn. rewrite IH. assert (W : within rad p = within rad q) by (unfold within; rewrite D; reflexivity). rewrite W. reflexivity. Qed.
Lemma places_nth l m i p : same_places l m -> nth_error l i = Some p -> exists q, nth_error m i = Some q /\ p_dist p = p_dist q /\ p_bear p = p_bear q.
Proof.
  intro H. revert i. induction H as [|a b l m [D B] H IH]; intros [|i] E; try discriminate; cbn in *; [injection E as <-; eauto|apply IH; exact E].
Qed.
Lemma best_value faces nodes c p : fits_plane rad false faces nodes = true -> best_plane rad (faces ++ nodes) c -> In p (faces ++ nodes) -> p_dist p <= rad ->
  rv faces nodes p = plane c (proj_x p) (proj_y p).
Proof.
  intros F B I L. unfold refval. apply within_spec in L as W. rewrite F, W. cbn [andb].
  exact (fit_unique _ _ _ (LS _) B (coords p) (near_in rad false faces nodes p I L)).
Qed.
Lemma erased f1 n1 f2 n2 c out1 out2 i p z1 z2 : same_places f1 f2 -> same_places n1 n2 -> fitted rad false f1 n1 ->
  best_plane rad (f1 ++ n1) c -> best_plane rad (f2 ++ n2) c -> after_crater lstsq s f1 n1 = Ok out1 -> after_crater lstsq s f2 n2 = Ok out2 ->
  nth_error (f1 ++ n1) i = Some p -> p_dist p <= rad -> nth_error out1 i = Some z1 -> nth_error out2 i = Some z2 -> z1 = z2.
Proof.
  intros SF SN F B1 B2 E1 E2 P L Z1 Z2. assert (SP : same_places (f1 ++ n1) (f2 ++ n2)) by (apply Forall2_app; assumption).
  destruct (places_nth _ _ _ _ SP P) as (q & Q & D & B). apply fits_spec in F.
  assert (F' : fits_plane rad false f2 n2 = true).
  { unfold fits_plane in *. rewrite <- (places_exists _ _ SN). cbn [points] in *. rewrite <- (proj1 (places_within _ _ SP)). exact F. }
  assert (I1 := nth_error_In _ _ P). assert (I2 := nth_error_In _ _ Q). assert (L2 : p_dist q <= rad) by lra.
  destruct (shape_map f1 n1) as (m1 & _ & A1 & M1); [intro C; rewrite C in P; destruct i; discriminate|].
  destruct (shape_map f2 n2) as (m2 & _ & A2 & M2); [intro C; rewrite C in Q; destruct i; discriminate|].
  rewrite A1 in E1. injection E1 as <-. rewrite A2 in E2. injection E2 as <-. rewrite nth_error_map, P in Z1. injection Z1 as <-. rewrite nth_error_map, Q in Z2. injection Z2 as <-.
  rewrite (best_value _ _ c p F B1 I1 L), (best_value _ _ c q F' B2 I2 L2). unfold proj_x, proj_y. rewrite <- D, <- B.
  assert (MM : m1 = m2); [|rewrite MM; reflexivity].
  specialize (M1 (some_near _ _ I1 L)). specialize (M2 (some_near _ _ I2 L2)). apply (mean_eq _ _ _ (some_near _ _ I1 L)).
  rewrite M1. rewrite (proj1 (places_within _ _ SP)), M2.
  transitivity (lsum (fun q => plane c (proj_x q) (proj_y q)) (filter (within rad) (f1 ++ n1))).
  - apply lsum_ext. intros r Ir. apply filter_In in Ir as [Ir W]. apply within_spec in W. apply best_value; assumption.
  - rewrite (proj2 (places_within _ _ SP)). symmetry. apply lsum_ext. intros r Ir. apply filter_In in Ir as [Ir W]. apply within_spec in W. apply best_value; assumption.
Qed.
End Crater.
