(** Lemmas about the intensity of rays. *)
From Coq Require Import Reals ZArith List Permutation Lra Lia.
From Verif Require Import Common Trig_model Geo_proofs Profile_model Ray_model Ray_spec.
Open Scope R_scope.

(** ** Signs *)
Lemma counted_range r m : (1 <= rays_counted r m <= 5)%Z.
Proof.
  unfold rays_counted. destruct (Rlt_dec _ 0); unfold NRAYMAX; lia.
Qed.

Lemma ray_nonneg erf theta b r n w : positive_erf erf -> 0 < r -> 0 < w -> (1 <= n)%Z ->
  0 <= ejecta_ray_func erf theta b r n w.
Proof.
  intros E Pr Pw N. unfold ejecta_ray_func. cbv zeta.
  destruct (Rlt_dec _ _); [lra|]. destruct (Rle_dec _ _); [lra|].
  assert (C : 0 < w / r) by (apply Rdiv_lt_0_compat; lra).
  assert (S2 : 0 < sqrt 2) by (apply sqrt_lt_R0; lra).
  apply Rmult_le_pos; [|left; apply exp_pos]. left.
  apply Rdiv_lt_0_compat.
  - apply sqrt_lt_R0. pose proof PI_RGT_0. lra.
  - apply Rmult_lt_0_compat; [apply Rmult_lt_0_compat; [apply (IZR_lt 0); lia|exact C]|].
    apply E. apply Rdiv_lt_0_compat; [apply PI_RGT_0|]. apply Rmult_lt_0_compat; [lra|exact C].
Qed.

Lemma length_pos m i : 0 < m -> 0 < ray_length m i.
Proof. intros M. unfold ray_length. apply Rmult_lt_0_compat; [exact M|apply exp_pos]. Qed.

Lemma width_pos l r : 0 < l -> 1 <= r ->
  0 < PI / (ray_rmax / l * INR NRAYMAX) * (ray_rmin / r) *
      (1 - (1 - ray_rmax / l / ray_rmin) * exp (1 - Rpower (r / ray_rmin) (125 / 100))).
Proof.
  intros L Hr. unfold ray_rmax, ray_rmin. change (INR NRAYMAX) with (INR 5). rewrite (INR_IZR_INZ 5). simpl (IZR (Z.of_nat 5)).
  assert (W : 0 < 100 / l) by (apply Rdiv_lt_0_compat; lra). set (w := 100 / l) in *.
  assert (G : 1 <= Rpower (r / 1) (125 / 100)).
  { replace (r / 1) with r by lra. rewrite <- (Rpower_O r) at 1 by lra. apply Rle_Rpower; lra. }
  assert (X : 0 < exp (1 - Rpower (r / 1) (125 / 100)) <= 1).
  { split; [apply exp_pos|]. apply Rle_trans with (exp 0); [|rewrite exp_0; lra]. destruct (Req_dec (1 - Rpower (r / 1) (125 / 100)) 0) as [Z|Z].
    - rewrite Z. lra.
    - left. apply exp_increasing. lra. }
  set (e := exp _) in *.
  apply Rmult_lt_0_compat.
  - apply Rmult_lt_0_compat; apply Rdiv_lt_0_compat; try lra. apply PI_RGT_0.
  - replace (1 - (1 - w / 1) * e) with ((1 - e) + w * e) by field.
    pose proof (Rmult_lt_0_compat _ _ W (proj1 X)). lra.
Qed.

Lemma one_ray_nonneg erf r t m th i : positive_erf erf -> 0 < m -> 1 <= r -> 0 <= one_ray erf r t m th i.
Proof.
  intros E M Hr. unfold one_ray. cbv zeta. destruct (Rlt_dec _ _); [lra|].
  apply ray_nonneg; [exact E|lra| |apply counted_range].
  apply width_pos; [apply length_pos; exact M|exact Hr].
Qed.

Lemma sum_nonneg {A} (f : A -> R) l : (forall a, In a l -> 0 <= f a) -> 0 <= sum_list (map f l).
Proof.
  induction l as [|a l IH]; intros H; cbn; [lra|].
  pose proof (H a (or_introl eq_refl)). pose proof (IH (fun b B => H b (or_intror B))). unfold sum_list in *. lra.
Qed.

Lemma func_nonneg erf r t th m : positive_erf erf -> 0 < m -> 0 <= ray_intensity_func erf r t th m.
Proof.
  intros E M. unfold ray_intensity_func.
  destruct (Rle_dec r 0); [lra|]. destruct (Rlt_dec _ r); [lra|]. destruct (Rlt_dec r 1); [lra|].
  apply sum_nonneg. intros i _. apply one_ray_nonneg; [exact E|exact M|lra].
Qed.

Lemma minray_pos c : 0 < minray_of c.
Proof. unfold minray_of. apply Rmult_lt_0_compat; [lra|apply exp_pos]. Qed.

Lemma reduction_pos k : 0 < powerRZ FRAYREDUCTION k.
Proof. apply powerRZ_lt. unfold FRAYREDUCTION. lra. Qed.

Lemma term_nonneg erf d c r t j : positive_erf erf -> 0 <= pattern_term erf d c r t j.
Proof.
  intros E. unfold pattern_term. cbv zeta. apply Rmult_le_pos; [left; apply reduction_pos|].
  apply func_nonneg; [exact E|apply minray_pos].
Qed.

Lemma point_nonneg erf d c r t : positive_erf erf -> 0 <= ray_intensity_point erf d c r t.
Proof.
  intros E. unfold ray_intensity_point. destruct (Rlt_dec r c); [lra|].
  apply sum_nonneg. intros j _. apply term_nonneg. exact E.
Qed.

(** ** Maximum *)
Lemma fmin_neg : f64_min < 0.
Proof.
  unfold f64_min. assert (0 < 2 ^ 1023) by (apply pow_lt; lra).
  assert (/ 2 ^ 52 < 1) by (rewrite <- Rinv_1; apply Rinv_lt_contravar; [|apply Rlt_pow_R1; [lra|lia]]; assert (0 < 2 ^ 52) by (apply pow_lt; lra); lra).
  assert (0 < (2 - / 2 ^ 52) * 2 ^ 1023) by (apply Rmult_lt_0_compat; lra). lra.
Qed.

Lemma fold_max l : forall a, let m := fold_left Rmax l a in (a <= m) /\ (forall x, In x l -> x <= m) /\ (m = a \/ In m l).
Proof.
  induction l as [|b l IH]; intros a m.
  - cbn in m. subst m. split; [lra|]. split; [intros x []|]. now left.
  - destruct (IH (Rmax a b)) as [A [B C]]. change (fold_left Rmax l (Rmax a b)) with m in A, B, C.
    pose proof (Rmax_l a b). pose proof (Rmax_r a b). split; [lra|]. split.
    + intros x [X|X]; [subst x; lra|]. apply B; exact X.
    + destruct C as [C|C]; [|right; right; exact C].
      revert C. unfold Rmax at 1. destruct (Rle_dec a b); intros C; [right; left|left]; congruence.
Qed.

Lemma fold_max_nonneg l a : a < 0 -> l <> [] -> (forall x, In x l -> 0 <= x) -> In (fold_left Rmax l a) l.
Proof.
  intros A N P. destruct (fold_max l a) as [_ [B [C|C]]]; [|exact C].
  destruct l as [|b l]; [congruence|]. pose proof (B b (or_introl eq_refl)). pose proof (P b (or_introl eq_refl)). lra.
Qed.

Lemma outside_spec c p : outside c p = true <-> c <= fst p.
Proof. unfold outside. destruct (Rle_dec c (fst p)); split; intros; try reflexivity; try discriminate; lra. Qed.

Section Values.
Variable erf : R -> R.
Variable d : draws.
Variable c : R.
Hypothesis E : positive_erf erf.
Let raw (p : R * R) := ray_intensity_point erf d c (fst p) (snd p).

Lemma max_in pts p : In p pts -> c <= fst p -> exists q, In q pts /\ c <= fst q /\ raw q = max_outside erf d c pts.
Proof.
  intros I O. unfold max_outside.
  assert (N : In (fold_left Rmax (map raw (filter (outside c) pts)) f64_min) (map raw (filter (outside c) pts))).
  { apply fold_max_nonneg; [apply fmin_neg| |].
    - intros Z. apply map_eq_nil in Z. assert (J : In p (filter (outside c) pts)) by (apply filter_In; split; [exact I|apply outside_spec; exact O]).
      rewrite Z in J. destruct J.
    - intros x X. apply in_map_iff in X. destruct X as [q [<- _]]. apply point_nonneg. exact E. }
  apply in_map_iff in N. destruct N as [q [Q J]]. apply filter_In in J. destruct J as [J K].
  exists q. split; [exact J|]. split; [apply outside_spec; exact K|exact Q].
Qed.

Lemma max_le pts p : In p pts -> c <= fst p -> raw p <= max_outside erf d c pts.
Proof.
  intros I O. unfold max_outside. apply (proj1 (proj2 (fold_max (map raw (filter (outside c) pts)) f64_min))).
  apply in_map. apply filter_In. split; [exact I|apply outside_spec; exact O].
Qed.

Lemma max_nonneg pts p : In p pts -> c <= fst p -> 0 <= max_outside erf d c pts.
Proof. intros I O. pose proof (max_le pts p I O). pose proof (point_nonneg erf d c (fst p) (snd p) E). unfold raw in *. lra. Qed.
End Values.

(** ** Results *)
Lemma nth_combine {A B} (l : list A) (m : list B) i a b :
  nth_error l i = Some a -> nth_error m i = Some b -> nth_error (combine l m) i = Some (a, b).
Proof.
  revert m i. induction l as [|x l IH]; intros [|y m] [|i]; cbn; intros H K; try discriminate.
  - congruence.
  - now apply IH.
Qed.

Lemma nth_combine_inv {A B} (l : list A) (m : list B) i a b :
  nth_error (combine l m) i = Some (a, b) -> nth_error l i = Some a /\ nth_error m i = Some b.
Proof.
  revert m i. induction l as [|x l IH]; intros [|y m] [|i]; cbn; intros H; try discriminate.
  - inversion H. auto.
  - now apply IH.
Qed.

Lemma returned erf d rs ts dm vs i r t v : ray_intensity erf d rs ts dm = Ok vs -> at_point rs ts vs i r t v ->
  v = (if outside (dm / 2) (r, t)
       then fdiv (ray_intensity_point erf d (dm / 2) r t) (max_outside erf d (dm / 2) (combine rs ts))
       else Num (ray_intensity_point erf d (dm / 2) r t)) /\ In (r, t) (combine rs ts).
Proof.
  unfold ray_intensity. destruct (Nat.eqb _ _); [|discriminate]. intros Q [A [B C]]. injection Q as <-.
  pose proof (nth_combine rs ts i r t A B) as D. unfold ray_values in C.
  pose proof (map_nth_error (fun p => let x := ray_intensity_point erf d (dm / 2) (fst p) (snd p) in
                if outside (dm / 2) p then fdiv x (max_outside erf d (dm / 2) (combine rs ts)) else Num x) i (combine rs ts) D) as F.
  cbn [fst snd] in F. cbv zeta in F. rewrite F in C. injection C as <-. split; [reflexivity|].
  apply nth_error_In in D. exact D.
Qed.

Lemma returned_all erf d rs ts dm vs r t : ray_intensity erf d rs ts dm = Ok vs -> In (r, t) (combine rs ts) ->
  exists i v, at_point rs ts vs i r t v.
Proof.
  unfold ray_intensity. destruct (Nat.eqb _ _); [|discriminate]. intros Q I. injection Q as <-.
  apply In_nth_error in I. destruct I as [i I]. exists i.
  destruct (nth_combine_inv _ _ _ _ _ I) as [A B].
  exists (if outside (dm / 2) (r, t)
       then fdiv (ray_intensity_point erf d (dm / 2) r t) (max_outside erf d (dm / 2) (combine rs ts))
       else Num (ray_intensity_point erf d (dm / 2) r t)).
  split; [exact A|]. split; [exact B|]. unfold ray_values.
  rewrite (map_nth_error _ i (combine rs ts) I). reflexivity.
Qed.

Lemma answered erf d rs ts dm vs i r : ray_intensity erf d rs ts dm = Ok vs -> nth_error rs i = Some r ->
  List.length vs = List.length rs /\ exists t v, at_point rs ts vs i r t v.
Proof.
  unfold ray_intensity. destruct (Nat.eqb _ _) eqn:L; [|discriminate]. apply Nat.eqb_eq in L. intros Q A. injection Q as <-.
  split.
  - unfold ray_values. rewrite map_length, combine_length. lia.
  - assert (I : (i < List.length ts)%nat) by (rewrite <- L; apply nth_error_Some; congruence).
    destruct (nth_error ts i) as [t|] eqn:B; [|apply nth_error_None in B; lia].
    exists t. eexists. split; [exact A|]. split; [exact B|]. unfold ray_values.
    rewrite (map_nth_error _ i (combine rs ts) (nth_combine _ _ _ _ _ A B)). reflexivity.
Qed.

Lemma value_cases erf d rs ts dm vs i r t v : positive_erf erf -> ray_intensity erf d rs ts dm = Ok vs -> at_point rs ts vs i r t v ->
  (r < dm / 2 -> v = Num 0) /\
  (dm / 2 <= r -> max_outside erf d (dm / 2) (combine rs ts) = 0 -> v = NaN) /\
  (dm / 2 <= r -> max_outside erf d (dm / 2) (combine rs ts) <> 0 ->
     v = Num (ray_intensity_point erf d (dm / 2) r t / max_outside erf d (dm / 2) (combine rs ts)) /\
     0 < max_outside erf d (dm / 2) (combine rs ts) /\
     0 <= ray_intensity_point erf d (dm / 2) r t <= max_outside erf d (dm / 2) (combine rs ts)).
Proof.
  intros E Q A. destruct (returned _ _ _ _ _ _ _ _ _ _ Q A) as [V I]. unfold outside in V. cbn [fst] in V.
  split; [|split].
  - intros H. destruct (Rle_dec (dm / 2) r); [lra|]. rewrite V. f_equal. unfold ray_intensity_point.
    destruct (Rlt_dec r (dm / 2)); [reflexivity|lra].
  - intros H M. destruct (Rle_dec (dm / 2) r); [|lra]. rewrite V. unfold fdiv. destruct (Req_EM_T _ 0); [reflexivity|lra].
  - intros H M. destruct (Rle_dec (dm / 2) r); [|lra].
    pose proof (max_nonneg erf d (dm / 2) E _ _ I H). pose proof (max_le erf d (dm / 2) _ _ I H) as U. cbn [fst snd] in U.
    pose proof (point_nonneg erf d (dm / 2) r t E).
    split; [|split; [lra|split; lra]]. rewrite V. unfold fdiv. destruct (Req_EM_T _ 0); [lra|reflexivity].
Qed.

Theorem range erf d rs ts dm vs : positive_erf erf -> drawn d -> sized dm -> ray_intensity erf d rs ts dm = Ok vs ->
  List.length vs = List.length rs /\
  (forall i r t v, at_point rs ts vs i r t v -> r < dm / 2 -> v = Num 0) /\
  ((forall i r t v, at_point rs ts vs i r t v -> dm / 2 <= r -> v = NaN) \/
   (forall i r t v, at_point rs ts vs i r t v -> exists x, v = Num x /\ 0 <= x <= 1) /\
   exists i r t, at_point rs ts vs i r t (Num 1) /\ dm / 2 <= r).
Proof.
  intros E _ _ Q. split; [|split].
  - unfold ray_intensity in Q. destruct (Nat.eqb _ _) eqn:L; [|discriminate]. apply Nat.eqb_eq in L. injection Q as <-.
    unfold ray_values. rewrite map_length, combine_length. lia.
  - intros i r t v A H. apply (value_cases erf d rs ts dm vs i r t v E Q A). exact H.
  - destruct (Req_dec (max_outside erf d (dm / 2) (combine rs ts)) 0) as [Z|Z].
    + left. intros i r t v A H. apply (value_cases erf d rs ts dm vs i r t v E Q A); assumption.
    + destruct (filter (outside (dm / 2)) (combine rs ts)) as [|[r t] l] eqn:F.
      * left. intros i r t v A H. destruct (returned _ _ _ _ _ _ _ _ _ _ Q A) as [_ I].
        assert (J : In (r, t) (filter (outside (dm / 2)) (combine rs ts))) by (apply filter_In; split; [exact I|apply outside_spec; exact H]).
        rewrite F in J. destruct J.
      * right. assert (J : In (r, t) (filter (outside (dm / 2)) (combine rs ts))) by (rewrite F; left; reflexivity).
        apply filter_In in J. destruct J as [J K]. apply outside_spec in K. cbn [fst] in K. split.
        -- intros i r1 t1 v A. destruct (value_cases erf d rs ts dm vs i r1 t1 v E Q A) as [V1 [_ V2]].
           destruct (Rlt_le_dec r1 (dm / 2)) as [H|H].
           ++ exists 0. split; [apply V1; exact H|lra].
           ++ destruct (V2 H Z) as [V [P [L U]]]. eexists. split; [exact V|]. split.
              ** apply Rmult_le_pos; [exact L|left; apply Rinv_0_lt_compat; exact P].
              ** apply Rmult_le_reg_r with (max_outside erf d (dm / 2) (combine rs ts)); [exact P|].
                 unfold Rdiv. rewrite Rmult_assoc, Rinv_l by lra. lra.
        -- destruct (max_in erf d (dm / 2) E _ _ J K) as [[r2 t2] [I2 [O2 M2]]]. cbn [fst snd] in *.
           destruct (returned_all erf d rs ts dm vs r2 t2 Q I2) as [i [v A]].
           destruct (value_cases erf d rs ts dm vs i r2 t2 v E Q A) as [_ [_ V2]].
           destruct (V2 O2 Z) as [V [P _]]. exists i, r2, t2. split; [|exact O2].
           replace (Num 1) with v; [exact A|]. rewrite V, M2. f_equal. field. lra.
Qed.
