(** Proofs about Csfd_model. *)
From Coq Require Import Reals ZArith Lra Lia.
From Verif Require Import Common RSum Prod_model Prod_proofs Csfd_model Csfd_spec.
Import ListNotations.
Open Scope R_scope.

Definition mid (D : R) : R := (D + D * sqrt 2) / 2.
Lemma term_density f D : bin_term f D = density f (mid D) * (D * sqrt 2 - D).
Proof. reflexivity. Qed.
Lemma ends f lim D : 0 < D -> exists n, counts f lim D n /\ forall m, counts f lim D m -> m = n.
Proof.
  intros H. destruct (sum_terminates f lim D H) as (fuel & n & E). exists n. split; [exists fuel; exact E |].
  intros m [k K]. exact (sum_det f lim k fuel D m n K E).
Qed.
(** Induction over the bins. *)
Lemma counts_ind (f : R -> R) lim (P : R -> R -> R -> Prop) :
  (forall D, 0 < D -> lim <= D -> P D 0 D) ->
  (forall D s e, 0 < D -> D < lim -> P (D * sqrt 2) s e -> P D (bin_term f D + s) e) ->
  forall D n, 0 < D -> counts f lim D n -> exists e, last_edge lim D e /\ P D n e.
Proof.
  intros A B D n H [fuel E]. pose proof sqrt2_bounds as S2. revert D n H E. induction fuel as [| k IH]; intros D n H E; cbn [R_to_CSFD] in E; destruct (Rlt_dec D lim) as [L | L]; try discriminate.
  - injection E as <-. exists D. split; [| apply A; lra]. exists O. cbn [Rpow_def.pow]. split; [lra |]. split; [lra |]. intros i I. lia.
  - destruct (R_to_CSFD f lim k (D * sqrt 2)) as [s |] eqn:E1; [| discriminate]. injection E as <-. destruct (IH (D * sqrt 2) s ltac:(nra) E1) as (e & (j & Ee & Le & Lj) & Q).
    exists e. split; [| apply B; auto]. exists (S j). split; [rewrite Ee; cbn [Rpow_def.pow]; apply Rmult_assoc |]. split; [exact Le |].
    intros [| i] I; [cbn [Rpow_def.pow]; lra |]. cbn [Rpow_def.pow]. rewrite <- Rmult_assoc. apply Lj. lia.
  - injection E as <-. exists D. split; [| apply A; lra]. exists O. cbn [Rpow_def.pow]. split; [lra |]. split; [lra |]. intros i I. lia.
Qed.
Lemma edge_unique lim D e e' : 0 < D -> last_edge lim D e -> last_edge lim D e' -> e = e'.
Proof.
  intros H (k & -> & L & M) (k' & -> & L' & M'). destruct (Nat.lt_trichotomy k k') as [T | [-> | T]]; [| reflexivity |].
  - specialize (M' k T). lra.
  - specialize (M k' T). lra.
Qed.
Lemma edge_range lim D e : 0 < D -> last_edge lim D e -> lim <= e /\ D <= e /\ (D < lim -> e < lim * sqrt 2) /\ (lim <= D -> e = D).
Proof.
  intros H (k & -> & L & M). pose proof sqrt2_bounds as S2. split; [exact L |]. split; [| split].
  - assert (1 <= sqrt 2 ^ k) by (apply pow_R1_Rle; lra). nra.
  - intros Lt. destruct k as [| k]; [cbn [Rpow_def.pow] in L; lra |]. specialize (M k ltac:(lia)). cbn [Rpow_def.pow]. nra.
  - intros G. destruct k as [| k]; [cbn [Rpow_def.pow]; ring |]. specialize (M O ltac:(lia)). cbn [Rpow_def.pow] in M. lra.
Qed.
(** The sum. *)
Lemma as_sum f lim D n : 0 < D -> counts f lim D n -> exists k,
  lim <= D * sqrt 2 ^ k /\ (forall i, (i < k)%nat -> D * sqrt 2 ^ i < lim) /\
  n = fsum k (fun i => density f (D * sqrt 2 ^ i * (1 + sqrt 2) / 2) * (D * sqrt 2 ^ S i - D * sqrt 2 ^ i)).
Proof.
  intros H [fuel E]. pose proof sqrt2_bounds as S2. revert D n H E. induction fuel as [| m IH]; intros D n H E; cbn [R_to_CSFD] in E; destruct (Rlt_dec D lim) as [L | L]; try discriminate.
  1, 3: injection E as <-; exists O; cbn [Rpow_def.pow fsum]; split; [lra | split; [intros i I; lia | reflexivity]].
  destruct (R_to_CSFD f lim m (D * sqrt 2)) as [s |] eqn:E1; [| discriminate]. injection E as <-. destruct (IH (D * sqrt 2) s ltac:(nra) E1) as (k & L1 & L2 & ->). clear IH.
  exists (S k). split; [cbn [Rpow_def.pow]; rewrite <- Rmult_assoc; exact L1 |]. split.
  - intros [| i] I; [cbn [Rpow_def.pow]; lra |]. cbn [Rpow_def.pow]. rewrite <- Rmult_assoc. apply L2. lia.
  - assert (Sh : forall j g, fsum (S j) g = g O + fsum j (fun i => g (S i))).
    { clear. induction j as [| j IH]; intros g; [cbn; lra |]. change (fsum (S (S j)) g) with (fsum (S j) g + g (S j)). rewrite IH. change (fsum (S j) (fun i => g (S i))) with (fsum j (fun i => g (S i)) + g (S j)). lra. }
    rewrite Sh. f_equal.
    + rewrite term_density. unfold mid. cbn [Rpow_def.pow]. f_equal; [f_equal; lra | ring].
    + apply fsum_ext. intros i _. cbn [Rpow_def.pow]. f_equal; [f_equal; field | ring].
Qed.
(** Linear. *)
Lemma linear f g lim D n m a b : 0 < D -> counts f lim D n -> counts g lim D m -> counts (fun x => a * f x + b * g x) lim D (a * n + b * m).
Proof.
  intros H [p A] [q B]. apply (sum_more_fuel f lim p D n (p + q)) in A; [| lia]. apply (sum_more_fuel g lim q D m (p + q)) in B; [| lia].
  exists (p + q)%nat. set (k := (p + q)%nat) in *. clearbody k. clear p q H. revert D n m A B. induction k as [| k IH]; intros D n m A B; cbn [R_to_CSFD] in *; destruct (Rlt_dec D lim); try discriminate.
  1, 3: injection A as <-; injection B as <-; f_equal; ring.
  destruct (R_to_CSFD f lim k _) as [s |] eqn:E1; [| discriminate]. destruct (R_to_CSFD g lim k _) as [t |] eqn:E2; [| discriminate]. injection A as <-. injection B as <-.
  rewrite (IH _ _ _ E1 E2). f_equal. rewrite !term_density. unfold density. set (w := D * sqrt 2 - D). unfold Rdiv. ring.
Qed.
Lemma nonneg f lim D n : 0 < D -> (forall x, 0 < x -> 0 <= f x) -> counts f lim D n -> 0 <= n.
Proof.
  intros H F C. pose proof sqrt2_bounds as S2. destruct (counts_ind f lim (fun _ n _ => 0 <= n)) with (D := D) (n := n) as (e & _ & X); auto; [intros; lra |].
  intros d s _ P _ Q. rewrite term_density. unfold density. assert (0 < mid d) by (unfold mid; nra). assert (0 <= f (mid d) / mid d ^ 3) by (apply Rmult_le_pos; [apply F; lra | left; apply Rinv_0_lt_compat, pow_lt; lra]).
  apply Rplus_le_le_0_compat; [apply Rmult_le_pos; [assumption | nra] | exact Q].
Qed.
(** Calculus: the mean value theorem between two diameters. *)
Lemma between f C a b : cumulative f C -> 0 < a < b -> exists c, a < c < b /\ C a - C b = density f c * (b - a).
Proof.
  intros K H. assert (Dv : forall c, a <= c <= b -> derivable_pt_lim C c (- density f c)) by (intros c Hc; apply K; lra).
  destruct (MVT_cor2 C (fun c => - density f c) a b ltac:(lra) Dv) as (c & E & Hc). exists c. split; [exact Hc | lra].
Qed.
Lemma bounds f C lim D n : decreasing_on (density f) -> cumulative f C -> 0 < D -> counts f lim D n ->
  exists e, last_edge lim D e /\ (C (D * sqrt 2) - C (e * sqrt 2)) / sqrt 2 <= n <= sqrt 2 * (C (D / sqrt 2) - C (e / sqrt 2)).
Proof.
  intros Dc K H N. pose proof sqrt2_bounds as S2. assert (Sq : sqrt 2 * sqrt 2 = 2) by (apply sqrt_sqrt; lra).
  apply (counts_ind f lim (fun D n e => (C (D * sqrt 2) - C (e * sqrt 2)) / sqrt 2 <= n <= sqrt 2 * (C (D / sqrt 2) - C (e / sqrt 2)))) with (D := D) (n := n); auto.
  - intros d P _. rewrite !Rminus_diag_eq by reflexivity. split; [unfold Rdiv; lra | lra].
  - intros d s e P _ [Lo Hi]. rewrite term_density. set (w := d * sqrt 2 - d). assert (W : 0 < w) by (unfold w; nra).
    replace (d * sqrt 2 / sqrt 2) with d in Hi by (field; lra).
    destruct (between f C (d * sqrt 2) (d * sqrt 2 * sqrt 2) K ltac:(split; nra)) as (x & Hx & Ex).
    destruct (between f C (d / sqrt 2) d K) as (y & Hy & Ey).
    { split; [apply Rdiv_lt_0_compat; lra |]. apply (Rmult_lt_reg_r (sqrt 2)); [lra |]. unfold Rdiv. rewrite Rmult_assoc, Rinv_l by lra. nra. }
    assert (M1 : density f x <= density f (mid d)) by (apply Dc; unfold mid; nra). assert (M2 : density f (mid d) <= density f y) by (apply Dc; unfold mid; split; [assert (0 < d / sqrt 2) by (apply Rdiv_lt_0_compat; lra); lra | nra]).
    split.
    + replace ((C (d * sqrt 2) - C (e * sqrt 2)) / sqrt 2) with ((C (d * sqrt 2) - C (d * sqrt 2 * sqrt 2)) / sqrt 2 + (C (d * sqrt 2 * sqrt 2) - C (e * sqrt 2)) / sqrt 2) by (field; lra).
      apply Rplus_le_compat; [| exact Lo]. rewrite Ex. replace (density f x * (d * sqrt 2 * sqrt 2 - d * sqrt 2) / sqrt 2) with (density f x * w) by (unfold w; field; lra). apply Rmult_le_compat_r; lra.
    + replace (sqrt 2 * (C (d / sqrt 2) - C (e / sqrt 2))) with (sqrt 2 * (C (d / sqrt 2) - C d) + sqrt 2 * (C d - C (e / sqrt 2))) by ring.
      apply Rplus_le_compat; [| exact Hi]. rewrite Ey. replace (sqrt 2 * (density f y * (d - d / sqrt 2))) with (density f y * w) by (unfold w; field; lra). apply Rmult_le_compat_r; lra.
Qed.
(** Hermite and Hadamard. *)
Lemma hadamard f C m h : convex (density f) -> cumulative f C -> 0 <= h < m -> density f m * (2 * h) <= C (m - h) - C (m + h).
Proof.
  intros Cv K H. destruct (Req_EM_T h 0) as [-> | N]; [rewrite Rminus_0_r, Rplus_0_r; lra |].
  set (g := fun t => C (m - t) - C (m + t) - density f m * (2 * t)). set (g' := fun t => density f (m - t) + density f (m + t) - density f m * 2).
  assert (Dv : forall t, 0 <= t <= h -> derivable_pt_lim g t (g' t)).
  { intros t Ht. unfold g, g'. replace (density f (m - t) + density f (m + t) - density f m * 2) with (- density f (m - t) * (0 - 1) - - density f (m + t) * (0 + 1) - density f m * (2 * 1)) by ring.
    apply derivable_pt_lim_minus; [apply derivable_pt_lim_minus |].
    - apply (derivable_pt_lim_comp (fun t => m - t) C); [apply derivable_pt_lim_minus; [apply derivable_pt_lim_const | apply derivable_pt_lim_id] | apply K; lra].
    - apply (derivable_pt_lim_comp (fun t => m + t) C); [apply derivable_pt_lim_plus; [apply derivable_pt_lim_const | apply derivable_pt_lim_id] | apply K; lra].
    - apply (derivable_pt_lim_scal (fun t => 2 * t)). apply (derivable_pt_lim_scal id). apply derivable_pt_lim_id. }
  destruct (MVT_cor2 g g' 0 h ltac:(lra) Dv) as (c & E & Hc). assert (P : 0 <= g' c) by (unfold g'; specialize (Cv m c ltac:(lra)); lra).
  assert (G0 : g 0 = 0) by (unfold g; rewrite Rminus_0_r, Rplus_0_r; ring). assert (Gh : 0 <= g h) by nra. unfold g in Gh. lra.
Qed.
Lemma underestimates f C lim D n : convex (density f) -> cumulative f C -> 0 < D -> counts f lim D n ->
  exists e, last_edge lim D e /\ n <= C D - C e.
Proof.
  intros Cv K H N. pose proof sqrt2_bounds as S2. apply (counts_ind f lim (fun D n e => n <= C D - C e)) with (D := D) (n := n); auto; [intros; lra |].
  intros d s e P _ Q. rewrite term_density. pose proof (hadamard f C (mid d) ((d * sqrt 2 - d) / 2) Cv K ltac:(unfold mid; nra)) as X.
  replace (mid d - (d * sqrt 2 - d) / 2) with d in X by (unfold mid; field). replace (mid d + (d * sqrt 2 - d) / 2) with (d * sqrt 2) in X by (unfold mid; field). lra.
Qed.
(** Power laws. *)
Definition m_ : R := (1 + sqrt 2) / 2.
Lemma power_term c p D : 0 < D -> bin_term (power c p) D = c * Rpower m_ (p - 3) * (sqrt 2 - 1) * Rpower D (p - 2).
Proof.
  intros H. pose proof sqrt2_bounds as S2. rewrite term_density. unfold density, power. replace (mid D) with (m_ * D) by (unfold mid, m_; field).
  assert (M : 0 < m_) by (unfold m_; lra). assert (MD : 0 < m_ * D) by nra. rewrite <- (Rpower_pow 3) by exact MD. replace (INR 3) with 3 by (cbn; ring).
  replace (c * Rpower (m_ * D) p / Rpower (m_ * D) 3) with (c * Rpower (m_ * D) (p - 3)).
  2:{ unfold Rminus at 1. rewrite Rpower_plus, Rpower_Ropp. unfold Rdiv. ring. }
  rewrite <- Rpower_mult_distr by assumption. replace (p - 2) with (p - 3 + 1) by ring. rewrite (Rpower_plus (p - 3) 1 D), (Rpower_1 D) by exact H. ring.
Qed.
Definition factor (p : R) : R := Rpower m_ (p - 3) * (sqrt 2 - 1) * (2 - p) / (1 - Rpower (sqrt 2) (p - 2)).
Lemma ln_sqrt2 : 0 < ln (sqrt 2).
Proof. pose proof sqrt2_bounds. rewrite <- ln_1. apply ln_increasing; lra. Qed.
Lemma rho_case p : p <> 2 -> (p < 2 -> Rpower (sqrt 2) (p - 2) < 1) /\ (2 < p -> 1 < Rpower (sqrt 2) (p - 2)).
Proof.
  intros N. pose proof ln_sqrt2. unfold Rpower. split; intros H'.
  - rewrite <- exp_0. apply exp_increasing. nra.
  - rewrite <- exp_0. apply exp_increasing. nra.
Qed.
Lemma factor_pos p : p <> 2 -> 0 < factor p.
Proof.
  intros N. destruct (rho_case p N) as [A B]. pose proof sqrt2_bounds. unfold factor. assert (0 < Rpower m_ (p - 3)) by (unfold Rpower; apply exp_pos).
  destruct (Rtotal_order p 2) as [L | [-> | L]]; [| contradiction |].
  - specialize (A L). apply Rdiv_lt_0_compat; [apply Rmult_lt_0_compat; [apply Rmult_lt_0_compat |] |]; lra.
  - specialize (B L). replace (Rpower m_ (p - 3) * (sqrt 2 - 1) * (2 - p) / (1 - Rpower (sqrt 2) (p - 2))) with (Rpower m_ (p - 3) * (sqrt 2 - 1) * (p - 2) / (Rpower (sqrt 2) (p - 2) - 1)) by (field; lra).
    apply Rdiv_lt_0_compat; [apply Rmult_lt_0_compat; [apply Rmult_lt_0_compat |] |]; lra.
Qed.
Lemma power_law c p lim D n : p <> 2 -> 0 < D -> counts (power c p) lim D n ->
  exists e, last_edge lim D e /\ n = factor p * (c / (2 - p) * (Rpower D (p - 2) - Rpower e (p - 2))).
Proof.
  intros N H Q. pose proof sqrt2_bounds as S2. destruct (rho_case p N) as [A B]. assert (Ne : 1 - Rpower (sqrt 2) (p - 2) <> 0) by (destruct (Rtotal_order p 2) as [L | [E | L]]; [specialize (A L); lra | contradiction | specialize (B L); lra]).
  apply (counts_ind (power c p) lim (fun D n e => n = factor p * (c / (2 - p) * (Rpower D (p - 2) - Rpower e (p - 2))))) with (D := D) (n := n); auto; [intros; ring |].
  intros d s e P _ ->. rewrite power_term by exact P. rewrite <- (Rpower_mult_distr d (sqrt 2)) by lra. unfold factor. field. split; [lra | exact Ne].
Qed.
Lemma factor_0 : factor 0 = 32 * (sqrt 2 - 1) ^ 4 /\ 94 / 100 < factor 0 < 95 / 100.
Proof.
  pose proof sqrt2_bounds as S2. assert (Sq : sqrt 2 * sqrt 2 = 2) by (apply sqrt_sqrt; lra).
  assert (E : factor 0 = 32 * (sqrt 2 - 1) ^ 4).
  { unfold factor. replace (0 - 3) with (- INR 3) by (cbn; ring). replace (0 - 2) with (- INR 2) by (cbn; ring). rewrite !Rpower_Ropp, !Rpower_pow by (unfold m_; lra).
    replace (sqrt 2 ^ 2) with 2 by (cbn; lra). unfold m_. replace (/ ((1 + sqrt 2) / 2) ^ 3) with (8 * (sqrt 2 - 1) ^ 3).
    - field.
    - apply (Rmult_eq_reg_r (((1 + sqrt 2) / 2) ^ 3)); [| apply pow_nonzero; lra]. rewrite Rinv_l by (apply pow_nonzero; lra).
      replace (8 * (sqrt 2 - 1) ^ 3 * ((1 + sqrt 2) / 2) ^ 3) with (((sqrt 2 * sqrt 2) - 1) ^ 3) by field. rewrite Sq. ring. }
  split; [exact E |]. rewrite E. replace (32 * (sqrt 2 - 1) ^ 4) with (32 * ((sqrt 2 * sqrt 2) * (sqrt 2 * sqrt 2) - 4 * sqrt 2 * (sqrt 2 * sqrt 2) + 6 * (sqrt 2 * sqrt 2) - 4 * sqrt 2 + 1)) by ring. rewrite Sq.
  assert (1414213 / 1000000 < sqrt 2 < 1414214 / 1000000) by (split; nra). lra.
Qed.
(** Monotone. *)
Lemma falling f lim a b n m : (forall x, 0 < x -> 0 <= f x) -> decreasing_on (fun x => f x / x ^ 2) -> 0 < a <= b -> counts f lim a n -> counts f lim b m -> m <= n.
Proof.
  intros F Dc H [p A] [q B]. pose proof sqrt2_bounds as S2. apply (sum_more_fuel f lim p a n (p + q)) in A; [| lia]. apply (sum_more_fuel f lim q b m (p + q)) in B; [| lia].
  set (k := (p + q)%nat) in *. clearbody k. clear p q. revert a b n m H A B. induction k as [| k IH]; intros a b n m H A B.
  - cbn [R_to_CSFD] in *. destruct (Rlt_dec a lim); [discriminate |]. destruct (Rlt_dec b lim); [discriminate |]. injection A as <-. injection B as <-. lra.
  - assert (P : 0 <= n) by (apply (nonneg f lim a n); [lra | exact F | exists (S k); exact A]).
    cbn [R_to_CSFD] in *. destruct (Rlt_dec b lim) as [Lb | Lb]; [| injection B as <-; exact P].
    destruct (Rlt_dec a lim); [| lra]. destruct (R_to_CSFD f lim k (a * sqrt 2)) as [s |] eqn:E1; [| discriminate]. destruct (R_to_CSFD f lim k (b * sqrt 2)) as [t |] eqn:E2; [| discriminate].
    specialize (IH (a * sqrt 2) (b * sqrt 2) s t ltac:(split; nra) E1 E2). injection A as <-. injection B as <-.
    assert (T : forall x, 0 < x -> bin_term f x = f (mid x) / mid x ^ 2 * (2 * (sqrt 2 - 1) / (1 + sqrt 2))).
    { intros x Hx. rewrite term_density. unfold density. assert (M : mid x = x * (1 + sqrt 2) / 2) by (unfold mid; field). assert (Mp : 0 < mid x) by (rewrite M; nra).
      replace (x * sqrt 2 - x) with (mid x * (2 * (sqrt 2 - 1) / (1 + sqrt 2))) by (rewrite M; field; lra). field. split; lra. }
    rewrite !T by lra. assert (0 <= 2 * (sqrt 2 - 1) / (1 + sqrt 2)) by (apply Rmult_le_pos; [lra | left; apply Rinv_0_lt_compat; lra]).
    assert (f (mid b) / mid b ^ 2 <= f (mid a) / mid a ^ 2) by (apply Dc; unfold mid; nra). nra.
Qed.
Lemma negative f lim D : D < 0 -> D < lim -> endless f lim D.
Proof.
  intros H L fuel. pose proof sqrt2_bounds as S2. revert D H L. induction fuel as [| k IH]; intros D H L; cbn [R_to_CSFD]; destruct (Rlt_dec D lim); try lra; [reflexivity |].
  rewrite IH; [reflexivity | nra | nra].
Qed.
Lemma beyond f lim D : lim <= D -> counts f lim D 0.
Proof. intros H. exists O. cbn. destruct (Rlt_dec D lim); [lra | reflexivity]. Qed.
Lemma one_bin f lim D : D < lim -> lim <= D * sqrt 2 -> counts f lim D (bin_term f D).
Proof.
  intros H K. exists 1%nat. cbn [R_to_CSFD]. destruct (Rlt_dec D lim); [| lra]. destruct (Rlt_dec (D * sqrt 2) lim); [lra |]. f_equal. ring.
Qed.
Lemma rising : exists a b n m, 0 < a < b /\ b < 1 /\ counts (fun D => D ^ 3) 1 a n /\ counts (fun D => D ^ 3) 1 b m /\ n < m.
Proof.
  pose proof sqrt2_bounds as S2. assert (Sq : sqrt 2 * sqrt 2 = 2) by (apply sqrt_sqrt; lra).
  exists (8 / 10), (9 / 10). do 2 eexists. split; [lra |]. split; [lra |]. split; [apply one_bin; nra |]. split; [apply one_bin; nra |].
  rewrite !term_density. unfold density. set (x := mid (8 / 10)). set (y := mid (9 / 10)). assert (0 < x) by (unfold x, mid; nra). assert (0 < y) by (unfold y, mid; nra).
  replace (x ^ 3 / x ^ 3) with 1 by (field; lra). replace (y ^ 3 / y ^ 3) with 1 by (field; lra). lra.
Qed.
Definition above (lim D : R) : R := if Rlt_dec lim D then 1 else 0.
Lemma counted_beyond lim : 0 < lim -> exists D n, 0 < D < lim /\ counts (above lim) lim D n /\ 0 < n /\ forall x, x <= lim -> above lim x = 0.
Proof.
  intros H. pose proof sqrt2_bounds as S2. assert (Sq : sqrt 2 * sqrt 2 = 2) by (apply sqrt_sqrt; lra).
  exists (9 / 10 * lim). eexists. split; [lra |]. split; [apply one_bin; nra |]. split.
  - rewrite term_density. unfold density, above. assert (lim < mid (9 / 10 * lim)) by (unfold mid; nra). destruct (Rlt_dec lim (mid (9 / 10 * lim))); [| contradiction].
    apply Rmult_lt_0_compat; [apply Rdiv_lt_0_compat; [lra | apply pow_lt; lra] | nra].
  - intros x X. unfold above. destruct (Rlt_dec lim x); [lra | reflexivity].
Qed.
(** Arrays. *)
Lemma each_forall f lim fuel ds : forall ns, each f lim fuel ds = Some ns -> Forall2 (counts f lim) ds ns.
Proof.
  induction ds as [| d ds IH]; intros ns E; cbn [each] in E; [injection E as <-; constructor |].
  destruct (R_to_CSFD f lim fuel d) eqn:A; [| discriminate]. destruct (each f lim fuel ds); [| discriminate]. injection E as <-. constructor; [exists fuel; exact A | apply IH; reflexivity].
Qed.
Lemma forall_each f lim ds ns : Forall2 (counts f lim) ds ns -> exists fuel, forall k, (fuel <= k)%nat -> each f lim k ds = Some ns.
Proof.
  induction 1 as [| d n ds ns [p A] _ [q B]]; [exists O; reflexivity |]. exists (p + q)%nat. intros k Hk. cbn [each]. rewrite (sum_more_fuel f lim p d n k A) by lia. rewrite B by lia. reflexivity.
Qed.
Lemma arrays f lim ds a : array_counts f lim ds a <-> (ds = [] /\ a = Err ValueError) \/ (ds <> [] /\ exists ns, a = Ok ns /\ Forall2 (counts f lim) ds ns).
Proof.
  split.
  - intros [fuel E]. unfold R_to_CSFD_array in E. destruct ds as [| d ds]; [left; split; [reflexivity | congruence] |]. right. split; [discriminate |].
    destruct (each f lim fuel (d :: ds)) as [ns |] eqn:X; [| discriminate]. exists ns. split; [congruence | apply (each_forall _ _ fuel), X].
  - intros [[-> ->] | [N (ns & -> & F)]]; [exists O; reflexivity |]. destruct (forall_each _ _ _ _ F) as [fuel X]. exists fuel. unfold R_to_CSFD_array. destruct ds; [contradiction |]. rewrite X by lia. reflexivity.
Qed.
(** Saturation and equilibrium. *)
Lemma saturation_float d : d <> 0 -> csfd_geometric_saturation (Float d) = Ok (One (154 / 100 / d ^ 2)).
Proof. intros N. unfold csfd_geometric_saturation, inverse_square. destruct (Req_EM_T d 0); [contradiction |]. reflexivity. Qed.
Lemma saturation_floats l : Forall (fun d => d <> 0) l -> csfd_geometric_saturation (Floats l) = Ok (Many (map (fun d => Some (154 / 100 / d ^ 2)) l)).
Proof.
  intros F. unfold csfd_geometric_saturation, inverse_square. cbn [rbind times]. do 2 f_equal. rewrite map_map. induction F as [| d l N _ IH]; [reflexivity |]. cbn [map]. rewrite IH. destruct (Req_EM_T d 0); [contradiction | reflexivity].
Qed.
Lemma equilibrium_fraction d f n : csfd_geometric_saturation d = Ok n -> csfd_equilibrium d f = Ok (times f n).
Proof. intros E. unfold csfd_equilibrium. rewrite E. reflexivity. Qed.
Lemma saturation_zero : csfd_geometric_saturation (Float 0) = Err ZeroDivisionError.
Proof. unfold csfd_geometric_saturation, inverse_square. destruct (Req_EM_T 0 0); [reflexivity | contradiction]. Qed.
Lemma saturation_cover d : 0 < d -> 0 < 154 / 100 / d ^ 2 /\ (154 / 100 / d ^ 2) * (PI * (d / 2) ^ 2) = 154 / 400 * PI.
Proof. intros H. split; [apply Rdiv_lt_0_compat; [lra | apply pow_lt, H] |]. field. lra. Qed.
Lemma power_laws : exists K : R -> R, (forall p, p <> 2 -> 0 < K p) /\ 94 / 100 < K 0 < 95 / 100 /\
  forall c p lim D n, p <> 2 -> 0 < D -> counts (power c p) lim D n ->
    exists e, last_edge lim D e /\ n = K p * (c / (2 - p) * (Rpower D (p - 2) - Rpower e (p - 2))).
Proof. exact (ex_intro _ factor (conj factor_pos (conj (proj2 factor_0) power_law))). Qed.
Lemma power_cumulative c p : p <> 2 -> cumulative (power c p) (fun D => c / (2 - p) * Rpower D (p - 2)).
Proof.
  intros N D H. unfold density, power. replace (- (c * Rpower D p / D ^ 3)) with (c / (2 - p) * ((p - 2) * Rpower D (p - 2 - 1))).
  - apply (derivable_pt_lim_scal (fun D => Rpower D (p - 2))). apply derivable_pt_lim_power, H.
  - rewrite <- (Rpower_pow 3) by exact H. replace (INR 3) with 3 by (cbn; ring). replace (p - 2 - 1) with (p + Ropp 3) by ring. rewrite Rpower_plus, Rpower_Ropp. field. split; [| lra]. apply Rgt_not_eq, exp_pos.
Qed.
Lemma inverse_cube_density x : 0 < x -> density (power 1 0) x = / x ^ 3.
Proof. intros H. unfold density, power. rewrite Rpower_O by exact H. unfold Rdiv. ring. Qed.
Lemma flat_decreasing : decreasing_on (density (power 1 0)).
Proof.
  intros a b H. rewrite !inverse_cube_density by lra. apply Rinv_le_contravar; [apply pow_lt; lra | apply pow_incr; lra].
Qed.
Lemma flat_convex : convex (density (power 1 0)).
Proof.
  intros m h H. rewrite !inverse_cube_density by lra. set (a := m - h). set (b := m + h). assert (0 < a) by (unfold a; lra). assert (0 < b) by (unfold b; lra). replace m with ((a + b) / 2) by (unfold a, b; lra). clearbody a b.
  assert (P1 : 0 < a ^ 3) by (apply pow_lt; lra). assert (P2 : 0 < b ^ 3) by (apply pow_lt; lra). assert (P3 : 0 < ((a + b) / 2) ^ 3) by (apply pow_lt; lra).
  apply (Rmult_le_reg_r (a ^ 3 * b ^ 3 * ((a + b) / 2) ^ 3)); [apply Rmult_lt_0_compat; [apply Rmult_lt_0_compat |]; assumption |].
  replace (2 * / ((a + b) / 2) ^ 3 * (a ^ 3 * b ^ 3 * ((a + b) / 2) ^ 3)) with (2 * (a ^ 3 * b ^ 3)) by (field; lra).
  replace ((/ a ^ 3 + / b ^ 3) * (a ^ 3 * b ^ 3 * ((a + b) / 2) ^ 3)) with ((a ^ 3 + b ^ 3) * ((a + b) / 2) ^ 3) by (field; lra).
  assert (Q1 : a * b <= ((a + b) / 2) ^ 2) by (pose proof (pow2_ge_0 (a - b)); lra). set (g := (a + b) / 2) in *. assert (G : 0 < g) by (unfold g; lra).
  assert (C3 : 2 * g ^ 3 <= a ^ 3 + b ^ 3). { unfold g. assert (0 <= (a + b) * (a - b) ^ 2) by (apply Rmult_le_pos; [lra | apply pow2_ge_0]). replace (a ^ 3 + b ^ 3) with (2 * ((a + b) / 2) ^ 3 + 3 / 4 * ((a + b) * (a - b) ^ 2)) by field. lra. }
  assert (A3 : a ^ 3 * b ^ 3 <= g ^ 3 * g ^ 3). { replace (a ^ 3 * b ^ 3) with ((a * b) ^ 3) by ring. replace (g ^ 3 * g ^ 3) with ((g ^ 2) ^ 3) by ring. apply pow_incr. split; [apply Rmult_le_pos; lra | exact Q1]. }
  assert (0 < g ^ 3) by (apply pow_lt; lra). nra.
Qed.
Lemma square_falls : (forall x, 0 < x -> 0 <= x ^ 2) /\ decreasing_on (fun x => x ^ 2 / x ^ 2).
Proof.
  split; [intros x _; apply pow2_ge_0 |]. intros a b H. replace (b ^ 2 / b ^ 2) with 1 by (field; lra). replace (a ^ 2 / a ^ 2) with 1 by (field; lra). lra.
Qed.
Lemma limit_passed lim : 0 < lim -> exists f D n, 0 < D < lim /\ counts f lim D n /\ 0 < n /\ forall x, x <= lim -> f x = 0.
Proof. intros H. exists (above lim). exact (counted_beyond lim H). Qed.
Lemma equilibrium_float d f : d <> 0 -> csfd_equilibrium (Float d) f = Ok (One (f * (154 / 100 / d ^ 2))).
Proof. intros N. rewrite (equilibrium_fraction _ f _ (saturation_float d N)). reflexivity. Qed.
Lemma equilibrium_floats l f : Forall (fun d => d <> 0) l -> csfd_equilibrium (Floats l) f = Ok (Many (map (fun d => Some (f * (154 / 100 / d ^ 2))) l)).
Proof. intros N. rewrite (equilibrium_fraction _ f _ (saturation_floats l N)). cbn [times]. rewrite map_map. reflexivity. Qed.
