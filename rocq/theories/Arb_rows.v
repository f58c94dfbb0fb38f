From Coq Require Import Reals ZArith List Lra Lia Psatz.
From Verif Require Import Common Hires_model Hires_rings Hires_grid Arb_model Arb_spec Arb_geom Arb_grid.
Import ListNotations.
Open Scope R_scope.

Lemma ceil_up x : x <= IZR (ceil x).
Proof. unfold ceil. rewrite opp_IZR. destruct (base_Int_part (- x)). lra. Qed.
Lemma round_0 : round 0 = 0%Z.
Proof.
  unfold round. assert (E : Int_part 0 = 0%Z).
  { unfold Int_part. rewrite <- (tech_up 0 1); [reflexivity|lra|lra]. }
  rewrite E. destruct (Rlt_dec _ _); [reflexivity|]. exfalso. apply n. lra.
Qed.

Section G.
Variable delta : R.
Hypothesis DP : 0 < delta.
Hypothesis N8 : (8 <= number delta)%Z.
Let rd := round_to (decimals delta).

Lemma scale_big : 2 * PI / delta <= powerRZ 10 (decimals delta).
Proof.
  pose proof PI_lo. rewrite powerRZ_Rpower by lra. unfold Rpower.
  assert (P : 0 < 2 * PI / delta) by (apply Rdiv_lt_0_compat; lra).
  assert (L : 0 < ln 10) by (rewrite <- ln_1; apply ln_increasing; lra).
  rewrite <- (exp_ln (2 * PI / delta)) at 1 by exact P.
  assert (X : ln (2 * PI / delta) <= IZR (decimals delta) * ln 10).
  { pose proof (ceil_up (ln (2 * PI / delta) / ln 10)) as C. fold (decimals delta) in C.
    replace (ln (2 * PI / delta)) with (ln (2 * PI / delta) / ln 10 * ln 10) at 1 by (field; lra). apply Rmult_le_compat_r; lra. }
  destruct X as [X|X]; [left; apply exp_increasing; exact X|right; rewrite X; reflexivity].
Qed.
Lemma rd_near x : Rabs (rd x - x) <= 0.08 * delta.
Proof.
  pose proof scale_big as S0. pose proof PI_lo. set (p := powerRZ 10 (decimals delta)) in *.
  assert (P : 0 < 2 * PI / delta) by (apply Rdiv_lt_0_compat; lra).
  pose proof (round_near (x * p)) as Q. unfold rd, round_to. fold p.
  assert (B : 6.25 <= p * delta).
  { replace 6.25 with (6.25 / delta * delta) by (field; lra). apply Rmult_le_compat_r; [lra|]. eapply Rle_trans; [|exact S0].
    apply Rmult_le_compat_r; [apply Rlt_le, Rinv_0_lt_compat; exact DP|lra]. }
  assert (PP : 0 < p) by lra.
  replace (IZR (round (x * p)) / p - x) with (- (x * p - IZR (round (x * p))) / p) by (field; lra).
  unfold Rdiv. rewrite Rabs_mult, Rabs_Ropp, (Rabs_right (/ p)) by (apply Rle_ge, Rlt_le, Rinv_0_lt_compat; exact PP).
  apply Rmult_le_reg_r with p; [exact PP|]. rewrite Rmult_assoc, Rinv_l, Rmult_1_r by lra. eapply Rle_trans; [exact Q|]. lra.
Qed.
Lemma rd_0 : rd 0 = 0.
Proof. unfold rd, round_to. rewrite Rmult_0_l, round_0. unfold Rdiv. ring. Qed.
Lemma rd_lt a b : 0.16 * delta < b - a -> rd a < rd b.
Proof.
  intro H. pose proof (rd_near a) as A. pose proof (rd_near b) as B. unfold Rabs in A, B.
  destruct (Rcase_abs (rd a - a)), (Rcase_abs (rd b - b)); lra.
Qed.

Definition mirror (u : vec) : vec := let '(x, y, z) := u in (y, x, z).
Definition round_vec (u : vec) : vec := let '(x, y, z) := u in (rd x, rd y, rd z).
(** The point of the array for a key. *)
Definition placed (q : nat * nat) : vec := round_vec (mirror (sph2cart (at_key delta q))).

Lemma mirror_dist u v : dist (mirror u) (mirror v) = dist u v.
Proof. destruct u as [[a b] c], v as [[x y] z]. unfold mirror, dist. f_equal. ring. Qed.
Lemma round_vec_near u : dist (round_vec u) u <= 0.139 * delta.
Proof.
  destruct u as [[x y] z]. apply dist_le; [lra|]. unfold round_vec, vsub, norm2.
  assert (Q : forall t, (rd t - t) ^ 2 <= (0.08 * delta) ^ 2).
  { intro t. rewrite <- (pow2_abs (rd t - t)). apply pow_incr. split; [apply Rabs_pos|apply rd_near]. }
  pose proof (Q x). pose proof (Q y). pose proof (Q z). nra.
Qed.

Lemma first_order : rd 0 < rd (sin (T delta 0)) /\ rd (sin (T delta 0)) < rd (cos (T delta 0)).
Proof.
  pose proof (rings_pos delta DP N8) as RP. pose proof (sinT delta DP N8 0 ltac:(lia)) as A.
  destruct (M_spec delta DP N8) as [M3 [B C]]. destruct (d_bounds delta DP N8) as (D1 & _ & _ & D2). pose proof PI_lo. pose proof PI_hi.
  set (M := IZR (mtheta delta)) in *. set (d := sqrt (area delta)) in *. assert (MP : 0 < M) by lra.
  split; apply rd_lt.
  - assert (d <= 1.203 * 3.2 * / M).
    { apply Rmult_le_reg_r with M; [exact MP|]. rewrite Rmult_assoc, Rinv_l by lra. lra. }
    lra.
  - assert (T0 : 0 < T delta 0 <= PI / 6).
    { unfold T. fold M. cbn [INR]. split; [apply Rdiv_lt_0_compat; lra|].
      apply Rmult_le_reg_r with M; [exact MP|]. unfold Rdiv at 1. rewrite Rmult_assoc, Rinv_l by lra.
      assert (PI / 6 * 3 <= PI / 6 * M) by (apply Rmult_le_compat_l; lra). lra. }
    assert (S0 : sin (T delta 0) <= 1 / 2) by (rewrite <- sin_PI6; apply sin_incr_1; lra).
    assert (C0 : sqrt 3 / 2 <= cos (T delta 0)) by (rewrite <- cos_PI6; apply cos_decr_1; lra).
    assert (1.7 <= sqrt 3). { apply Rsqr_incr_0_var; [unfold Rsqr; rewrite sqrt_sqrt by lra; lra|apply sqrt_pos]. }
    lra.
Qed.

Lemma lex_lt x y l m : x < y -> lex (x :: l) (y :: m) = Lt.
Proof. intro H. cbn. destruct (total_order_T x y) as [[?|?]|?]; [reflexivity|lra|lra]. Qed.
Lemma lex_gt x y l m : y < x -> lex (x :: l) (y :: m) = Gt.
Proof. intro H. cbn. destruct (total_order_T x y) as [[?|?]|?]; [lra|lra|reflexivity]. Qed.
Lemma unique3 x y z a b c : y < x -> x < z -> unique [x :: a; y :: b; z :: c] = [y :: b; x :: a; z :: c].
Proof.
  intros A B. unfold unique. cbn [fold_right]. unfold insert_row at 3.
  unfold insert_row at 2. rewrite (lex_lt y z) by lra.
  unfold insert_row. rewrite (lex_gt x y) by lra. rewrite (lex_lt x z) by lra. reflexivity.
Qed.
Lemma columns_map {A} (f g h : A -> R) l : columns (map f l) (map g l) (map h l) = map (fun q => (f q, g q, h q)) l.
Proof. induction l as [|q l IH]; cbn; [reflexivity|]. rewrite IH. reflexivity. Qed.

Lemma distribute_eq : distribute_points delta =
  Some [map (fun q => fst (fst (placed q))) (keys delta); map (fun q => snd (fst (placed q))) (keys delta); map (fun q => snd (placed q)) (keys delta)].
Proof.
  unfold distribute_points. rewrite (angles_eq delta DP N8). f_equal.
  destruct (keys_ends delta DP N8) as (mid & j & K). rewrite K.
  unfold coordinate_rows. cbn [map]. destruct first_order as [A B].
  assert (F0 : F delta 0 0 = 0) by (unfold F; cbn [INR]; unfold Rdiv; ring).
  set (ks := (mid ++ _)%list).
  assert (E : sph2cart (at_key delta (0%nat, 0%nat)) = (sin (T delta 0), 0, cos (T delta 0))).
  { unfold sph2cart, at_key. cbn [fst snd]. rewrite F0, cos_0, sin_0. f_equal. f_equal; ring. }
  rewrite unique3.
  - f_equal; [|f_equal; [|f_equal]]; cbn [map]; f_equal; unfold placed; try (rewrite E; reflexivity); rewrite !map_map; apply map_ext; intro q;
      destruct (sph2cart (at_key delta q)) as [[? ?] ?]; reflexivity.
  - rewrite E. exact A.
  - rewrite E. exact B.
Qed.

Lemma set_last_app v l x : set_last v (l ++ [x])%list = (l ++ [v])%list.
Proof. induction l as [|y l IH]; [reflexivity|]. cbn [List.app]. destruct l as [|z l]; [reflexivity|]. cbn [List.app set_last] in *. rewrite IH. reflexivity. Qed.
Lemma points_eq mid j : keys delta = ((0%nat, 0%nat) :: mid ++ [((rings delta - 1)%nat, j)])%list ->
  (match distribute_points delta with
   | None => Err TypeError
   | Some [a; b; c] => Ok (set_last (0, 0, -1) (set_first (0, 0, 1) (columns a b c)))
   | Some _ => Err ValueError
   end) = Ok ((0, 0, 1) :: map placed mid ++ [(0, 0, -1)])%list.
Proof.
  intro K. rewrite distribute_eq, columns_map. do 2 f_equal.
  rewrite K. cbn [map set_first]. rewrite map_app. cbn [map]. rewrite app_comm_cons, set_last_app. cbn [List.app]. do 2 f_equal.
Qed.
End G.
