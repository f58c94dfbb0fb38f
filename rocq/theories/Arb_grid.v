From Coq Require Import Reals ZArith List Lra Lia Psatz.
From Verif Require Import Common Hires_model Hires_rings Hires_grid Dem_files Arb_model Arb_spec Arb_geom.
Import ListNotations.
Open Scope R_scope.

Section G.
Variable delta : R.
Hypothesis DP : 0 < delta.
Hypothesis N8 : (8 <= number delta)%Z.
Let n := IZR (number delta).
Let d := sqrt (area delta).
Let M := IZR (mtheta delta).

Lemma n_spec : n <= 4 * PI / delta ^ 2 < n + 1 /\ 8 <= n.
Proof.
  unfold n, number in *. destruct (base_Int_part (4 * PI / delta ^ 2)) as [A B]. split; [lra|]. apply IZR_le. exact N8.
Qed.
Lemma d_sq : d ^ 2 = area delta /\ 0 < d.
Proof.
  destruct n_spec as [_ E]. pose proof PI_lo.
  assert (0 < area delta) by (unfold area; apply Rdiv_lt_0_compat; [lra|fold n; lra]).
  split; [unfold d; simpl; rewrite Rmult_1_r; apply sqrt_sqrt; lra|unfold d; apply sqrt_lt_R0; assumption].
Qed.
Lemma d_bounds : delta <= d /\ d ^ 2 <= 9 / 8 * delta ^ 2 /\ d ^ 2 <= PI / 2 /\ d <= 1.265.
Proof.
  destruct n_spec as [[A B] E]. destruct d_sq as [Q P]. pose proof PI_lo. pose proof PI_hi.
  assert (D2 : 0 < delta ^ 2) by (apply pow_lt; exact DP).
  assert (A' : n * delta ^ 2 <= 4 * PI).
  { replace (4 * PI) with (4 * PI / delta ^ 2 * delta ^ 2) by (field; lra). apply Rmult_le_compat_r; lra. }
  assert (B' : 4 * PI < (n + 1) * delta ^ 2).
  { replace (4 * PI) with (4 * PI / delta ^ 2 * delta ^ 2) by (field; lra). apply Rmult_lt_compat_r; lra. }
  assert (Q' : d ^ 2 * n = 4 * PI) by (rewrite Q; unfold area; fold n; field; lra).
  assert (X1 : delta ^ 2 <= d ^ 2) by nra.
  assert (X2 : d ^ 2 <= 9 / 8 * delta ^ 2) by nra.
  assert (X3 : d ^ 2 <= PI / 2) by nra.
  split; [|split; [exact X2|split; [exact X3|]]].
  - apply Rsqr_incr_0_var; [unfold Rsqr; nra|lra].
  - apply Rsqr_incr_0_var; [unfold Rsqr; nra|lra].
Qed.
Lemma d_delta : d <= 1.061 * delta.
Proof. destruct d_bounds as (_ & A & _). apply Rsqr_incr_0_var; [unfold Rsqr; nra|lra]. Qed.
Lemma M_spec : 3 <= M /\ 0.797 * PI <= M * d <= 1.203 * PI.
Proof.
  destruct d_sq as [Q P]. destruct d_bounds as (_ & _ & C & E). pose proof PI_lo. pose proof PI_hi.
  pose proof (round_near (PI / d)) as Rn. fold (mtheta delta) in Rn.
  assert (Rn' : Rabs (PI / d - M) <= 1 / 2) by exact Rn.
  assert (X : - (1 / 2) <= PI / d - M <= 1 / 2) by (unfold Rabs in Rn'; destruct (Rcase_abs _); lra).
  assert (Y : PI / d * d = PI) by (field; lra).
  assert (Z1 : 2.5 < PI / d).
  { apply Rmult_lt_reg_r with d; [exact P|]. rewrite Y. apply Rsqr_incrst_0; [unfold Rsqr; nra|nra|lra]. }
  assert (Z2 : 2 < M) by lra. split.
  - unfold M in *. apply (lt_IZR 2) in Z2. apply (IZR_le 3). lia.
  - split; nra.
Qed.
Lemma M_pos : 0 < M. Proof. destruct M_spec; lra. Qed.
Lemma m_nat : INR (Z.to_nat (mtheta delta)) = M.
Proof.
  pose proof M_pos. rewrite INR_IZR_INZ, Z2Nat.id; [reflexivity|]. apply le_IZR. fold M. lra.
Qed.
Lemma dtheta_bounds : 0.83 * d <= dtheta delta <= 1.2548 * d /\ dtheta delta * M = PI.
Proof.
  destruct d_sq as [Q P]. destruct M_spec as [A [B C]]. pose proof M_pos as MP. pose proof PI_lo.
  assert (E : dtheta delta * M = PI) by (unfold dtheta; fold M; field; lra). split; [|exact E].
  split; apply Rmult_le_reg_r with M; try exact MP; rewrite E; nra.
Qed.
Lemma dphi_eq : dphi delta = d ^ 2 * M / PI.
Proof. pose proof M_pos. pose proof PI_lo. destruct d_sq as [Q _]. unfold dphi, dtheta. fold M. rewrite Q. field. lra. Qed.
Lemma dphi_bounds : 0.797 * d <= dphi delta <= 1.203 * d.
Proof.
  destruct d_sq as [Q P]. destruct M_spec as [A [B C]]. pose proof PI_lo. rewrite dphi_eq.
  replace (d ^ 2 * M / PI) with (d * (M * d / PI)) by (field; lra).
  assert (0.797 <= M * d / PI <= 1.203).
  { split; apply Rmult_le_reg_r with PI; try lra; unfold Rdiv; rewrite Rmult_assoc, Rinv_l by lra; lra. }
  split; nra.
Qed.

(** The angles of the grid. *)
Definition T (k : nat) : R := PI * (INR k + 0.5) / M.
Definition mp (k : nat) : nat := Z.to_nat (mphi delta (T k)).
Definition F (k j : nat) : R := 2 * PI * INR j / IZR (mphi delta (T k)).
Definition rings : nat := Z.to_nat (mtheta delta).
Definition ring (k : nat) : list (nat * nat) := map (fun j => (k, j)) (seq 0 (mp k)).
Definition keys : list (nat * nat) := List.concat (map ring (seq 0 rings)).
Definition at_key (q : nat * nat) : R * R := (T (fst q), F (fst q) (snd q)).

Lemma T_eq k : T k = dtheta delta * (INR k + / 2).
Proof. unfold T, dtheta. fold M. replace 0.5 with (/ 2) by lra. field. pose proof M_pos. lra. Qed.
Lemma mphi_pos k : (1 <= mphi delta (T k))%Z.
Proof. unfold mphi. lia. Qed.
Lemma mp_INR k : INR (mp k) = IZR (mphi delta (T k)).
Proof. unfold mp. rewrite INR_IZR_INZ, Z2Nat.id; [reflexivity|]. pose proof (mphi_pos k). lia. Qed.
Lemma mp_pos k : (1 <= mp k)%nat.
Proof. unfold mp. pose proof (mphi_pos k). lia. Qed.
Lemma F_eq k j : F k j = 2 * PI * INR j / INR (mp k).
Proof. unfold F. rewrite mp_INR. reflexivity. Qed.
Lemma T_range k : (k < rings)%nat -> dtheta delta / 2 <= T k <= PI - dtheta delta / 2.
Proof.
  intro K. rewrite T_eq. destruct dtheta_bounds as [[A B] C]. destruct d_sq as [_ P].
  assert (INR k + 1 <= M). { rewrite <- m_nat. fold rings. rewrite <- S_INR. apply le_INR. lia. }
  pose proof (pos_INR k). split; nra.
Qed.
Lemma F_range k j : (j < mp k)%nat -> 0 <= F k j /\ F k j + 2 * PI / INR (mp k) <= 2 * PI.
Proof.
  intro J. rewrite F_eq. pose proof PI_lo.
  assert (P : 0 < INR (mp k)) by (apply (lt_INR 0); lia).
  assert (Q : INR j + 1 <= INR (mp k)) by (rewrite <- S_INR; apply le_INR; lia). pose proof (pos_INR j).
  split.
  - apply Rmult_le_pos; [|apply Rlt_le, Rinv_0_lt_compat; exact P]. apply Rmult_le_pos; lra.
  - replace (2 * PI * INR j / INR (mp k) + 2 * PI / INR (mp k)) with (2 * PI * (INR j + 1) / INR (mp k)) by (field; lra).
    apply Rmult_le_reg_r with (INR (mp k)); [exact P|]. unfold Rdiv. rewrite Rmult_assoc, Rinv_l by lra. nra.
Qed.
Lemma sinT k : (k < rings)%nat -> / M <= sin (T k).
Proof.
  intro K. destruct (T_range k K) as [A B]. destruct dtheta_bounds as [_ C]. pose proof M_pos. pose proof PI_lo.
  assert (E : / M = 2 / PI * (dtheta delta / 2)) by (rewrite <- C; field; split; [lra|intro Z; rewrite Z in C; lra]).
  assert (D0 : 0 < dtheta delta) by (unfold dtheta; fold M; apply Rdiv_lt_0_compat; lra).
  assert (P2 : 0 <= 2 / PI) by (apply Rlt_le, Rdiv_lt_0_compat; lra).
  rewrite E. destruct (Rle_dec (T k) (PI / 2)) as [L|L].
  - eapply Rle_trans; [|apply jordan; lra]. apply Rmult_le_compat_l; lra.
  - replace (sin (T k)) with (sin (PI - T k)) by (rewrite sin_minus, sin_PI, cos_PI; ring).
    eapply Rle_trans; [|apply jordan; lra]. apply Rmult_le_compat_l; lra.
Qed.

Lemma filter_all {A} (f : A -> bool) l : (forall x, In x l -> f x = true) -> filter f l = l.
Proof. induction l as [|x l IH]; intro H; cbn; [reflexivity|]. rewrite H by (left; reflexivity). rewrite IH; [reflexivity|]. intros; apply H; right; assumption. Qed.
Lemma in_range_true lo hi x : lo <= x < hi -> in_range lo hi x = true.
Proof. intros [A B]. unfold in_range. destruct (Rle_dec lo x); [|contradiction]. destruct (Rlt_dec x hi); [reflexivity|contradiction]. Qed.
Lemma thetas : thetavals delta = map T (seq 0 rings).
Proof.
  unfold thetavals. apply filter_all. intros x I. apply in_map_iff in I as (k & <- & K). apply in_seq in K.
  assert (K' : (k < rings)%nat) by lia.
  destruct (T_range k K') as [A B]. fold M. fold (T k). destruct dtheta_bounds as [[C _] _]. destruct d_sq as [_ P].
  apply in_range_true. split; [replace (-90 * (PI / 180) + PI / 2) with 0 by field; lra|replace (90 * (PI / 180) + PI / 2) with PI by field; lra].
Qed.
Lemma phis k : phivals delta (T k) = map (F k) (seq 0 (mp k)).
Proof.
  unfold phivals. apply filter_all. intros x I. apply in_map_iff in I as (j & <- & J). apply in_seq in J.
  assert (J' : (j < mp k)%nat) by lia.
  destruct (F_range k j J') as [A B]. fold (F k j).
  assert (0 < 2 * PI / INR (mp k)). { apply Rdiv_lt_0_compat. pose proof PI_lo; lra. apply (lt_INR 0). pose proof (mp_pos k); lia. }
  apply in_range_true. split; [replace (-180 * (PI / 180) + PI) with 0 by field; lra|replace (180 * (PI / 180) + PI) with (2 * PI) by field; lra].
Qed.
Lemma concat_map_map {A B} (f : A -> B) (l : list (list A)) : List.concat (map (map f) l) = map f (List.concat l).
Proof. symmetry. apply concat_map. Qed.
Lemma rings_pos : (3 <= rings)%nat.
Proof. destruct M_spec as [A _]. unfold rings. apply le_IZR in A. lia. Qed.
Lemma ring_last k : exists l j, ring k = (l ++ [(k, j)])%list /\ (j < mp k)%nat.
Proof.
  pose proof (mp_pos k). unfold ring. destruct (mp k) as [|q] eqn:E; [lia|]. exists (map (fun j => (k, j)) (seq 0 q)), q.
  split; [|lia]. rewrite seq_S, map_app. reflexivity.
Qed.
Lemma keys_ends : exists mid j, keys = ((0%nat, 0%nat) :: mid ++ [((rings - 1)%nat, j)])%list.
Proof.
  pose proof rings_pos as RP.
  assert (E0 : seq 0 rings = (0%nat :: seq 1 (rings - 2) ++ [(rings - 1)%nat])%list).
  { replace rings with (S (S (rings - 2))) at 1 by lia. rewrite seq_S. cbn [seq List.app Nat.add]. do 3 f_equal. lia. }
  unfold keys. rewrite E0. cbn [map List.concat]. rewrite map_app, concat_app.
  destruct (ring_last (rings - 1)%nat) as (l & j & E & J). cbn [map List.concat]. rewrite E, app_nil_r.
  assert (E1 : ring 0 = ((0%nat, 0%nat) :: map (fun j0 => (0%nat, j0)) (seq 1 (mp 0 - 1)))%list).
  { unfold ring. pose proof (mp_pos 0). replace (mp 0) with (S (mp 0 - 1)) at 1 by lia. reflexivity. }
  rewrite E1.
  exists ((map (fun j0 : nat => (0%nat, j0)) (seq 1 (mp 0 - 1)) ++ List.concat (map ring (seq 1 (rings - 2)))) ++ l)%list, j.
  cbn [List.app]. rewrite <- !app_assoc. reflexivity.
Qed.
Lemma in_keys k j : In (k, j) keys <-> (k < rings)%nat /\ (j < mp k)%nat.
Proof.
  unfold keys. rewrite in_concat. split.
  - intros (l & L & I). apply in_map_iff in L as (k' & <- & K). apply in_seq in K. unfold ring in I.
    apply in_map_iff in I as (j' & E & J). apply in_seq in J. inversion E; subst. lia.
  - intros [K J]. exists (ring k). split; [apply in_map; apply in_seq; lia|]. unfold ring. apply in_map_iff. exists j. split; [reflexivity|apply in_seq; lia].
Qed.
Lemma NoDup_keys : NoDup keys.
Proof.
  assert (G : forall q s, NoDup (List.concat (map ring (seq s q)))).
  { induction q as [|q IH]; intro s; cbn; [constructor|]. apply NoDup_app'; [|apply IH|].
    - unfold ring. apply NoDup_map_inj; [intros x y _ _ E; inversion E; reflexivity|apply seq_NoDup].
    - intros [k j] I1 I2. unfold ring in I1. apply in_map_iff in I1 as (j' & E & _). inversion E; subst.
      apply in_concat in I2 as (l & L & I2). apply in_map_iff in L as (k' & <- & K). apply in_seq in K.
      unfold ring in I2. apply in_map_iff in I2 as (j'' & E' & _). inversion E'; subst. lia. }
  apply G.
Qed.
Lemma angles_eq : angles delta = Some (map at_key keys).
Proof.
  unfold angles. destruct (Z_lt_dec (number delta) 1); [lia|].
  assert (E : List.concat (map (fun theta => map (fun phi => (theta, phi)) (phivals delta theta)) (thetavals delta)) = map at_key keys).
  { unfold keys. rewrite <- concat_map_map, thetas, !map_map. f_equal. apply map_ext. intro k. rewrite phis. unfold ring. rewrite !map_map. reflexivity. }
  rewrite E. destruct keys_ends as (mid & j & K). rewrite K. reflexivity.
Qed.
End G.
