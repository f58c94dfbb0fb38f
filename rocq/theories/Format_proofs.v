(** Proofs about printed quantities (C107). *)
From Coq Require Import Reals List ZArith Lra Lia.
From Verif Require Import Common Format_model Format_spec.
Import ListNotations.
Open Scope string_scope.
Open Scope R_scope.

Lemma abs_in x a : Rabs x <= a -> - a <= x <= a.
Proof. unfold Rabs. destruct (Rcase_abs x); lra. Qed.

(* ------------------------------ rounding ------------------------------ *)
Lemma half_even_near x : Rabs (x - IZR (half_even x)) <= 1 / 2.
Proof.
  unfold half_even. destruct (base_Int_part x) as [A B]. set (n := Int_part x) in *. clearbody n.
  destruct (Rlt_dec (x - IZR n) (1 / 2)) as [L|L]; [apply Rabs_le; lra|].
  destruct (Rlt_dec (1 / 2) (x - IZR n)) as [G|G]; [rewrite plus_IZR; apply Rabs_le; lra|].
  destruct (Z.even n); [|rewrite plus_IZR]; apply Rabs_le; lra.
Qed.
Lemma half_even_tie x : Rabs (x - IZR (half_even x)) = 1 / 2 -> Z.even (half_even x) = true.
Proof.
  unfold half_even. destruct (base_Int_part x) as [A B]. set (n := Int_part x) in *. clearbody n.
  destruct (Rlt_dec (x - IZR n) (1 / 2)) as [L|L].
  { rewrite Rabs_right by lra. lra. }
  destruct (Rlt_dec (1 / 2) (x - IZR n)) as [G|G].
  { rewrite plus_IZR. rewrite Rabs_left by lra. lra. }
  destruct (Z.even n) eqn:E; [intros _; exact E|intros _]. rewrite Z.even_add, E. reflexivity.
Qed.
Lemma half_even_unique x n : Rabs (x - IZR n) <= 1 / 2 -> (Rabs (x - IZR n) = 1 / 2 -> Z.even n = true) -> half_even x = n.
Proof.
  intros H T. pose proof (half_even_near x) as H'. pose proof (half_even_tie x) as T'. set (k := half_even x) in *. clearbody k.
  apply abs_in in H. apply abs_in in H'.
  assert (D : -1 <= IZR k - IZR n <= 1) by lra. rewrite <- minus_IZR in D.
  assert (-1 <= k - n <= 1)%Z as DZ by (destruct D as [D1 D2]; apply le_IZR in D1; apply le_IZR in D2; lia).
  destruct (Z.eq_dec k n) as [->|N]; [reflexivity|exfalso].
  assert (C : k = (n + 1)%Z \/ k = (n - 1)%Z) by lia. destruct C as [-> | ->].
  - rewrite plus_IZR in *. rewrite Z.even_add in T'.
    assert (Z.even n = true) as E by (apply T; rewrite Rabs_right by lra; lra).
    assert (Bool.eqb (Z.even n) (Z.even 1) = true) as E' by (apply T'; rewrite Rabs_left by lra; lra). rewrite E in E'. discriminate.
  - rewrite minus_IZR in *. rewrite Z.even_sub in T'.
    assert (Z.even n = true) as E by (apply T; rewrite Rabs_left by lra; lra).
    assert (Bool.eqb (Z.even n) (Z.even 1) = true) as E' by (apply T'; rewrite Rabs_right by lra; lra). rewrite E in E'. discriminate.
Qed.

Lemma half_even_mono x y : x <= y -> (half_even x <= half_even y)%Z.
Proof.
  intros H. destruct (Z_le_gt_dec (half_even x) (half_even y)) as [L|G]; [exact L|exfalso].
  pose proof (abs_in _ _ (half_even_near x)) as A. pose proof (abs_in _ _ (half_even_near y)) as B.
  assert (IZR (half_even y) + 1 <= IZR (half_even x)) as C by (rewrite <- plus_IZR; apply IZR_le; lia).
  assert (x = y) as -> by lra. lia.
Qed.
Lemma half_even_IZR n : half_even (IZR n) = n.
Proof. apply half_even_unique; rewrite Rminus_diag_eq, Rabs_R0 by reflexivity; lra. Qed.
Lemma half_even_opp x : half_even (- x) = (- half_even x)%Z.
Proof.
  apply half_even_unique; rewrite opp_IZR; replace (- x - - IZR (half_even x)) with (- (x - IZR (half_even x))) by ring; rewrite Rabs_Ropp.
  - apply half_even_near.
  - intros H. rewrite Z.even_opp. now apply half_even_tie.
Qed.
Lemma grid_near g x : 0 < g -> Rabs (on_grid g x - x) <= g / 2.
Proof.
  intros G. unfold on_grid. pose proof (abs_in _ _ (half_even_near (x / g))) as A.
  assert (E : x = x / g * g) by (field; lra). set (q := x / g) in *. clearbody q. set (k := IZR (half_even q)) in *. clearbody k. rewrite E at 1 2 || rewrite E.
  replace (k * g - q * g) with ((k - q) * g) by ring.
  rewrite Rabs_mult, (Rabs_right g) by lra. assert (Rabs (k - q) <= 1 / 2) by (apply Rabs_le; lra).
  apply Rle_trans with (1 / 2 * g); [apply Rmult_le_compat_r; lra|lra].
Qed.
Lemma grid_mono g x y : 0 < g -> x <= y -> on_grid g x <= on_grid g y.
Proof.
  intros G H. unfold on_grid. apply Rmult_le_compat_r; [lra|]. apply IZR_le. apply half_even_mono.
  unfold Rdiv. apply Rmult_le_compat_r; [left; now apply Rinv_0_lt_compat|exact H].
Qed.
Lemma grid_fixed g x n : 0 < g -> x = IZR n * g -> on_grid g x = x.
Proof.
  intros G ->. unfold on_grid. replace (IZR n * g / g) with (IZR n) by (field; lra). now rewrite half_even_IZR.
Qed.
Lemma grid_opp g x : on_grid g (- x) = - on_grid g x.
Proof.
  unfold on_grid. replace (- x / g) with (- (x / g)) by (unfold Rdiv; ring). rewrite half_even_opp, opp_IZR. ring.
Qed.
Lemma grid_zero g : on_grid g 0 = 0.
Proof. unfold on_grid. replace (0 / g) with (IZR 0) by (unfold Rdiv; ring). rewrite half_even_IZR. ring. Qed.

(* ------------------------------ digits ------------------------------ *)
Lemma p10_pos z : 0 < powerRZ 10 z.
Proof. apply powerRZ_lt. lra. Qed.
Lemma p10_exp z : powerRZ 10 z = exp (IZR z * ln 10).
Proof. rewrite powerRZ_Rpower by lra. reflexivity. Qed.
Lemma ln10 : 0 < ln 10.
Proof. rewrite <- ln_1. apply ln_increasing; lra. Qed.
Definition decade (x : R) : Z := Int_part (ln (Rabs x) / ln 10).
Lemma decade_in x : x <> 0 -> powerRZ 10 (decade x) <= Rabs x < powerRZ 10 (decade x + 1).
Proof.
  intros N. assert (P : 0 < Rabs x) by now apply Rabs_pos_lt. pose proof ln10 as L.
  unfold decade. destruct (base_Int_part (ln (Rabs x) / ln 10)) as [A B]. set (n := Int_part _) in *. clearbody n.
  assert (E : ln (Rabs x) = ln (Rabs x) / ln 10 * ln 10) by (field; lra). set (q := ln (Rabs x) / ln 10) in *. clearbody q.
  rewrite !p10_exp. rewrite <- (exp_ln (Rabs x) P) at 1 2. split.
  - destruct (Rle_lt_or_eq_dec _ _ A) as [A'|A'].
    + left. apply exp_increasing. rewrite E. apply Rmult_lt_compat_r; assumption.
    + right. f_equal. rewrite E. now rewrite A'.
  - apply exp_increasing. rewrite E, plus_IZR. apply Rmult_lt_compat_r; lra.
Qed.
Lemma p10_mono a b : (a <= b)%Z -> powerRZ 10 a <= powerRZ 10 b.
Proof.
  intros H. rewrite !p10_exp. destruct (Z.eq_dec a b) as [->|N]; [lra|]. left. apply exp_increasing. apply Rmult_lt_compat_r; [apply ln10|]. apply IZR_lt. lia.
Qed.
(** 10^a is on the grid of step 10^b for b <= a. *)
Lemma p10_grid a b : (b <= a)%Z -> powerRZ 10 a = IZR (10 ^ (a - b)) * powerRZ 10 b.
Proof.
  intros H. replace a with ((a - b) + b)%Z at 1 by lia. rewrite powerRZ_add by lra. f_equal.
  rewrite <- (Z2Nat.id (a - b)) by lia. rewrite <- pow_IZR. apply pow_powerRZ || (rewrite pow_powerRZ; reflexivity) || (symmetry; apply pow_powerRZ).
Qed.
Lemma p10_m1 : powerRZ 10 (- (1)) = 1 / 10. Proof. simpl. field. Qed.
Lemma p10_m2 : powerRZ 10 (- (2)) = 1 / 100. Proof. simpl. field. Qed.
Lemma p10_m3 : powerRZ 10 (- (3)) = 1 / 1000. Proof. simpl. field. Qed.
Lemma fixed_int d n : (0 <= d)%Z -> fixed d (IZR n) = IZR n.
Proof.
  intros H. unfold fixed. apply grid_fixed with (n := (n * 10 ^ d)%Z); [apply p10_pos|].
  pose proof (p10_grid 0 (- d) ltac:(lia)) as E. replace (0 - - d)%Z with d in E by lia. rewrite mult_IZR, Rmult_assoc, <- E. simpl. ring.
Qed.
Lemma fixed_mono d x y : x <= y -> fixed d x <= fixed d y.
Proof. apply grid_mono. apply p10_pos. Qed.
Lemma decade_neg x : x <> 0 -> Rabs x < 1 -> (decade x < 0)%Z.
Proof.
  intros N H. destruct (decade_in x N) as [A _]. destruct (Z_lt_le_dec (decade x) 0) as [L|G]; [exact L|exfalso].
  apply p10_mono in G. replace (powerRZ 10 0) with 1 in G by reflexivity. lra.
Qed.
Lemma sig_grid x : x <> 0 -> significant x = on_grid (powerRZ 10 (decade x - 3)) x.
Proof. intros N. unfold significant. destruct (Req_EM_T x 0); [contradiction|reflexivity]. Qed.
Lemma sig_bounds x : 0 < x -> powerRZ 10 (decade x) <= significant x <= powerRZ 10 (decade x + 1).
Proof.
  intros P. rewrite sig_grid by lra. destruct (decade_in x) as [A B]; [lra|]. rewrite Rabs_right in A, B by lra. split.
  - rewrite <- (grid_fixed (powerRZ 10 (decade x - 3)) (powerRZ 10 (decade x)) (10 ^ (decade x - (decade x - 3)))) by (apply p10_pos || (apply p10_grid; lia)).
    apply grid_mono; [apply p10_pos|exact A].
  - rewrite <- (grid_fixed (powerRZ 10 (decade x - 3)) (powerRZ 10 (decade x + 1)) (10 ^ (decade x + 1 - (decade x - 3)))) by (apply p10_pos || (apply p10_grid; lia)).
    apply grid_mono; [apply p10_pos|lra].
Qed.
Lemma sig_zero : significant 0 = 0.
Proof. unfold significant. destruct (Req_EM_T 0 0); [reflexivity|contradiction]. Qed.
Lemma sig_le1 x : 0 <= x < 1 -> 0 <= significant x <= 1.
Proof.
  intros [A B]. destruct (Req_dec x 0) as [->|N]; [rewrite sig_zero; lra|].
  destruct (sig_bounds x) as [C D]; [lra|]. pose proof (p10_pos (decade x)). split; [lra|].
  assert (powerRZ 10 (decade x + 1) <= powerRZ 10 0) as E.
  { apply p10_mono. pose proof (decade_neg x N). rewrite Rabs_right in H0 by lra. specialize (H0 B). lia. }
  replace (powerRZ 10 0) with 1 in E by reflexivity. lra.
Qed.
Lemma sig_mono x y : 0 <= x -> x <= y -> significant x <= significant y.
Proof.
  intros P H. destruct (Req_dec x 0) as [->|N].
  - rewrite sig_zero. destruct (Req_dec y 0) as [->|M]; [rewrite sig_zero; lra|]. destruct (sig_bounds y) as [C _]; [lra|]. pose proof (p10_pos (decade y)). lra.
  - destruct (sig_bounds x) as [A B]; [lra|]. destruct (sig_bounds y) as [C D]; [lra|].
    destruct (decade_in x N) as [E F]. destruct (decade_in y) as [G I]; [lra|]. rewrite Rabs_right in E, F, G, I by lra.
    destruct (Z.eq_dec (decade x) (decade y)) as [Q|Q].
    + rewrite !sig_grid by lra. rewrite Q. apply grid_mono; [apply p10_pos|exact H].
    + assert (decade x + 1 <= decade y)%Z as L.
      { destruct (Z_le_gt_dec (decade x + 1) (decade y)) as [L|L]; [exact L|exfalso].
        assert (decade y + 1 <= decade x)%Z as L' by lia. apply p10_mono in L'. lra. }
      apply p10_mono in L. lra.
Qed.

Lemma digits_opp v : digits (- v) = - digits v.
Proof.
  unfold digits. rewrite Rabs_Ropp. destruct (Rle_dec 100 (Rabs v)); [apply grid_opp|]. destruct (Rle_dec 10 (Rabs v)); [apply grid_opp|].
  destruct (Rle_dec 1 (Rabs v)); [apply grid_opp|]. unfold significant. rewrite Rabs_Ropp.
  destruct (Req_EM_T (- v) 0), (Req_EM_T v 0); try lra. apply grid_opp.
Qed.
Lemma digits_near v : Rabs (digits v - v) <= Rabs v * (5 / 10000).
Proof.
  unfold digits. destruct (Rle_dec 100 (Rabs v)) as [A|A].
  { pose proof (grid_near (powerRZ 10 (- (1))) v (p10_pos _)) as G. unfold fixed. rewrite p10_m1 in G |- *. lra. }
  destruct (Rle_dec 10 (Rabs v)) as [B|B].
  { pose proof (grid_near (powerRZ 10 (- (2))) v (p10_pos _)) as G. unfold fixed. rewrite p10_m2 in G |- *. lra. }
  destruct (Rle_dec 1 (Rabs v)) as [C|C].
  { pose proof (grid_near (powerRZ 10 (- (3))) v (p10_pos _)) as G. unfold fixed. rewrite p10_m3 in G |- *. lra. }
  destruct (Req_dec v 0) as [->|N]; [rewrite sig_zero, Rminus_diag_eq, Rabs_R0 by reflexivity; lra|].
  rewrite sig_grid by exact N. pose proof (grid_near (powerRZ 10 (decade v - 3)) v (p10_pos _)) as G.
  destruct (decade_in v N) as [D _]. replace (powerRZ 10 (decade v - 3)) with (powerRZ 10 (decade v) * (1 / 1000)) in G |- *.
  2:{ unfold Z.sub. rewrite powerRZ_add by lra. change (-3)%Z with (- (3))%Z. now rewrite p10_m3. }
  lra.
Qed.
Lemma fixed_ge d n x : (0 <= d)%Z -> IZR n <= x -> IZR n <= fixed d x.
Proof. intros D H. rewrite <- (fixed_int d n D). now apply fixed_mono. Qed.
Lemma fixed_le d n x : (0 <= d)%Z -> x <= IZR n -> fixed d x <= IZR n.
Proof. intros D H. rewrite <- (fixed_int d n D). now apply fixed_mono. Qed.
Lemma digits_mono v w : 0 <= v -> v <= w -> digits v <= digits w.
Proof.
  intros P H. unfold digits. rewrite !Rabs_right by lra.
  destruct (Rle_dec 100 v) as [A|A], (Rle_dec 100 w) as [A'|A']; try lra; [now apply fixed_mono| |].
  - destruct (Rle_dec 10 v) as [B|B]; [|destruct (Rle_dec 1 v) as [C|C]].
    + pose proof (fixed_le 2 100 v ltac:(lia) ltac:(lra)). pose proof (fixed_ge 1 100 w ltac:(lia) A'). lra.
    + pose proof (fixed_le 3 10 v ltac:(lia) ltac:(lra)). pose proof (fixed_ge 1 100 w ltac:(lia) A'). lra.
    + pose proof (sig_le1 v ltac:(lra)). pose proof (fixed_ge 1 100 w ltac:(lia) A'). lra.
  - destruct (Rle_dec 10 v) as [B|B], (Rle_dec 10 w) as [B'|B']; try lra; [now apply fixed_mono| |].
    + destruct (Rle_dec 1 v) as [C|C].
      * pose proof (fixed_le 3 10 v ltac:(lia) ltac:(lra)). pose proof (fixed_ge 2 10 w ltac:(lia) B'). lra.
      * pose proof (sig_le1 v ltac:(lra)). pose proof (fixed_ge 2 10 w ltac:(lia) B'). lra.
    + destruct (Rle_dec 1 v) as [C|C], (Rle_dec 1 w) as [C'|C']; try lra; [now apply fixed_mono| |now apply sig_mono].
      pose proof (sig_le1 v ltac:(lra)). pose proof (fixed_ge 3 1 w ltac:(lia) C'). lra.
Qed.
Lemma digits_int n : (1 <= n)%Z -> digits (IZR n) = IZR n.
Proof.
  intros H. apply IZR_le in H. unfold digits. rewrite Rabs_right by lra. destruct (Rle_dec 100 (IZR n)); [now apply fixed_int|].
  destruct (Rle_dec 10 (IZR n)); [now apply fixed_int|]. destruct (Rle_dec 1 (IZR n)); [now apply fixed_int|lra].
Qed.
Lemma digits_nonneg v : 0 <= v -> 0 <= digits v.
Proof. intros H. assert (digits 0 = 0) as E. { unfold digits. rewrite Rabs_R0. destruct (Rle_dec 100 0), (Rle_dec 10 0), (Rle_dec 1 0); try lra. apply sig_zero. } rewrite <- E. apply digits_mono; lra. Qed.

(* ------------------------------ units ------------------------------ *)
(** The amount that is printed, with the units counted in powers of the threshold. *)
Fixpoint amount (t v : R) (rest : list string) : R :=
  match rest with
  | [] => digits v
  | _ :: rest => if Rle_dec t (Rabs v) then t * amount t (v / t) rest else digits v
  end.
Lemma div_abs v t : 0 < t -> Rabs (v / t) = Rabs v / t.
Proof. intros T. unfold Rdiv. rewrite Rabs_mult, Rabs_inv, (Rabs_right t) by lra. reflexivity. Qed.
Lemma amount_near t rest : 0 < t -> forall v, Rabs (amount t v rest - v) <= Rabs v * (5 / 10000).
Proof.
  intros T. induction rest as [|u rest IH]; intros v; [apply digits_near|]. cbn [amount].
  destruct (Rle_dec t (Rabs v)); [|apply digits_near].
  replace (t * amount t (v / t) rest - v) with (t * (amount t (v / t) rest - v / t)) by (field; lra).
  rewrite Rabs_mult, (Rabs_right t) by lra. specialize (IH (v / t)). rewrite div_abs in IH by exact T.
  apply Rmult_le_compat_l with (r := t) in IH; [|lra]. replace (t * (Rabs v / t * (5 / 10000))) with (Rabs v * (5 / 10000)) in IH by (field; lra). exact IH.
Qed.
Lemma amount_opp t rest : 0 < t -> forall v, amount t (- v) rest = - amount t v rest.
Proof.
  intros T. induction rest as [|u rest IH]; intros v; cbn [amount]; [apply digits_opp|]. rewrite Rabs_Ropp.
  destruct (Rle_dec t (Rabs v)); [|apply digits_opp]. replace (- v / t) with (- (v / t)) by (unfold Rdiv; ring). rewrite IH. ring.
Qed.
Lemma amount_low t rest : 1 <= t -> forall v, 1 <= v -> 1 <= amount t v rest.
Proof.
  intros T. induction rest as [|u rest IH]; intros v H; cbn [amount].
  - rewrite <- (digits_int 1) by lia. apply digits_mono; lra.
  - destruct (Rle_dec t (Rabs v)) as [L|L].
    + rewrite Rabs_right in L by lra. assert (1 <= v / t).
      { apply Rmult_le_reg_r with t; [lra|]. replace (v / t * t) with v by (field; lra). lra. }
      specialize (IH _ H0). apply Rle_trans with (t * 1); [lra|]. apply Rmult_le_compat_l; lra.
    + rewrite <- (digits_int 1) by lia. apply digits_mono; lra.
Qed.
Lemma amount_mono n rest : (1 <= n)%Z -> forall v w, 0 <= v -> v <= w -> amount (IZR n) v rest <= amount (IZR n) w rest.
Proof.
  intros N. pose proof (IZR_le _ _ N) as T. set (t := IZR n) in *. induction rest as [|u rest IH]; intros v w P H; cbn [amount]; [now apply digits_mono|].
  rewrite !Rabs_right by lra.
  destruct (Rle_dec t v) as [A|A], (Rle_dec t w) as [B|B]; try lra; [| |now apply digits_mono].
  - apply Rmult_le_compat_l; [lra|]. apply IH.
    + apply Rmult_le_pos; [lra|]. left. apply Rinv_0_lt_compat. lra.
    + apply Rmult_le_compat_r; [left; apply Rinv_0_lt_compat; lra|exact H].
  - apply Rle_trans with t.
    + apply Rle_trans with (digits t); [apply digits_mono; lra|]. unfold t. rewrite digits_int by exact N. lra.
    + assert (1 <= w / t) as D. { apply Rmult_le_reg_r with t; [lra|]. replace (w / t * t) with w by (field; lra). lra. }
      pose proof (amount_low t rest T (w / t) D). apply Rle_trans with (t * 1); [lra|]. apply Rmult_le_compat_l; lra.
Qed.

(** The units that follow one of size [s] grow by the threshold. *)
Fixpoint graded (t s : R) (rest : list string) : Prop :=
  match rest with [] => True | u :: rest => unit_size u = Some (s * t) /\ graded t (s * t) rest end.
Lemma shift_amount t rest : forall v u s, unit_size u = Some s -> graded t s rest ->
  exists s', unit_size (snd (shift t v u rest)) = Some s' /\ digits (fst (shift t v u rest)) * s' = s * amount t v rest.
Proof.
  induction rest as [|next rest IH]; intros v u s U G; cbn [shift amount]; [exists s; split; [exact U|cbn; ring]|].
  destruct (Rle_dec t (Rabs v)); [|exists s; split; [exact U|cbn; ring]].
  destruct G as [G1 G2]. destruct (IH (v / t) next (s * t) G1 G2) as (s' & A & B). exists s'. split; [exact A|]. rewrite B. ring.
Qed.
Lemma known quantity : In quantity quantities -> exists u rest n, units_of quantity = Some (u, rest, IZR n) /\ (100 <= n)%Z /\
  unit_size u = Some 1 /\ graded (IZR n) 1 rest /\ scale quantity = u :: rest.
Proof.
  intros I. cbn in I. repeat (destruct I as [<-|I]; [eexists; eexists; eexists; split; [reflexivity|]; split; [|split; [reflexivity|]; split; [|reflexivity]]|]); try lia; [..|destruct I];
  cbn; repeat split; f_equal; ring.
Qed.
Lemma format_amount quantity v : In quantity quantities -> exists t u rest n, format_large_units (Some v) quantity = Ok t /\
  units_of quantity = Some (u, rest, IZR n) /\ (100 <= n)%Z /\ denotes t (amount (IZR n) v rest).
Proof.
  intros I. destruct (known quantity I) as (u & rest & n & E & N & U & G & _).
  destruct (shift_amount (IZR n) rest v u 1 U G) as (s' & A & B). unfold format_large_units. rewrite E.
  destruct (shift (IZR n) v u rest) as [v' u'] eqn:Q. cbn [fst snd] in A, B.
  exists (Shown (digits v') u'), u, rest, n. split; [reflexivity|]. split; [reflexivity|]. split; [exact N|].
  exists (digits v'), u', s'. split; [reflexivity|]. split; [exact A|]. rewrite B. ring.
Qed.
Lemma denotes_once t x y : denotes t x -> denotes t y -> x = y.
Proof.
  intros (n & u & s & E & U & ->) (n' & u' & s' & E' & U' & ->). rewrite E in E'. injection E' as <- <-. rewrite U in U'. injection U' as <-. reflexivity.
Qed.
Lemma format_accurate quantity v : In quantity quantities -> exists t x, format_large_units (Some v) quantity = Ok t /\ denotes t x /\ Rabs (x - v) <= Rabs v * (5 / 10000).
Proof.
  intros I. destruct (format_amount quantity v I) as (t & u & rest & n & F & _ & N & D). exists t. eexists. split; [exact F|]. split; [exact D|].
  apply amount_near. apply IZR_le in N. lra.
Qed.
Lemma amount_all n rest v w : (1 <= n)%Z -> v <= w -> amount (IZR n) v rest <= amount (IZR n) w rest.
Proof.
  intros N H. pose proof (IZR_le _ _ N) as T.
  destruct (Rle_dec 0 v) as [P|P]; [now apply amount_mono|]. destruct (Rle_dec w 0) as [Q|Q].
  - replace v with (- (- v)) by ring. replace w with (- (- w)) by ring. rewrite (amount_opp (IZR n) rest ltac:(lra) (- v)), (amount_opp (IZR n) rest ltac:(lra) (- w)).
    apply Ropp_le_contravar. apply amount_mono; [exact N|lra|lra].
  - assert (Z0 : amount (IZR n) 0 rest = 0).
    { pose proof (amount_near (IZR n) rest ltac:(lra) 0) as Z. rewrite Rabs_R0 in Z. apply abs_in in Z. lra. }
    apply Rle_trans with (amount (IZR n) 0 rest).
    + replace v with (- (- v)) by ring. rewrite (amount_opp (IZR n) rest ltac:(lra)). rewrite Z0.
      pose proof (amount_mono n rest N 0 (- v) ltac:(lra) ltac:(lra)). lra.
    + apply amount_mono; [exact N|lra|lra].
Qed.
Lemma format_monotone quantity v w tv tw x y : In quantity quantities -> v <= w ->
  format_large_units (Some v) quantity = Ok tv -> format_large_units (Some w) quantity = Ok tw -> denotes tv x -> denotes tw y -> x <= y.
Proof.
  intros I H F G X Y. destruct (format_amount quantity v I) as (t1 & u & rest & n & F1 & U1 & N & D1). destruct (format_amount quantity w I) as (t2 & u' & rest' & n' & F2 & U2 & _ & D2).
  rewrite F in F1. injection F1 as <-. rewrite G in F2. injection F2 as <-. rewrite U1 in U2. injection U2 as <- <- E. 
  rewrite (denotes_once _ _ _ X D1), (denotes_once _ _ _ Y D2). rewrite E. apply amount_all; [|exact H].
  apply eq_IZR in E. lia.
Qed.
Lemma shift_opp t rest : forall v u, shift t (- v) u rest = (- fst (shift t v u rest), snd (shift t v u rest)).
Proof.
  induction rest as [|next rest IH]; intros v u; cbn [shift]; [reflexivity|]. rewrite Rabs_Ropp. destruct (Rle_dec t (Rabs v)); [|reflexivity].
  replace (- v / t) with (- (v / t)) by (unfold Rdiv; ring). apply IH.
Qed.
Lemma format_sign quantity v n u : format_large_units (Some v) quantity = Ok (Shown n u) -> format_large_units (Some (- v)) quantity = Ok (Shown (- n) u).
Proof.
  unfold format_large_units. destruct (units_of quantity) as [[[u0 rest] t]|]; [|discriminate]. rewrite shift_opp.
  destruct (shift t v u0 rest) as [v' u']. cbn [fst snd]. intros [= <- <-]. now rewrite digits_opp.
Qed.
Lemma shift_best t rest : 1 < t -> forall v u s, 0 < s -> unit_size u = Some s -> graded t s rest -> s <= Rabs v * s \/ True ->
  let '(v', u') := shift t v u rest in In u' (u :: rest) /\ exists s', unit_size u' = Some s' /\ s <= s' /\
    Rabs v' * s' = Rabs v * s /\
    (forall w r, In w (u :: rest) -> unit_size w = Some r -> r <= Rabs v * s -> r <= s') /\
    (s' <= Rabs v * s \/ s' = s).
Proof.
  intros T. induction rest as [|next rest IH]; intros v u s P U G _; cbn [shift].
  - split; [now left|]. exists s. split; [exact U|]. split; [lra|]. split; [reflexivity|]. split; [|now right].
    intros w r [<-|[]] W _. rewrite U in W. injection W as <-. lra.
  - destruct G as [G1 G2]. assert (P' : 0 < s * t) by (apply Rmult_lt_0_compat; lra).
    assert (ST : s < s * t) by (rewrite <- (Rmult_1_r s) at 1; apply Rmult_lt_compat_l; lra).
    destruct (Rle_dec t (Rabs v)) as [L|L].
    + specialize (IH (v / t) next (s * t) P' G1 G2 (or_intror I)). destruct (shift t (v / t) next rest) as [v' u'].
      destruct IH as (A & s' & B & C & D & E & F). rewrite div_abs in D, E, F by lra.
      replace (Rabs v / t * (s * t)) with (Rabs v * s) in D, E, F by (field; lra).
      split; [now right|]. exists s'. split; [exact B|]. split; [lra|]. split; [exact D|]. split.
      * intros w r [<-|W] R H; [rewrite U in R; injection R as <-; lra|]. now apply E with w.
      * left. destruct F as [F|F]; [exact F|]. rewrite F. rewrite Rmult_comm. apply Rmult_le_compat_r; lra.
    + split; [now left|]. exists s. split; [exact U|]. split; [lra|]. split; [reflexivity|]. split; [|now right].
      assert (VS : Rabs v * s < s * t) by (rewrite Rmult_comm; apply Rmult_lt_compat_l; lra).
      assert (UP : forall l r0, s * t <= r0 -> graded t r0 l -> forall w r, In w l -> unit_size w = Some r -> s * t <= r).
      { clear - P T. induction l as [|x l IHl]; intros r0 R0 Gl w r W R; [destruct W|]. destruct Gl as [X1 X2].
        assert (s * t <= r0 * t). { apply Rle_trans with r0; [exact R0|]. assert (0 < s * t) by (apply Rmult_lt_0_compat; lra). rewrite <- (Rmult_1_r r0) at 1. apply Rmult_le_compat_l; lra. }
        destruct W as [<-|W]; [rewrite X1 in R; injection R as <-; exact H|]. exact (IHl (r0 * t) H X2 w r W R). }
      intros w r [<-|[<-|W]] R H; [rewrite U in R; injection R as <-; lra|rewrite G1 in R; injection R as <-; lra|].
      pose proof (UP rest (s * t) (Rle_refl _) G2 w r W R). lra.
Qed.
Lemma graded_low t rest : 1 < t -> forall s, 0 < s -> graded t s rest -> forall w r, In w rest -> unit_size w = Some r -> s <= r.
Proof.
  intros T. induction rest as [|x rest IH]; intros s P G w r W R; [destruct W|]. destruct G as [X1 X2].
  assert (s < s * t) by (rewrite <- (Rmult_1_r s) at 1; apply Rmult_lt_compat_l; lra).
  destruct W as [<-|W]; [rewrite X1 in R; injection R as <-; lra|]. apply Rle_trans with (s * t); [lra|]. apply (IH (s * t)) with w; try assumption. lra.
Qed.
Lemma format_unit quantity v n u : In quantity quantities -> format_large_units (Some v) quantity = Ok (Shown n u) -> best_unit quantity v u.
Proof.
  intros I F. destruct (known quantity I) as (u0 & rest & k & E & N & U & G & S). apply IZR_le in N.
  unfold format_large_units in F. rewrite E in F. pose proof (shift_best (IZR k) rest ltac:(lra) v u0 1 ltac:(lra) U G (or_intror Logic.I)) as B.
  destruct (shift (IZR k) v u0 rest) as [v' u']. injection F as _ <-. destruct B as (A & s' & B & C & _ & D & Q). rewrite Rmult_1_r in *.
  unfold best_unit. rewrite S. split; [exact A|]. exists s'. split; [exact B|]. split.
  - intros w r W R H. apply (D w r W R). lra.
  - destruct Q as [Q|Q]; [now left|right]. intros w r [<-|W] R; [rewrite U in R; injection R as <-; lra|]. rewrite Q. exact (graded_low (IZR k) rest ltac:(lra) 1 ltac:(lra) G w r W R).
Qed.
Lemma fixed_decimals d x : has_decimals d (fixed d x).
Proof.
  exists (half_even (x / powerRZ 10 (- d))). unfold fixed, on_grid, Rdiv at 2. now rewrite powerRZ_neg'.
Qed.
Lemma format_digits quantity v n u s : In quantity quantities -> format_large_units (Some v) quantity = Ok (Shown n u) -> unit_size u = Some s ->
  (100 <= Rabs v / s -> has_decimals 1 n) /\ (10 <= Rabs v / s < 100 -> has_decimals 2 n) /\ (1 <= Rabs v / s < 10 -> has_decimals 3 n) /\
  (forall e, powerRZ 10 e <= Rabs v / s < 1 -> Rabs v / s < powerRZ 10 (e + 1) -> has_decimals (3 - e) n).
Proof.
  intros I F US. destruct (known quantity I) as (u0 & rest & k & E & N & U & G & S). apply IZR_le in N.
  unfold format_large_units in F. rewrite E in F. pose proof (shift_best (IZR k) rest ltac:(lra) v u0 1 ltac:(lra) U G (or_intror Logic.I)) as B.
  destruct (shift (IZR k) v u0 rest) as [v' u']. injection F as <- <-. destruct B as (A & s' & B & C & D & _). rewrite US in B. injection B as <-. rewrite Rmult_1_r in D.
  assert (V : Rabs v / s = Rabs v') by (rewrite <- D; field; lra). rewrite V. clear - C. unfold digits.
  split; [|split; [|split]].
  - intros H. destruct (Rle_dec 100 (Rabs v')); [apply fixed_decimals|lra].
  - intros H. destruct (Rle_dec 100 (Rabs v')); [lra|]. destruct (Rle_dec 10 (Rabs v')); [apply fixed_decimals|lra].
  - intros H. destruct (Rle_dec 100 (Rabs v')); [lra|]. destruct (Rle_dec 10 (Rabs v')); [lra|]. destruct (Rle_dec 1 (Rabs v')); [apply fixed_decimals|lra].
  - intros e [H1 H2] H3. destruct (Rle_dec 100 (Rabs v')); [lra|]. destruct (Rle_dec 10 (Rabs v')); [lra|]. destruct (Rle_dec 1 (Rabs v')); [lra|].
    assert (NZ : v' <> 0). { intros ->. rewrite Rabs_R0 in H1. pose proof (p10_pos e). lra. }
    rewrite sig_grid by exact NZ. destruct (decade_in v' NZ) as [D1 D2].
    assert (decade v' = e) as ->.
    { destruct (Z_lt_le_dec (decade v') e) as [L|L]; [assert (decade v' + 1 <= e)%Z as L' by lia; apply p10_mono in L'; lra|].
      destruct (Z.eq_dec (decade v') e) as [Q|Q]; [exact Q|]. assert (e + 1 <= decade v')%Z as L' by lia. apply p10_mono in L'. lra. }
    replace (e - 3)%Z with (- (3 - e))%Z by lia. apply fixed_decimals.
Qed.
Lemma format_carry : format_large_units (Some (99996 / 100)) "length" = Ok (Shown 1000 "m").
Proof.
  unfold format_large_units. cbn [units_of String.eqb Ascii.eqb Bool.eqb shift].
  rewrite Rabs_right by lra. destruct (Rle_dec 1000 (99996 / 100)); [lra|]. unfold digits. rewrite Rabs_right by lra.
  destruct (Rle_dec 100 (99996 / 100)); [|lra]. do 2 f_equal. unfold fixed, on_grid. rewrite p10_m1.
  assert (half_even (99996 / 100 / (1 / 10)) = 10000%Z) as ->. { apply half_even_unique; [apply Rabs_le; lra|reflexivity]. } field.
Qed.
Lemma format_other v quantity : ~ In quantity quantities -> format_large_units (Some v) quantity = Err UnboundLocalError.
Proof.
  intros N. unfold format_large_units, units_of. cbn in N.
  repeat match goal with |- context [String.eqb quantity ?s] => destruct (String.eqb_spec quantity s) as [->|]; [exfalso; tauto|] end. reflexivity.
Qed.
Lemma format_doc : format_large_units (Some 1500) "length" = Ok (Shown (1500 / 1000) "km") /\ format_large_units (Some 3920) "time" = Ok (Shown (3920 / 1000) "Gy").
Proof.
  unfold format_large_units. cbn [units_of String.eqb Ascii.eqb Bool.eqb shift].
  rewrite !Rabs_right by lra. destruct (Rle_dec 1000 1500); [|lra]. destruct (Rle_dec 1000 3920); [|lra].
  split; do 2 f_equal; unfold digits; rewrite Rabs_right by lra.
  - destruct (Rle_dec 100 (1500 / 1000)); [lra|]. destruct (Rle_dec 10 (1500 / 1000)); [lra|]. destruct (Rle_dec 1 (1500 / 1000)); [|lra].
    unfold fixed. apply grid_fixed with (n := 1500%Z); [apply p10_pos|]. rewrite p10_m3. lra.
  - destruct (Rle_dec 100 (3920 / 1000)); [lra|]. destruct (Rle_dec 10 (3920 / 1000)); [lra|]. destruct (Rle_dec 1 (3920 / 1000)); [|lra].
    unfold fixed. apply grid_fixed with (n := 3920%Z); [apply p10_pos|]. rewrite p10_m3. lra.
Qed.
