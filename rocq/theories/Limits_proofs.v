From Coq Require Import Reals Lra.
From Verif Require Import Common Limits_model Limits_spec.
Open Scope R_scope.

Section Limits.
Context (C P : limit -> R -> R) (rmin rmax : R).
Context (SL : scaling_like C P) (R0 : 0 < rmin) (R1 : rmin <= rmax).
Notation assign := (assign P rmin rmax).
Notation smallest_crater := (smallest_crater C rmin rmax).
Notation largest_crater := (largest_crater C rmin rmax).
(** The range stands for the limits [s]. *)
Definition stands (g : generator) (r : range) (s : R * R) : Prop :=
  rmin <= fst s /\ 0 < snd s <= rmax /\
  match g with
  | GCrater => d_lo r = fst s /\ d_hi r = Some (snd s)
  | GProjectile => d_lo r = P Smallest (fst s) /\ d_hi r = Some (P Largest (snd s))
  end.
Lemma stands_reads g r s : stands g r s -> smallest_crater g r = fst s /\ largest_crater g r = Some (snd s).
Proof.
  intros (A & B & H). destruct g; cbn [Limits_model.smallest_crater Limits_model.largest_crater]; destruct H as [-> ->]; [split; reflexivity|].
  pose proof (sl_pos _ _ SL Smallest (fst s) ltac:(lra)). destruct (Rlt_dec 0 _); [|lra].
  unfold crater_limit. rewrite !(sl_inv _ _ SL) by lra. rewrite Rmax_left by lra. rewrite Rmin_left by lra. split; reflexivity.
Qed.
Lemma assign_stands g r s a : stands g r s -> positive a -> stands g (assign g r a) (asked rmin rmax s a).
Proof.
  intros (A & B & H) PA. destruct a as [v|v].
  - cbn [Limits_spec.assign asked]. split; [apply Rmax_r|]. split; [exact B|]. destruct g; cbn [set_smallest_crater d_lo d_hi fst snd]; destruct H as [H1 H2]; rewrite H2; cbn [min_inf].
    + split; [reflexivity|]. rewrite Rmin_left by lra. reflexivity.
    + cbn [projectile_limit]. split; [reflexivity|]. rewrite (Rmax_left rmax rmin) by lra. rewrite Rmin_left; [reflexivity|].
      eapply Rle_trans; [apply (sl_mono _ _ SL Largest (snd s) rmax); lra|apply (sl_fast _ _ SL); lra].
  - assert (X : asked rmin rmax s (LargestCrater v) = (fst s, min_inf v rmax)) by (destruct v; reflexivity). rewrite X. cbn [Limits_spec.assign].
    split; [exact A|]. split.
    { cbn [snd]. destruct v as [v|]; cbn in *; [|lra]. split; [apply Rmin_pos; lra|apply Rmin_r]. }
    destruct g; cbn [set_largest_crater d_lo d_hi fst snd]; destruct H as [H1 H2]; rewrite H1.
    + split; [apply Rmax_left; exact A|reflexivity].
    + cbn [projectile_limit min_inf]. rewrite (Rmin_left rmin rmax) by lra. split; [|reflexivity]. apply Rmax_left.
      eapply Rle_trans; [apply (sl_fast _ _ SL); lra|apply (sl_mono _ _ SL); lra].
Qed.
Lemma construct_stands g c : stands g (construct C P rmin rmax g c) (rmin, rmax).
Proof.
  unfold construct, assign_stored, default_range. split; [cbn; lra|]. split; [cbn; lra|]. destruct g; cbn [Limits_model.smallest_crater set_smallest_crater d_lo d_hi Limits_model.largest_crater set_largest_crater min_inf fst snd].
  - rewrite !(Rmax_right 0) by lra. rewrite !(Rmax_left rmin) by lra. rewrite !(Rmin_left rmax rmax) by lra. split; reflexivity.
  - destruct (Rlt_dec 0 0); [lra|]. rewrite !(Rmax_right 0) by lra. cbn [projectile_limit min_inf crater_limit].
    rewrite (Rmax_left rmin rmin), (Rmax_left rmax rmin), (Rmin_left rmin rmax) by lra. split.
    + apply Rmax_left. apply (sl_fast _ _ SL). exact R0.
    + f_equal. f_equal.
      assert (Y : rmax <= C Largest (P Smallest rmax)).
      { rewrite <- (sl_inv _ _ SL Largest rmax) at 1 by lra. apply (sl_up _ _ SL); [apply (sl_pos _ _ SL); lra|apply (sl_fast _ _ SL); lra]. }
      rewrite (Rmin_right (C Largest (P Smallest rmax))) by lra. rewrite ?(Rmin_left rmax rmax) by lra. reflexivity.
Qed.
Lemma limits_refine g c l : (forall a, In a l -> positive a) ->
  let r := fold_left (assign g) l (construct C P rmin rmax g c) in
  let s := fold_left (asked rmin rmax) l (rmin, rmax) in
  smallest_crater g r = fst s /\ largest_crater g r = Some (snd s).
Proof.
  intros H. apply stands_reads. pose proof (construct_stands g c) as S. revert S. generalize (construct C P rmin rmax g c) (rmin, rmax).
  induction l as [|a l IH]; intros r s S; [exact S|]. cbn [fold_left]. apply IH; [intros b I; apply H; right; exact I|].
  apply assign_stands; [exact S|apply H; left; reflexivity].
Qed.
Lemma asked_within l : forall s, rmin <= fst s -> snd s <= rmax -> rmin <= fst (fold_left (asked rmin rmax) l s) /\ snd (fold_left (asked rmin rmax) l s) <= rmax.
Proof.
  induction l as [|a l IH]; intros s A B; [split; assumption|]. cbn [fold_left]. apply IH.
  - destruct a as [v|[v|]]; cbn; [apply Rmax_r|exact A|exact A].
  - destruct a as [v|[v|]]; cbn; [exact B|apply Rmin_r|lra].
Qed.
(** Projectile limits with a generator of projectiles. *)
Lemma projectile_limits r a b v w : d_lo r = a -> P Smallest rmin <= a -> d_hi r = Some b -> b <= P Largest rmax ->
  (let q := set_smallest_projectile P rmin rmax GProjectile v r in
   smallest_projectile P rmin rmax GProjectile q = Rmax v (P Smallest rmin) /\ largest_projectile P rmin rmax GProjectile q = Some b) /\
  (let q := set_largest_projectile P rmin rmax GProjectile w r in
   smallest_projectile P rmin rmax GProjectile q = a /\ largest_projectile P rmin rmax GProjectile q = Some (match w with Some w => Rmin w (P Largest rmax) | None => P Largest rmax end)).
Proof.
  intros A HA B HB. cbn [set_smallest_projectile set_largest_projectile smallest_projectile largest_projectile d_lo d_hi projectile_limit min_inf].
  rewrite A, B. rewrite (Rmax_left rmin rmin), (Rmin_left rmax rmax) by lra. cbn [min_inf]. rewrite (Rmin_left b) by lra. rewrite (Rmax_left a) by lra.
  repeat split.
Qed.
End Limits.
Definition lim_C (l : limit) (p : R) : R := match l with Smallest => 10 * p | Largest => 100 * p end.
Definition lim_P (l : limit) (d : R) : R := match l with Smallest => d / 10 | Largest => d / 100 end.
Lemma lim_like : scaling_like lim_C lim_P.
Proof. constructor; intros; try destruct l; cbn in *; try lra. Qed.
(** smallest_projectile = 500 with a generator of craters of at least 100 m. *)
Lemma smallest_projectile_bad : let r := set_smallest_projectile lim_P 100 10000 GCrater 500 (construct lim_C lim_P 100 10000 GCrater (mk_stored None None)) in
  smallest_projectile lim_P 100 10000 GCrater r = 50 /\ smallest_crater lim_C 100 10000 GCrater r = 500.
Proof.
  destruct (construct_stands lim_C lim_P 100 10000 lim_like ltac:(lra) ltac:(lra) GCrater (mk_stored None None)) as (_ & _ & A & B).
  cbv zeta. cbn [set_smallest_projectile smallest_projectile smallest_crater d_lo projectile_limit]. rewrite A. cbn [fst]. rewrite (Rmax_left 500 100) by lra. rewrite (Rmax_left 500 100) by lra. cbn. lra.
Qed.
Lemma largest_projectile_bad C P rmin rmax g v r : g = GCrater -> d_lo r <= rmax -> smallest_crater C rmin rmax g (set_largest_projectile P rmin rmax g v r) = rmax.
Proof. intros -> H. cbn. apply Rmax_right, H. Qed.
Lemma largest_projectile_case : let r := set_largest_projectile lim_P 100 10000 GCrater (Some 50) (construct lim_C lim_P 100 10000 GCrater (mk_stored None None)) in
  smallest_crater lim_C 100 10000 GCrater r = 10000 /\ largest_crater lim_C 100 10000 GCrater r = Some 0.5.
Proof.
  destruct (construct_stands lim_C lim_P 100 10000 lim_like ltac:(lra) ltac:(lra) GCrater (mk_stored None None)) as (_ & _ & A & B).
  cbv zeta. split; [apply largest_projectile_bad; [reflexivity|rewrite A; cbn; lra]|]. cbn. rewrite Rmin_left by lra. f_equal. lra.
Qed.
Lemma crossed_case : let r := set_smallest_crater lim_P 100 10000 GCrater 20000 (construct lim_C lim_P 100 10000 GCrater (mk_stored None None)) in
  smallest_crater lim_C 100 10000 GCrater r = 20000 /\ largest_crater lim_C 100 10000 GCrater r = Some 10000.
Proof.
  destruct (construct_stands lim_C lim_P 100 10000 lim_like ltac:(lra) ltac:(lra) GCrater (mk_stored None None)) as (_ & _ & A & B).
  cbv zeta. cbn [set_smallest_crater smallest_crater largest_crater d_lo d_hi]. rewrite B. cbn. rewrite Rmax_left, Rmin_left by lra. split; reflexivity.
Qed.
Lemma not_resumed C P rmin rmax g r : construct C P rmin rmax g (to_stored C rmin rmax g r) = construct C P rmin rmax g (mk_stored None None).
Proof. reflexivity. Qed.
Lemma resume_case : let r := set_smallest_crater lim_P 100 10000 GCrater 500 (construct lim_C lim_P 100 10000 GCrater (mk_stored None None)) in
  smallest_crater lim_C 100 10000 GCrater r = 500 /\
  smallest_crater lim_C 100 10000 GCrater (construct lim_C lim_P 100 10000 GCrater (to_stored lim_C 100 10000 GCrater r)) = 100.
Proof.
  cbv zeta. split; [cbn; apply Rmax_left; lra|]. rewrite not_resumed.
  destruct (construct_stands lim_C lim_P 100 10000 lim_like ltac:(lra) ltac:(lra) GCrater (mk_stored None None)) as (_ & _ & A & _).
  cbn [smallest_crater]. rewrite A. reflexivity.
Qed.
