(** The whole of populate, and concrete cases. *)
From Coq Require Import Reals List Sorted Permutation Lra Lia Arith.
From Verif Require Import Common Sorting Run_spec Region_spec Region_more Populate_model Populate_spec Populate_proofs Populate_loop.
From Verif Require Run_model Run_proofs Limits_model Limits_spec Region_model Random_model.
Import ListNotations.
Open Scope R_scope.

Lemma ord_impl {A} (P Q : A -> A -> Prop) (l : list A) : (forall x y, In x l -> In y l -> P x y -> Q x y) -> ForallOrdPairs P l -> ForallOrdPairs Q l.
Proof.
  intros H O. induction O as [| x l F O IH]; constructor.
  - rewrite Forall_forall in *. intros y Y. apply H; [left; reflexivity | right; exact Y | apply F; exact Y].
  - apply IH. intros a b A1 B1. apply H; right; assumption.
Qed.

Section All.
Context {C L : Type}.
Context (csfd chron : R -> R) (age_of : R -> R -> result R) (tlo thi : option R) (Dconv Nconv : R).
Context (g : Limits_model.generator) (r : Limits_model.range)
  (crater_of projectile_of : Limits_model.limit -> R -> R) (size_lo size_hi : R).
Context (areas : list R).
Context (poisson : nat -> R -> nat) (sizes : nat -> nat -> R -> option R -> list R)
  (times : nat -> R -> R -> list R -> list R) (pick : nat -> nat -> R) (spot : nat -> nat -> nat -> L).
Context (make : L -> R -> R -> result C) (ctime : C -> R) (merge : option (R -> R -> list C -> list C))
  (emplace : list C -> result (list C)).
Notation crater_list := (crater_list csfd chron age_of tlo thi Dconv Nconv g r crater_of projectile_of size_lo size_hi areas poisson sizes times pick spot make ctime merge).
Notation populate := (populate csfd chron age_of tlo thi Dconv Nconv g r crater_of projectile_of size_lo size_hi areas poisson sizes times pick spot make ctime merge emplace).
Notation own := (own_min g projectile_of size_lo size_hi areas).
Notation hi := (diam_max g r crater_of projectile_of size_lo size_hi).
Notation lo := (least g (projectile_of Limits_model.Smallest) size_lo).

Lemma start_eq : start_min g r crater_of projectile_of size_lo size_hi = Limits_model.d_lo r.
Proof. unfold start_min. destruct g; reflexivity. Qed.
Lemma hi_eq : hi = Limits_model.d_hi r.
Proof. unfold diam_max. destruct g; reflexivity. Qed.

Lemma sorted_older l : oldest_first ctime (sort (older ctime) l).
Proof.
  unfold oldest_first. assert (S : StronglySorted (fun a b => older ctime a b = true) (sort (older ctime) l)).
  { apply sort_sorted.
    - intros x y. unfold older. destruct (Rle_dec (ctime y) (ctime x)), (Rle_dec (ctime x) (ctime y)); intros; try discriminate; try reflexivity. lra.
    - intros x y z. unfold older. destruct (Rle_dec (ctime y) (ctime x)), (Rle_dec (ctime z) (ctime y)), (Rle_dec (ctime z) (ctime x)); intros; try discriminate; try reflexivity. lra. }
  induction S as [| x m S IH F]; constructor; [exact IH |]. eapply Forall_impl; [| exact F]. cbn. intros y. unfold older. destruct (Rle_dec (ctime y) (ctime x)); [intros _; assumption | discriminate].
Qed.
Lemma forall2_map {A B D} (P : A -> B -> Prop) (f : D -> A) l m : Forall2 P (map f l) m <-> Forall2 (fun x y => P (f x) y) l m.
Proof.
  split; revert m; induction l as [| x l IH]; intros m H; cbn in *; inversion H; subst; constructor; auto.
Qed.
Lemma forall2_ext {A B} (P Q : A -> B -> Prop) l m : (forall x y, P x y -> Q x y) -> Forall2 P l m -> Forall2 Q l m.
Proof. intros H. induction 1; constructor; auto. Qed.

Lemma population fits inside cur a l s b :
  good_production csfd chron age_of (total areas) -> good_draws sizes times pick spot fits inside ->
  smallest areas s -> largest areas b -> 0 < s -> (forall k : nat, b <> s * 2 ^ k) ->
  (g = Limits_model.GProjectile -> forall d e, 0 < d -> d <= e -> projectile_of Limits_model.Smallest d <= projectile_of Limits_model.Smallest e) ->
  crater_list cur a = Ok l ->
  exists ts te bins parts cs,
    period csfd chron (total areas) Dconv Nconv cur a ts te /\
    Region_model.face_bins areas = Ok bins /\ List.length parts = List.length bins /\
    (forall i faces part, nth_error bins i = Some faces -> nth_error parts i = Some part ->
       bin_impacts areas csfd chron (poisson i) fits inside (lo (Limits_model.d_lo r)) (Limits_model.d_hi r) ts te faces part) /\
    Forall2 (fun x c => make (im_loc x) (im_time x) (im_diam x) = Ok c) (List.concat parts) cs /\
    exists sorted, Permutation cs sorted /\ oldest_first ctime sorted /\
    l = match merge with Some m => m ts te sorted | None => sorted end.
Proof.
  intros G GD S1 B1 SP NP MONO H. unfold Populate_model.crater_list in H.
  destruct (Run_model.validate_run_args _ _ _ _ _ _ _ _ _ _) as [p |] eqn:V; [| discriminate]. cbn [rbind] in H.
  destruct (bins_ok areas s b S1 B1 SP NP) as (bins & EB & PB & NEB & RB). rewrite EB in H. cbn [rbind] in H.
  destruct (over_bins _ _ _ _ _ _ _ _ _ _ _ _ _ _ _ _ _ _ _ _ _ bins) as [[[ds tl] ls] |] eqn:OB; [| discriminate]. cbn [rbind] in H.
  destruct (mapr _ _) as [cs |] eqn:M; [| discriminate]. cbn [rbind] in H. injection H as <-.
  destruct (Run_proofs.vra_ok _ _ _ _ _ _ _ _ G _ _ _ V) as [(P1 & P2 & P3 & P4 & P5 & P6 & _) PER].
  assert (POS : forall f, In f areas -> 0 < f) by (intros f F; apply Rlt_le_trans with s; [exact SP | apply S1; exact F]).
  assert (RNG : Forall (fun faces => faces <> [] /\ forall f, In f faces -> (f < List.length areas)%nat) bins).
  { apply Forall_forall. intros x X. split; [apply NEB; exact X |]. intros f F. assert (I : In f (List.concat bins)) by (apply in_concat; exists x; split; assumption).
    apply (Permutation_in _ PB) in I. apply in_seq in I. lia. }
  assert (ORD : ForallOrdPairs (fun x y => own x <= own y) bins).
  { pose proof (bins_ordered areas s b bins S1 B1 SP NP EB) as O. refine (ord_impl _ _ _ _ O). intros x y X Y BXY.
    rewrite Forall_forall in RNG. destruct (RNG x X) as [NX RX], (RNG y Y) as [NY RY].
    assert (PX : forall f, In f x -> 0 <= nth f areas 0) by (intros f F; apply Rlt_le, POS, nth_In, RX, F).
    assert (PY : forall f, In f y -> 0 <= nth f areas 0) by (intros f F; apply Rlt_le, POS, nth_In, RY, F).
    destruct (min_size_ok areas x NX PX) as [(f & F & EF) _]. destruct (min_size_ok areas y NY PY) as [(h & HH & EH) _].
    assert (LE : bin_min_size areas x <= bin_min_size areas y) by (rewrite EF, EH; apply sqrt_le_1; [apply PX; exact F | apply PY; exact HH | apply Rlt_le, BXY; assumption]).
    assert (0 < bin_min_size areas x) by (rewrite EF; apply sqrt_lt_R0, POS, nth_In, RX, F).
    unfold own_min. destruct g eqn:EG; [exact LE |]. unfold Limits_model.projectile_limit. apply MONO; [reflexivity | |].
    - unfold Rmax; destruct (Rle_dec _ _); lra.
    - unfold Rmax; repeat destruct (Rle_dec _ _); lra. }
  rewrite start_eq in OB.
  destruct (all_bins csfd chron age_of tlo thi g r crater_of projectile_of size_lo size_hi areas poisson sizes times pick spot fits inside GD G POS
    (Run_model.p_dn p) (Run_model.p_dne p) (Run_model.p_ts p) (Run_model.p_te p) (Limits_model.d_lo r) ltac:(lra) ltac:(lra) P3 P4 P5 P6 bins 0%nat (Limits_model.d_lo r) ds tl ls RNG ORD) as (parts & LP & CP & BP); [apply Forall_forall; intros; reflexivity | exact OB |].
  exists (Run_model.p_ts p), (Run_model.p_te p), bins, parts, cs. split; [exact PER |]. split; [exact EB |]. split; [exact LP |]. split.
  - intros i faces part A B. rewrite <- hi_eq. exact (BP i faces part A B).
  - split.
    + rewrite CP. apply forall2_map. apply mapr_forall2 in M. refine (forall2_ext _ _ _ _ _ M). intros [[d l] t] c E. exact E.
    + exists (sort (older ctime) cs). split; [symmetry; apply sort_perm |]. split; [apply sorted_older |]. destruct merge; reflexivity.
Qed.

(** What is emplaced. *)
Lemma populated cur a : populate false cur a = match crater_list cur a with Err e => Err e | Ok [] => Ok [] | Ok l => emplace l end.
Proof. unfold Populate_model.populate. destruct (crater_list cur a) as [[| x l] |]; reflexivity. Qed.
Lemma keyword cur a l : populate true cur a = Ok l -> l = [].
Proof. unfold Populate_model.populate. destruct (crater_list cur a) as [[| x m] |]; cbn; intros E; [injection E as <-; reflexivity | discriminate | discriminate]. Qed.

(** Faces larger than the largest diameter. *)
Lemma over_bins_coarse dn dne : forall bins i dmin, (exists faces h, In faces bins /\ hi = Some h /\ h < own faces) ->
  exists e, over_bins csfd chron age_of tlo thi g r crater_of projectile_of size_lo size_hi areas poisson sizes times pick spot i dmin dn dne bins = Err e.
Proof.
  induction bins as [| f bins IH]; intros i dmin (faces & h & [] & E & LT).
  - subst f. cbn [over_bins]. unfold sample. destruct (Rle_dec _ 0); [exists ValueError; reflexivity |]. rewrite E.
    destruct (Rlt_dec h (Rmax (own faces) dmin)) as [_ | N]; [exists ValueError; reflexivity |]. exfalso. apply N. eapply Rlt_le_trans; [exact LT | apply Rmax_l].
  - cbn [over_bins]. destruct (sample _ _ _ _ _ _ _ _ _ _ _ _ _) as [[d1 t1] | e]; cbn [rbind]; [| exists e; reflexivity].
    destruct (mapr _ _) as [l1 | e]; cbn [rbind]; [| exists e; reflexivity].
    destruct (IH (S i) (Rmax (own f) dmin)) as (e & ->); [exists faces, h; auto |]. exists e. reflexivity.
Qed.
Lemma coarse cur a bins faces h : g = Limits_model.GCrater -> Region_model.face_bins areas = Ok bins -> In faces bins -> (forall f, In f faces -> 0 <= nth f areas 0) ->
  Limits_model.d_hi r = Some h -> (forall f, In f faces -> h < sqrt (nth f areas 0)) -> faces <> [] ->
  exists e, crater_list cur a = Err e.
Proof.
  intros EG EB IF P EH LT NE. unfold Populate_model.crater_list. destruct (Run_model.validate_run_args _ _ _ _ _ _ _ _ _ _) as [p | e]; [| exists e; reflexivity]. cbn [rbind].
  rewrite EB. cbn [rbind]. destruct (over_bins_coarse (Run_model.p_dn p) (Run_model.p_dne p) bins 0 (start_min g r crater_of projectile_of size_lo size_hi)) as (e & ->).
  - exists faces, h. split; [exact IF |]. split; [rewrite hi_eq; exact EH |]. unfold own_min. rewrite EG. destruct (min_size_ok areas faces NE P) as [(f & F & ->) _]. apply LT, F.
  - exists e. reflexivity.
Qed.
End All.

(** Fast impacts of projectiles too small to be drawn. *)
Lemma fast_missed crater_of projectile_of size_lo d0 s p : Limits_spec.scaling_like crater_of projectile_of -> 0 < s -> size_lo <= s ->
  projectile_of Limits_model.Largest s <= p -> p < projectile_of Limits_model.Smallest s ->
  s <= crater_of Limits_model.Largest p /\ p < least Limits_model.GProjectile (projectile_of Limits_model.Smallest) size_lo d0 s.
Proof.
  intros SL P LE A B. split.
  - rewrite <- (Limits_spec.sl_inv _ _ SL Limits_model.Largest s P) at 1. apply (Limits_spec.sl_up _ _ SL); [apply (Limits_spec.sl_pos _ _ SL); exact P | exact A].
  - unfold least. rewrite (Rmax_left s size_lo) by lra. eapply Rlt_le_trans; [exact B | apply Rmax_l].
Qed.
