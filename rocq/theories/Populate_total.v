(** When populate succeeds; a concrete case. *)
From Coq Require Import Reals List Sorted Permutation Lra Lia Arith.
From Verif Require Import Common Sorting Run_spec Region_spec Region_more Populate_model Populate_spec Populate_proofs Populate_loop Populate_cases.
From Verif Require Run_model Run_proofs Limits_model Limits_spec Region_model Region_cases Random_model.
Import ListNotations.
Open Scope R_scope.

Section Resample.
Context (csfd chron : R -> R) (age_of : R -> R -> result R) (tlo thi : option R) (A : R).
Context (G : good_production csfd chron age_of A).

Lemma chron_nonneg t : 0 <= t -> 0 <= chron t.
Proof. intros [P | <-]; [rewrite <- (gp_zero _ _ _ _ G) at 1; apply Rlt_le, (gp_mono _ _ _ _ G); lra | rewrite (gp_zero _ _ _ _ G); lra]. Qed.
Lemma csfd_ok (p : R * R) : 0 <= fst p -> 0 <= snd p -> Run_model.validate_csfd p = Ok tt.
Proof. intros P Q. unfold Run_model.validate_csfd. destruct (Rlt_dec (fst p) 0); [lra |]. destruct (Rlt_dec (snd p) 0); [lra | reflexivity]. Qed.
Lemma csfd_inv (p : R * R) x : Run_model.validate_csfd p = Ok x -> 0 <= fst p.
Proof. unfold Run_model.validate_csfd. destruct (Rlt_dec (fst p) 0); [discriminate |]. intros _. lra. Qed.
Lemma sample_inv ts te dn dne t0 t1 p q : Run_model.sample_args csfd chron age_of tlo thi A ts te dn dne = Ok (t0, t1, p, q) ->
  0 <= fst p /\ Run_model.validate_age tlo thi t0 t1 = Ok tt.
Proof.
  unfold Run_model.sample_args. destruct (Bool.eqb _ _); [discriminate |]. destruct (_ && _); [discriminate |]. destruct (Rlt_dec A 0); [discriminate |].
  destruct (Run_model.sample_start _ _ _ _ _ _ ts dn) as [[t0' p'] |] eqn:S; [| discriminate]. cbn [rbind].
  destruct (Run_model.sample_end _ _ _ _ _ _ t0' _ te dne) as [[t1' q'] |] eqn:E; [| discriminate]. cbn [rbind]. intros H. injection H as -> -> -> ->. split.
  - unfold Run_model.sample_start in S. destruct dn as [d |].
    + destruct (Run_model.validate_csfd d) eqn:V; [| discriminate]. cbn [rbind] in S. destruct (age_of _ _); [| discriminate]. cbn in S. injection S as _ <-. exact (csfd_inv _ _ V).
    + destruct ts as [t |]; [| discriminate]. destruct (Run_model.fn_chk _ _ _ _ _ _); [| discriminate]. cbn in S. injection S as _ <-. cbn. unfold Run_model.REF_DIAM. lra.
  - unfold Run_model.sample_end in E. cbv zeta in E. destruct (match te, dne with None, None => Some (Run_model.REF_DIAM, 0) | _, _ => dne end) as [q0 |].
    + destruct (Run_model.validate_csfd q0); [| discriminate]. cbn [rbind] in E. destruct (Req_EM_T (fst q0) (fst p)).
      * cbn [rbind] in E. destruct (match te, dne with None, None => Some 0 | _, _ => te end) as [t' |]; cbn [rbind] in E.
        -- destruct (Run_model.validate_age tlo thi t0 t') as [[] |] eqn:VA; [| discriminate]. cbn [rbind] in E. injection E as <- _. exact VA.
        -- destruct (Run_model.validate_csfd q0); [| discriminate]. cbn [rbind] in E. destruct (age_of _ _) as [t' |]; [| discriminate]. cbn [rbind] in E.
           destruct (Run_model.validate_age tlo thi t0 t') as [[] |] eqn:VA; [| discriminate]. cbn [rbind] in E. injection E as <- _. exact VA.
      * destruct (match te, dne with None, None => Some 0 | _, _ => te end) as [t' |]; [| discriminate].
        destruct (Run_model.fn_chk _ _ _ _ _ _); [| discriminate]. cbn [rbind] in E.
        destruct (Run_model.validate_age tlo thi t0 t') as [[] |] eqn:VA; [| discriminate]. cbn [rbind] in E. injection E as <- _. exact VA.
    + cbn [rbind] in E. destruct (match te, dne with None, None => Some 0 | _, _ => te end) as [t' |]; [| discriminate]. cbn [rbind] in E.
      destruct (Run_model.validate_age tlo thi t0 t') as [[] |] eqn:VA; [| discriminate]. cbn [rbind] in E.
      destruct (Run_model.fn_chk _ _ _ _ _ _); [| discriminate]. cbn [rbind] in E. injection E as <- _. exact VA.
Qed.
Lemma resample ts te dn dne t0 t1 p q B : solver_complete csfd chron age_of thi -> 0 < B ->
  Run_model.sample_args csfd chron age_of tlo thi A ts te dn dne = Ok (t0, t1, p, q) ->
  exists y, Run_model.sample_args csfd chron age_of tlo thi B None None (Some (scaled (B / A) p)) (Some (scaled (B / A) q)) = Ok y.
Proof.
  intros SC PB H. destruct (sample_inv _ _ _ _ _ _ _ _ H) as [F VA]. pose proof (gp_area _ _ _ _ G) as PA.
  destruct (Run_proofs.sample_ok csfd chron age_of tlo thi A G _ _ _ _ _ _ _ _ H) as (A1 & A2 & A3 & A4 & A5 & _).
  destruct (Run_proofs.va_ok _ _ _ _ VA) as (_ & _ & TH).
  assert (R1 : snd p * (B / A) / B = csfd (fst p) * chron t0) by (rewrite A4; field; lra).
  assert (R2 : snd q * (B / A) / B = csfd (fst p) * chron t1) by (rewrite A5; field; lra).
  assert (N1 : 0 <= snd p * (B / A)). { assert (0 <= snd p * (B / A) / B) by (rewrite R1; apply Rmult_le_pos; [lra | apply chron_nonneg; lra]). replace (snd p * (B / A)) with (snd p * (B / A) / B * B) by (field; lra). apply Rmult_le_pos; lra. }
  assert (N2 : 0 <= snd q * (B / A)). { assert (0 <= snd q * (B / A) / B) by (rewrite R2; apply Rmult_le_pos; [lra | apply chron_nonneg; lra]). replace (snd q * (B / A)) with (snd q * (B / A) / B * B) by (field; lra). apply Rmult_le_pos; lra. }
  destruct (SC (fst p) t0 ltac:(lra) TH A2) as (u0 & U0). destruct (SC (fst p) t1 ltac:(lra)) as (u1 & U1); [intros h Eh; specialize (TH h Eh); lra | exact A2 |].
  assert (u0 = t0). { destruct (gp_root _ _ _ _ G _ _ _ U0) as (V1 & V2 & V3). apply (Run_proofs.root_unique csfd chron age_of A G (fst p) (csfd (fst p) * chron t0)); [exact A2 | split; assumption | split; [lra | reflexivity]]. }
  assert (u1 = t1). { destruct (gp_root _ _ _ _ G _ _ _ U1) as (V1 & V2 & V3). apply (Run_proofs.root_unique csfd chron age_of A G (fst p) (csfd (fst p) * chron t1)); [exact A2 | split; assumption | split; [lra | reflexivity]]. }
  subst u0 u1. unfold Run_model.sample_args. cbn [Run_model.given Bool.eqb andb]. destruct (Rlt_dec B 0); [lra |].
  unfold Run_model.sample_start. rewrite csfd_ok by (cbn; assumption). cbn [rbind scaled fst snd]. rewrite R1, U0. cbn [rbind].
  unfold Run_model.sample_end. cbv zeta. cbn [scaled fst snd]. rewrite A3. rewrite csfd_ok by (cbn; first [assumption | lra]). cbn [rbind].
  destruct (Req_EM_T (fst p) (fst p)); [| congruence]. cbn [rbind]. rewrite csfd_ok by (cbn; first [assumption | lra]). cbn [rbind]. unfold scaled. cbn [fst snd]. rewrite A3, R2, U1. cbn [rbind]. rewrite VA. cbn [rbind].
  eexists. reflexivity.
Qed.
End Resample.

Section Total.
Context {C L : Type}.
Context (csfd chron : R -> R) (age_of : R -> R -> result R) (tlo thi : option R) (Dconv Nconv : R).
Context (g : Limits_model.generator) (r : Limits_model.range)
  (crater_of projectile_of : Limits_model.limit -> R -> R) (size_lo size_hi : R).
Context (areas : list R).
Context (poisson : nat -> R -> nat) (sizes : nat -> nat -> R -> option R -> list R)
  (times : nat -> R -> R -> list R -> list R) (pick : nat -> nat -> R) (spot : nat -> nat -> nat -> L).
Context (make : L -> R -> R -> result C) (ctime : C -> R) (merge : option (R -> R -> list C -> list C)).
Notation crater_list := (crater_list csfd chron age_of tlo thi Dconv Nconv g r crater_of projectile_of size_lo size_hi areas poisson sizes times pick spot make ctime merge).
Notation own := (own_min g projectile_of size_lo size_hi areas).
Notation hi := (diam_max g r crater_of projectile_of size_lo size_hi).
Notation lo := (least g (projectile_of Limits_model.Smallest) size_lo).

Lemma mapr_total {X Y} (f : X -> result Y) l : (forall x, In x l -> exists y, f x = Ok y) -> exists out, mapr f l = Ok out.
Proof.
  induction l as [| x l IH]; intros H; [exists []; reflexivity |]. cbn. destruct (H x (or_introl eq_refl)) as (y & ->). cbn.
  destruct IH as (ys & ->); [intros z Z; apply H; right; exact Z |]. exists (y :: ys). reflexivity.
Qed.

Lemma loop_total dn dne : (forall B, 0 < B -> exists y, Run_model.sample_args csfd chron age_of tlo thi B None None (Some (scaled (B / total areas) dn)) (Some (scaled (B / total areas) dne)) = Ok y) ->
  (forall f, In f areas -> 0 < f) -> (forall i k, 0 <= pick i k < 1) ->
  forall bins i dmin, Forall (fun faces => faces <> [] /\ forall f, In f faces -> (f < List.length areas)%nat) bins ->
  Forall (fun faces => 0 < own faces /\ forall h, hi = Some h -> own faces <= h) bins -> (forall h, hi = Some h -> dmin <= h) ->
  exists out, over_bins csfd chron age_of tlo thi g r crater_of projectile_of size_lo size_hi areas poisson sizes times pick spot i dmin dn dne bins = Ok out.
Proof.
  intros SA POS PK. induction bins as [| faces bins IH]; intros i dmin F O D; [eexists; reflexivity |]. cbn [over_bins].
  inversion F as [| ? ? [NE RA] F']; subst. inversion O as [| ? ? [O1 O2] O']; subst.
  assert (PF : forall f, In f faces -> 0 < nth f areas 0) by (intros f FF; apply POS, nth_In, RA, FF).
  assert (PB : 0 < bin_area areas faces). { unfold bin_area, total, areas_of. destruct faces as [| f r0]; [congruence |]. cbn [map Random_model.rsum].
    pose proof (PF f (or_introl eq_refl)). assert (0 <= Random_model.rsum (map (fun f0 => nth f0 areas 0) r0)); [| lra]. apply Random_proofs.rsum_nonneg, Forall_forall. intros x X. apply in_map_iff in X. destruct X as (y & <- & Y). apply Rlt_le, PF. right. exact Y. }
  assert (D' : forall h, hi = Some h -> Rmax (own faces) dmin <= h) by (intros h Eh; apply Rmax_lub; [apply O2; exact Eh | apply D; exact Eh]).
  unfold sample at 1. destruct (Rle_dec (Rmax (own faces) dmin) 0) as [N | _]; [exfalso; pose proof (Rmax_l (own faces) dmin); lra |].
  destruct (match hi with Some h => if Rlt_dec h (Rmax (own faces) dmin) then true else false | None => false end) eqn:EH.
  { exfalso. destruct hi as [h |]; [| discriminate]. destruct (Rlt_dec h (Rmax (own faces) dmin)) as [N |]; [| discriminate]. pose proof (D' h eq_refl). lra. }
  destruct (SA _ PB) as ([[[t0 t1] p] q] & ->). cbn [rbind].
  match goal with |- context [mapr ?f ?l] => destruct (mapr_total f l) as (ls & ->) end.
  { intros k _. destruct (choose_spec areas faces (pick i k)) as (j & f & J & -> & _); [intros f FF; apply Rlt_le, PF, FF | exact PB | apply PK |]. eexists. reflexivity. }
  cbn [rbind]. destruct (IH (S i) (Rmax (own faces) dmin) F' O' D') as ([[d2 t2] l2] & ->). cbn [rbind]. eexists. reflexivity.
Qed.

Lemma succeeds cur a p s b :
  good_production csfd chron age_of (total areas) -> solver_complete csfd chron age_of thi -> (forall i k, 0 <= pick i k < 1) -> (forall l t d, exists c, make l t d = Ok c) ->
  smallest areas s -> largest areas b -> 0 < s -> (forall k : nat, b <> s * 2 ^ k) ->
  (forall h f, Limits_model.d_hi r = Some h -> In f areas -> lo (Limits_model.d_lo r) (sqrt f) <= h) ->
  (forall d, 0 < d -> 0 < projectile_of Limits_model.Smallest d) ->
  Run_model.validate_run_args csfd chron age_of tlo thi (total areas) Dconv Nconv cur a = Ok p ->
  exists l, crater_list cur a = Ok l.
Proof.
  intros G SC PK MK S1 B1 SP NP FIT PP V. unfold Populate_model.crater_list. rewrite V. cbn [rbind].
  destruct (bins_ok areas s b S1 B1 SP NP) as (bins & EB & PB & NEB & RB). rewrite EB. cbn [rbind].
  assert (POS : forall f, In f areas -> 0 < f) by (intros f F; apply Rlt_le_trans with s; [exact SP | apply S1; exact F]).
  assert (RNG : Forall (fun faces => faces <> [] /\ forall f, In f faces -> (f < List.length areas)%nat) bins).
  { apply Forall_forall. intros x X. split; [apply NEB; exact X |]. intros f F. assert (I : In f (List.concat bins)) by (apply in_concat; exists x; split; assumption).
    apply (Permutation_in _ PB) in I. apply in_seq in I. lia. }
  assert (FITS : Forall (fun faces => 0 < own faces /\ forall h, hi = Some h -> own faces <= h) bins).
  { rewrite Forall_forall in *. intros x X. destruct (RNG x X) as [NX RX].
    assert (PX : forall f, In f x -> 0 <= nth f areas 0) by (intros f F; apply Rlt_le, POS, nth_In, RX, F).
    destruct (min_size_ok areas x NX PX) as [(f & F & EF) _]. assert (I : In (nth f areas 0) areas) by (apply nth_In, RX, F).
    assert (0 < bin_min_size areas x) by (rewrite EF; apply sqrt_lt_R0, POS, I).
    assert (OW : own x = match g with Limits_model.GCrater => sqrt (nth f areas 0) | Limits_model.GProjectile => projectile_of Limits_model.Smallest (Rmax (sqrt (nth f areas 0)) size_lo) end)
      by (unfold own_min; rewrite EF; destruct g; reflexivity).
    split.
    - rewrite OW. destruct g; [rewrite <- EF; assumption |]. apply PP. rewrite <- EF. eapply Rlt_le_trans; [eassumption | apply Rmax_l].
    - intros h Eh. rewrite hi_eq in Eh. pose proof (FIT h _ Eh I) as Q. unfold least in Q. rewrite <- OW in Q. eapply Rle_trans; [apply Rmax_l | exact Q]. }
  assert (ST : forall h, hi = Some h -> start_min g r crater_of projectile_of size_lo size_hi <= h).
  { intros h Eh. rewrite hi_eq in Eh. rewrite start_eq. pose proof (FIT h s Eh (proj1 S1)) as Q. unfold least in Q. eapply Rle_trans; [apply Rmax_r | exact Q]. }
  assert (SA : forall B, 0 < B -> exists y, Run_model.sample_args csfd chron age_of tlo thi B None None (Some (scaled (B / total areas) (Run_model.p_dn p))) (Some (scaled (B / total areas) (Run_model.p_dne p))) = Ok y).
  { intros B HB. clear - V G SC HB. unfold Run_model.validate_run_args in V. destruct (Run_model.pick_args _ _ _ _ _) as [[[[ts te] dn] dne] |]; [| discriminate]. cbn [rbind] in V.
    destruct (match Run_model.a_n a with Some n => _ | None => _ end) as [nint |]; [| discriminate]. cbn [rbind] in V.
    destruct (Run_model.sample_args csfd chron age_of tlo thi (total areas) ts te dn dne) as [[[[t0 t1] p0] q] |] eqn:S0; [| discriminate]. cbn [rbind] in V.
    assert (E : Run_model.p_dn p = p0 /\ Run_model.p_dne p = q).
    { destruct (Run_model.a_dt a) as [dt |].
      - destruct ts as [ts |]; [| discriminate]. destruct te as [te |]; [| discriminate]. destruct (Rlt_dec _ _); [discriminate |]. destruct (Rle_dec _ _); [discriminate |]. injection V as <-. split; reflexivity.
      - injection V as <-. split; reflexivity. }
    destruct E as [-> ->]. exact (resample csfd chron age_of tlo thi (total areas) G _ _ _ _ _ _ _ _ B SC HB S0). }
  destruct (loop_total _ _ SA POS PK bins 0%nat _ RNG FITS ST) as ([[ds tl] ls] & ->). cbn [rbind].
  match goal with |- context [mapr ?f ?l] => destruct (mapr_total f l) as (cs & ->) end; [intros [[d l] t] _; apply MK |]. cbn [rbind]. eexists. reflexivity.
Qed.
End Total.

(* ------------------------------- the case ------------------------------- *)
Lemma ex_good_draws : good_draws ex_sizes ex_times (fun _ _ => 1 / 2) (fun _ _ f => f) ex_fits (fun f l => f = l).
Proof.
  constructor.
  - intros. apply repeat_length.
  - intros i n lo hi d I. apply repeat_spec in I. subst. split; [lra | intros; lra].
  - intros. apply repeat_length.
  - intros i ts te ds t LE I. apply repeat_spec in I. lra.
  - intros. lra.
  - reflexivity.
Qed.
Lemma ex_total : total ex_areas = 5.5.
Proof. cbn. lra. Qed.
Lemma ex_production : good_production Run_proofs.csfd0 Run_proofs.chron0 Run_proofs.age0 (total ex_areas).
Proof. apply (good_area _ _ _ 1); [exact Run_proofs.good0 | rewrite ex_total; lra]. Qed.
Lemma ex_solver : solver_complete Run_proofs.csfd0 Run_proofs.chron0 Run_proofs.age0 None.
Proof. intros D t P _ _. unfold Run_proofs.age0, Run_proofs.csfd0, Run_proofs.chron0. exists (1 * t). destruct (Rle_dec 0 (1 * t)); [reflexivity | lra]. Qed.
Definition ex_args : Run_model.args := Run_model.mkArgs (Some 3) None None None None None None None None.
Lemma ex_plan : exists p, Run_model.validate_run_args Run_proofs.csfd0 Run_proofs.chron0 Run_proofs.age0 None None (total ex_areas) 1 1 None ex_args = Ok p.
Proof.
  apply (Run_proofs.accepted_times Run_proofs.csfd0 Run_proofs.chron0 Run_proofs.age0 None None (total ex_areas) 1 1 ex_production); try reflexivity.
  exists 3, 0. cbn. split; [left; auto |]. split; [lra |]. repeat (split; [first [discriminate | auto] |]). discriminate.
Qed.

Section Final.
Context {C L : Type}.
Context (csfd chron : R -> R) (age_of : R -> R -> result R) (tlo thi : option R) (Dconv Nconv : R).
Context (g : Limits_model.generator) (r : Limits_model.range)
  (crater_of projectile_of : Limits_model.limit -> R -> R) (size_lo size_hi : R).
Context (areas : list R).
Context (poisson : nat -> R -> nat) (sizes : nat -> nat -> R -> option R -> list R)
  (times : nat -> R -> R -> list R -> list R) (pick : nat -> nat -> R) (spot : nat -> nat -> nat -> L).
Context (make : L -> R -> R -> result C) (ctime : C -> R) (merge : option (R -> R -> list C -> list C)).
Notation crater_list := (crater_list csfd chron age_of tlo thi Dconv Nconv g r crater_of projectile_of size_lo size_hi areas poisson sizes times pick spot make ctime merge).
Notation lo := (least g (projectile_of Limits_model.Smallest) size_lo).

Lemma population_all fits inside cur a l :
  good_production csfd chron age_of (total areas) -> good_draws sizes times pick spot fits inside ->
  (forall f, In f areas -> 0 < f) ->
  (g = Limits_model.GProjectile -> forall d e, 0 < d -> d <= e -> projectile_of Limits_model.Smallest d <= projectile_of Limits_model.Smallest e) ->
  crater_list cur a = Ok l ->
  exists ts te bins parts cs,
    period csfd chron (total areas) Dconv Nconv cur a ts te /\
    Permutation (List.concat bins) (seq 0 (List.length areas)) /\ List.length parts = List.length bins /\
    (forall i faces part, nth_error bins i = Some faces -> nth_error parts i = Some part ->
       bin_impacts areas csfd chron (poisson i) fits inside (lo (Limits_model.d_lo r)) (Limits_model.d_hi r) ts te faces part) /\
    Forall2 (fun x c => make (im_loc x) (im_time x) (im_diam x) = Ok c) (List.concat parts) cs /\
    exists sorted, Permutation cs sorted /\ oldest_first ctime sorted /\
    l = match merge with Some m => m ts te sorted | None => sorted end.
Proof.
  intros G GD POS MONO H.
  assert (FB : exists bins, Region_model.face_bins areas = Ok bins).
  { unfold Populate_model.crater_list in H. destruct (Run_model.validate_run_args _ _ _ _ _ _ _ _ _ _); [| discriminate]. cbn [rbind] in H.
    destruct (Region_model.face_bins areas) as [bins |]; [exists bins; reflexivity | discriminate]. }
  destruct FB as (bins0 & FB). destruct areas as [| a0 rest] eqn:EA; [discriminate FB |]. rewrite <- EA in *.
  assert (SM : exists s, smallest areas s) by (exists (Region_model.rmin a0 rest); rewrite EA; apply rmin_spec).
  assert (LG : exists b, largest areas b) by (exists (Region_model.rmax a0 rest); rewrite EA; apply rmax_spec).
  destruct SM as (s & S1), LG as (b & B1). assert (SP : 0 < s) by (apply POS, S1).
  assert (NP : forall k : nat, b <> s * 2 ^ k). { intros k E. rewrite E in B1. rewrite (bins_err areas s k S1 B1 SP) in FB. discriminate FB. }
  destruct (population csfd chron age_of tlo thi Dconv Nconv g r crater_of projectile_of size_lo size_hi areas poisson sizes times pick spot make ctime merge fits inside cur a l s b G GD S1 B1 SP NP MONO H) as (ts & te & bins & parts & cs & P1 & P2 & P3).
  exists ts, te, bins, parts, cs. split; [exact P1 |]. split; [| exact P3].
  destruct (bins_ok areas s b S1 B1 SP NP) as (bins' & EB & PB & _). rewrite EB in P2. injection P2 as <-. exact PB.
Qed.
End Final.

Lemma ex_succeeds : exists l, crater_list Run_proofs.csfd0 Run_proofs.chron0 Run_proofs.age0 None None 1 1 Limits_model.GCrater ex_range ex_same ex_same 0.5 100
  ex_areas (fun _ _ => 2%nat) ex_sizes ex_times (fun _ _ => 1 / 2) (fun _ _ f => f) ex_make ex_ctime None None ex_args = Ok l.
Proof.
  destruct ex_plan as (p & P). destruct Region_cases.three_small as (S1 & B1 & NP).
  assert (SQ : forall f, 0 <= f -> f <= 100 -> sqrt f <= 100) by (intros f F1 F2; rewrite <- (sqrt_square 100) by lra; apply sqrt_le_1; lra).
  apply (succeeds Run_proofs.csfd0 Run_proofs.chron0 Run_proofs.age0 None None 1 1 Limits_model.GCrater ex_range ex_same ex_same 0.5 100 ex_areas (fun _ _ => 2%nat) ex_sizes ex_times (fun _ _ => 1 / 2) (fun _ _ f => f) ex_make ex_ctime None None ex_args p 1 3).
  - exact ex_production.
  - exact ex_solver.
  - intros. lra.
  - intros l t d. eexists. reflexivity.
  - exact S1.
  - exact B1.
  - lra.
  - exact NP.
  - cbn. intros h f E I. injection E as <-. unfold least. apply Rmax_lub; [| lra]. destruct I as [<- | [<- | [<- | []]]]; apply SQ; lra.
  - intros d D. exact D.
  - exact P.
Qed.
(** The impacts of that case: two in each of the two bins. *)
Lemma ex_positive f : In f ex_areas -> 0 < f.
Proof. intros [<- | [<- | [<- | []]]]; lra. Qed.

(** Faces of areas 1 and 9, no crater larger than 2. *)
Lemma log9 : Region_model.face_bins [1; 9] = Ok [[0]; [1]]%nat.
Proof.
  destruct (bins_ok [1; 9] 1 9) as (bins & E & P & NE & RB).
  - split; [cbn; tauto | intros y [<- | [<- | []]]; lra].
  - split; [cbn; tauto | intros y [<- | [<- | []]]; lra].
  - lra.
  - intros k E. assert (K : (k <= 3 \/ 4 <= k)%nat) by lia. destruct K as [K | K].
    + destruct k as [| [| [| [| k]]]]; cbn in E; try lra. lia.
    + assert (2 ^ 4 <= 2 ^ k) by (apply Rle_pow; [lra | exact K]). cbn in H. lra.
  - rewrite E. f_equal. pose proof (bins_ordered [1; 9] 1 9 bins) as O. assert (OO : ForallOrdPairs (below [1; 9]) bins).
    { apply O; [split; [cbn; tauto | intros y [<- | [<- | []]]; lra] | split; [cbn; tauto | intros y [<- | [<- | []]]; lra] | lra | | exact E].
      intros k EE. assert (K : (k <= 3 \/ 4 <= k)%nat) by lia. destruct K as [K | K].
      + destruct k as [| [| [| [| k]]]]; cbn in EE; try lra. lia.
      + assert (2 ^ 4 <= 2 ^ k) by (apply Rle_pow; [lra | exact K]). cbn in H. lra. }
    clear E O.
    assert (IN : forall x, In x (List.concat bins) <-> x = 0%nat \/ x = 1%nat).
    { intros x. split; intros I; [apply (Permutation_in _ P) in I; cbn in I; destruct I as [<- | [<- | []]]; tauto | apply (Permutation_in _ (Permutation_sym P)); cbn; destruct I as [-> | ->]; tauto]. }
    assert (LEN : List.length (List.concat bins) = 2%nat) by (rewrite (Permutation_length P); reflexivity).
    destruct bins as [| b1 bins]; [cbn in LEN; discriminate |]. destruct b1 as [| x b1]; [exfalso; apply (NE []); [left; reflexivity | reflexivity] |].
    destruct b1 as [| y b1].
    + destruct bins as [| b2 bins]; [cbn in LEN; discriminate |]. destruct b2 as [| y b2]; [exfalso; apply (NE []); [right; left; reflexivity | reflexivity] |].
      cbn in LEN. destruct b2 as [| z b2]; [| cbn in LEN; discriminate].
      destruct bins as [| b3 bins].
      * inversion OO; subst. inversion H1; subst. specialize (H3 x y (or_introl eq_refl) (or_introl eq_refl)).
        assert (X : x = 0%nat \/ x = 1%nat) by (apply IN; cbn; tauto). assert (Y : y = 0%nat \/ y = 1%nat) by (apply IN; cbn; tauto).
        destruct X as [-> | ->], Y as [-> | ->]; cbn in H3; try lra. reflexivity.
      * destruct b3 as [| z b3]; [exfalso; apply (NE []); [right; right; left; reflexivity | reflexivity] |]. cbn in LEN. discriminate.
    + exfalso. assert (X : x = 0%nat \/ x = 1%nat) by (apply IN; cbn; tauto). assert (Y : y = 0%nat \/ y = 1%nat) by (apply IN; cbn; tauto).
      assert (D : NoDup (x :: y :: b1 ++ List.concat bins)) by (apply (Permutation_NoDup (Permutation_sym P)); repeat constructor; cbn; intuition lia).
      inversion D; subst. pose proof (RB (x :: y :: b1) x y (or_introl eq_refl) (or_introl eq_refl) (or_intror (or_introl eq_refl))).
      pose proof (RB (x :: y :: b1) y x (or_introl eq_refl) (or_intror (or_introl eq_refl)) (or_introl eq_refl)).
      destruct X as [-> | ->], Y as [-> | ->]; cbn in H, H0; try lra; apply H1; left; reflexivity.
Qed.

Lemma fast_missed_faces crater_of projectile_of size_lo size_hi areas faces dmin s p : Limits_spec.scaling_like crater_of projectile_of -> 0 < s -> size_lo <= s ->
  smallest_size areas faces s -> faces <> [] -> (forall f, In f faces -> 0 <= nth f areas 0) ->
  projectile_of Limits_model.Largest s <= p -> p < projectile_of Limits_model.Smallest s ->
  s <= crater_of Limits_model.Largest p /\ p < Rmax (own_min Limits_model.GProjectile projectile_of size_lo size_hi areas faces) dmin.
Proof.
  intros SL P LE SS NE PF A B. rewrite (own_least Limits_model.GProjectile projectile_of size_lo size_hi areas faces s dmin SS).
  - apply (fast_missed crater_of projectile_of); assumption.
  - apply (smallest_size_unique areas faces); [apply min_size_ok; assumption | exact SS].
Qed.

Lemma ex_keyword : populate Run_proofs.csfd0 Run_proofs.chron0 Run_proofs.age0 None None 1 1 Limits_model.GCrater ex_range ex_same ex_same 0.5 100
  ex_areas (fun _ _ => 2%nat) ex_sizes ex_times (fun _ _ => 1 / 2) (fun _ _ f => f) ex_make ex_ctime None (fun l => Ok l) true None ex_args = Err TypeError.
Proof.
  destruct ex_succeeds as (l & E). unfold populate. rewrite E. cbn [rbind].
  destruct (population_all Run_proofs.csfd0 Run_proofs.chron0 Run_proofs.age0 None None 1 1 Limits_model.GCrater ex_range ex_same ex_same 0.5 100 ex_areas (fun _ _ => 2%nat) ex_sizes ex_times (fun _ _ => 1 / 2) (fun _ _ f => f) ex_make ex_ctime None
    ex_fits (fun f l => f = l) None ex_args l ex_production ex_good_draws ex_positive ltac:(discriminate) E) as (ts & te & bins & parts & cs & _ & PB & LP & BI & F2 & so & PS & _ & EL).
  destruct l as [| x l]; [exfalso | reflexivity]. subst so. apply Permutation_sym, Permutation_nil in PS. subst cs. inversion F2 as [EC |]. symmetry in EC.
  assert (I0 : In 0%nat (List.concat bins)) by (apply (Permutation_in _ (Permutation_sym PB)); left; reflexivity).
  apply in_concat in I0. destruct I0 as (faces & IF & I0). apply In_nth_error in IF. destruct IF as (i & NB).
  destruct (nth_error parts i) as [part |] eqn:NP; [| apply nth_error_None in NP; assert (i < List.length bins)%nat by (apply nth_error_Some; congruence); lia].
  pose proof (BI i faces part NB NP) as B.
  assert (RA : forall f, In f faces -> 0 <= nth f ex_areas 0).
  { intros f F. apply Rlt_le, ex_positive, nth_In. assert (IC : In f (List.concat bins)) by (apply in_concat; exists faces; split; [apply nth_error_In in NB; exact NB | exact F]).
    apply (Permutation_in _ PB) in IC. apply in_seq in IC. lia. }
  assert (NF : faces <> []) by (intros ->; destruct I0).
  pose proof (bi_count _ _ _ _ _ _ _ _ _ _ _ _ B _ (min_size_ok ex_areas faces NF RA)) as Q. destruct part as [| y part]; [discriminate Q |].
  assert (IY : In y (List.concat parts)) by (apply in_concat; exists (y :: part); split; [apply nth_error_In in NP; exact NP | left; reflexivity]).
  rewrite EC in IY. destruct IY.
Qed.
