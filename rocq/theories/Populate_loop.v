(** The loop over the bins and the crater list: proofs. *)
From Coq Require Import Reals List Sorted Permutation Lra Lia Arith.
From Verif Require Import Common Sorting Run_spec Region_spec Region_more Populate_model Populate_spec Populate_proofs.
From Verif Require Run_model Run_proofs Limits_model Limits_spec Region_model Random_model.
Import ListNotations.
Open Scope R_scope.

Lemma good_area csfd chron age_of A B : good_production csfd chron age_of A -> 0 < B -> good_production csfd chron age_of B.
Proof. intros [H1 H2 H3 H4 H5] P. constructor; assumption. Qed.

Lemma bin_period csfd chron age_of tlo thi A B dn dne ts te t0 t1 p q :
  good_production csfd chron age_of A -> 0 < B -> 0 <= te -> 0 <= ts -> 0 < csfd (fst dn) -> fst dne = fst dn ->
  csfd (fst dn) * chron ts = snd dn / A -> csfd (fst dn) * chron te = snd dne / A ->
  Run_model.sample_args csfd chron age_of tlo thi B None None (Some (scaled (B / A) dn)) (Some (scaled (B / A) dne)) = Ok (t0, t1, p, q) ->
  t0 = ts /\ t1 = te /\ te <= ts.
Proof.
  intros G PB P1 P2 PC EF E1 E2 S. pose proof (gp_area _ _ _ _ G) as PA.
  destruct (Run_proofs.sample_ok csfd chron age_of tlo thi B (good_area _ _ _ _ _ G PB) _ _ _ _ _ _ _ _ S) as (A1 & A2 & A3 & A4 & A5 & -> & A6 & ->).
  unfold scaled in *. cbn [fst snd] in *.
  assert (R1 : snd dn * (B / A) / B = snd dn / A) by (field; lra). assert (R2 : snd dne * (B / A) / B = snd dne / A) by (field; lra).
  rewrite R1 in A4. rewrite R2 in A5.
  assert (t0 = ts) by (apply (Run_proofs.root_unique csfd chron age_of A G (fst dn) (snd dn / A)); [exact PC | split; [lra | exact A4] | split; [lra | exact E1]]).
  assert (t1 = te) by (apply (Run_proofs.root_unique csfd chron age_of A G (fst dn) (snd dne / A)); [exact PC | split; [lra | exact A5] | split; [lra | exact E2]]).
  subst. lra.
Qed.

Lemma mapr_forall2 {A B} (f : A -> result B) l : forall out, mapr f l = Ok out <-> Forall2 (fun x y => f x = Ok y) l out.
Proof.
  induction l as [| x l IH]; intros out; cbn.
  - split; [intros E; injection E as <-; constructor | intros F; inversion F; reflexivity].
  - split.
    + intros E. destruct (f x) as [y |] eqn:EY; [| discriminate]. cbn in E. destruct (mapr f l) as [ys |] eqn:EM; [| discriminate]. injection E as <-. constructor; [exact EY | apply IH; reflexivity].
    + intros F. inversion F; subst. rewrite H1. cbn. apply IH in H3. rewrite H3. reflexivity.
Qed.
Lemma forall2_length {A B} (P : A -> B -> Prop) l m : Forall2 P l m -> List.length l = List.length m.
Proof. induction 1; cbn; congruence. Qed.
Lemma zip3_app {A B D} (a : list A) : forall (b : list B) (c : list D) a' b' c', List.length a = List.length b -> List.length b = List.length c ->
  zip3 (a ++ a') (b ++ b') (c ++ c') = (zip3 a b c ++ zip3 a' b' c')%list.
Proof. induction a as [| x a IH]; intros [| y b] [| z c] a' b' c' E F; cbn in *; try discriminate; [reflexivity |]. f_equal. apply IH; lia. Qed.
Lemma zip3_length {A B D} (a : list A) : forall (b : list B) (c : list D), List.length a = List.length b -> List.length b = List.length c -> List.length (zip3 a b c) = List.length a.
Proof. induction a as [| x a IH]; intros [| y b] [| z c] E F; cbn in *; try discriminate; [reflexivity |]. f_equal. apply IH; lia. Qed.
Lemma zip3_in {A B D} (a : list A) : forall (b : list B) (c : list D) x y z, In (x, y, z) (zip3 a b c) -> In x a /\ In y b /\ In z c.
Proof.
  induction a as [| u a IH]; intros [| v b] [| w c] x y z I; cbn in I; try contradiction. destruct I as [I | I].
  - injection I as -> -> ->. cbn. tauto.
  - apply IH in I. cbn. tauto.
Qed.

Section Loop.
Context {C L : Type}.
Context (csfd chron : R -> R) (age_of : R -> R -> result R) (tlo thi : option R).
Context (g : Limits_model.generator) (r : Limits_model.range)
  (crater_of projectile_of : Limits_model.limit -> R -> R) (size_lo size_hi : R).
Context (areas : list R).
Context (poisson : nat -> R -> nat) (sizes : nat -> nat -> R -> option R -> list R)
  (times : nat -> R -> R -> list R -> list R) (pick : nat -> nat -> R) (spot : nat -> nat -> nat -> L).
Context (fits : R -> option R -> R -> Prop) (inside : nat -> L -> Prop).
Context (GD : good_draws sizes times pick spot fits inside).
Context (G : good_production csfd chron age_of (total areas)).
Context (POS : forall f, In f areas -> 0 < f).

Notation own := (own_min g projectile_of size_lo size_hi areas).
Notation hi := (diam_max g r crater_of projectile_of size_lo size_hi).
Notation loop := (over_bins csfd chron age_of tlo thi g r crater_of projectile_of size_lo size_hi areas poisson sizes times pick spot).
Notation lo := (least g (projectile_of Limits_model.Smallest) size_lo).

Definition to_impact (x : R * L * R) : impact L := let '(d, l, t) := x in mk_impact d t l.

Lemma own_least faces s d0 : smallest_size areas faces s -> bin_min_size areas faces = s -> Rmax (own faces) d0 = lo d0 s.
Proof. intros _ E. unfold own_min, least. destruct g; rewrite E; reflexivity. Qed.

Lemma one_bin i d0 dmin dn dne ts te faces ds tl ls :
  faces <> [] -> (forall f, In f faces -> (f < List.length areas)%nat) ->
  0 <= te -> 0 <= ts -> 0 < csfd (fst dn) -> fst dne = fst dn ->
  csfd (fst dn) * chron ts = snd dn / total areas -> csfd (fst dn) * chron te = snd dne / total areas ->
  Rmax (own faces) dmin = Rmax (own faces) d0 ->
  sample csfd chron age_of tlo thi poisson sizes times i (Rmax (own faces) dmin) hi (bin_area areas faces)
    (scaled (bin_area areas faces / total areas) dn) (scaled (bin_area areas faces / total areas) dne) = Ok (ds, tl) ->
  mapr (fun k => rbind (choose faces (map (fun a => a / bin_area areas faces) (areas_of areas faces)) (pick i k)) (fun f => Ok (spot i k f))) (seq 0 (List.length ds)) = Ok ls ->
  List.length ds = List.length ls /\ List.length ls = List.length tl /\
  bin_impacts areas csfd chron (poisson i) fits inside (lo d0) hi ts te faces (map to_impact (zip3 ds ls tl)).
Proof.
  intros NE RA P1 P2 PC EF E1 E2 ED S M.
  assert (PF : forall f, In f faces -> 0 < nth f areas 0) by (intros f F; apply POS, nth_In, RA, F).
  assert (PB : 0 < bin_area areas faces). { unfold bin_area, total, areas_of. destruct faces as [| f r0]; [congruence |]. cbn [map Random_model.rsum].
    pose proof (PF f (or_introl eq_refl)). assert (0 <= Random_model.rsum (map (fun f0 => nth f0 areas 0) r0)); [| lra]. apply Random_proofs.rsum_nonneg, Forall_forall. intros x X. apply in_map_iff in X. destruct X as (y & <- & Y). apply Rlt_le, PF. right. exact Y. }
  unfold sample in S. destruct (Rle_dec (Rmax (own faces) dmin) 0); [discriminate |].
  destruct (match hi with Some h => if Rlt_dec h (Rmax (own faces) dmin) then true else false | None => false end); [discriminate |].
  destruct (Run_model.sample_args _ _ _ _ _ _ _ _ _ _) as [[[[t0 t1] p] q] |] eqn:SA; [| discriminate]. cbn [rbind] in S.
  destruct (bin_period _ _ _ _ _ _ _ _ _ _ _ _ _ _ _ G PB P1 P2 PC EF E1 E2 SA) as (-> & -> & LE).
  rewrite ED in S. set (cnt := poisson i _) in S. injection S as <- <-. set (ds := sizes i cnt (Rmax (own faces) d0) hi) in *. set (tl := match ds with [] => [] | _ => times i ts te ds end).
  assert (LT : List.length tl = List.length ds) by (unfold tl; destruct ds eqn:EQ; [reflexivity | rewrite <- EQ; apply (gd_times _ _ _ _ _ _ GD)]).
  apply mapr_forall2 in M. pose proof (forall2_length _ _ _ M) as LL. rewrite seq_length in LL. split; [exact LL |]. split; [congruence |].
  assert (IT : forall t, In t tl -> te <= t <= ts). { intros t T. unfold tl in T. destruct ds eqn:EQ; [destruct T |]. rewrite <- EQ in T. exact (gd_period _ _ _ _ _ _ GD i ts te ds t LE T). }
  assert (IL : forall l, In l ls -> exists f, In f faces /\ inside f l).
  { intros l HL. apply In_nth_error in HL. destruct HL as (k & K). clear - M K PF PB GD.
    revert k K. induction M as [| x y xs ys E F IH]; intros [| k] K; cbn in K; try discriminate; [| exact (IH k K)]. injection K as ->.
    destruct (choose_spec areas faces (pick i x)) as (j & f & J & CH & _); [intros f F'; apply Rlt_le, PF, F' | exact PB | apply (gd_pick _ _ _ _ _ _ GD) |].
    rewrite CH in E. cbn in E. injection E as <-. exists f. split; [apply nth_error_In in J; exact J | apply (gd_spot _ _ _ _ _ _ GD)]. }
  assert (MS : forall s, smallest_size areas faces s -> Rmax (own faces) d0 = lo d0 s).
  { intros s HS. apply own_least; [exact HS |]. apply (smallest_size_unique areas faces); [| exact HS]. apply min_size_ok; [exact NE |]. intros f F. apply Rlt_le, PF, F. }
  constructor.
  - intros s HS. rewrite map_length, zip3_length by congruence. rewrite <- (MS s HS), <- area_eq. unfold ds. rewrite (gd_count _ _ _ _ _ _ GD). reflexivity.
  - intros s x HS X. apply in_map_iff in X. destruct X as ([[d l] t] & <- & X). apply zip3_in in X. destruct X as (X & _ & _). cbn. rewrite <- (MS s HS). exact (gd_sizes _ _ _ _ _ _ GD _ _ _ _ _ X).
  - intros x X. apply in_map_iff in X. destruct X as ([[d l] t] & <- & X). apply zip3_in in X. cbn. apply IT, X.
  - intros x X. apply in_map_iff in X. destruct X as ([[d l] t] & <- & X). apply zip3_in in X. cbn. apply IL, X.
Qed.

Lemma all_bins dn dne ts te d0 : 0 <= te -> 0 <= ts -> 0 < csfd (fst dn) -> fst dne = fst dn ->
  csfd (fst dn) * chron ts = snd dn / total areas -> csfd (fst dn) * chron te = snd dne / total areas ->
  forall bins i dmin ds tl ls,
  Forall (fun faces => faces <> [] /\ forall f, In f faces -> (f < List.length areas)%nat) bins ->
  ForallOrdPairs (fun a b => own a <= own b) bins -> Forall (fun faces => Rmax (own faces) dmin = Rmax (own faces) d0) bins ->
  loop i dmin dn dne bins = Ok (ds, tl, ls) ->
  exists parts, List.length parts = List.length bins /\ List.concat parts = map to_impact (zip3 ds ls tl) /\
  forall j faces part, nth_error bins j = Some faces -> nth_error parts j = Some part ->
    bin_impacts areas csfd chron (poisson (i + j)%nat) fits inside (lo d0) hi ts te faces part.
Proof.
  intros P1 P2 PC EF E1 E2. induction bins as [| faces bins IH]; intros i dmin ds tl ls F O D H; cbn [over_bins] in H.
  - injection H as <- <- <-. exists []. split; [reflexivity |]. split; [reflexivity |]. intros [| j] faces part E; discriminate.
  - inversion F as [| ? ? [NE RA] F']; subst. inversion O as [| ? ? OH O']; subst. inversion D as [| ? ? DH D']; subst.
    destruct (sample _ _ _ _ _ _ _ _ _ _ _ _ _) as [[d1 t1] |] eqn:SM; [| discriminate]. cbn [rbind] in H.
    destruct (mapr _ _) as [l1 |] eqn:M; [| discriminate]. cbn [rbind] in H.
    destruct (loop (S i) _ dn dne bins) as [[[d2 t2] l2] |] eqn:R2; [| discriminate]. cbn [rbind] in H. injection H as <- <- <-.
    destruct (one_bin _ d0 _ _ _ ts te _ _ _ _ NE RA P1 P2 PC EF E1 E2 DH SM M) as (L1 & L2 & B1).
    assert (D2 : Forall (fun faces0 => Rmax (own faces0) (Rmax (own faces) dmin) = Rmax (own faces0) d0) bins).
    { rewrite Forall_forall in *. intros x X. pose proof (OH x X) as LEx. pose proof (D' x X) as Ex. rewrite <- Ex.
      unfold Rmax. repeat destruct (Rle_dec _ _); lra. }
    destruct (IH _ _ _ _ _ F' O' D2 R2) as (parts & LP & CP & BP).
    exists (map to_impact (zip3 d1 l1 t1) :: parts). split; [cbn; congruence |]. split.
    + cbn [List.concat]. rewrite CP, zip3_app, map_app by congruence. reflexivity.
    + intros [| j] fs part A B; cbn in A, B.
      * injection A as <-. injection B as <-. rewrite Nat.add_0_r. exact B1.
      * rewrite Nat.add_succ_r. apply (BP j fs part A B).
Qed.
End Loop.
