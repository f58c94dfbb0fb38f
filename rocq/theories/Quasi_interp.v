(** Sequence numbers without a date. *)
From Coq Require Import Reals ZArith Lra Lia Permutation Sorted.
From Verif Require Import Common RSum Sorting Quasi_model Quasi_spec Measure_spec Quasi_proofs Quasi_order Quasi_dates.
Import ListNotations.
Open Scope R_scope.

(* ------------------------------ interpolation ------------------------------ *)
Definition knots (l : list (Z * R)) : Prop := StronglySorted (fun a b => (fst a < fst b)%Z /\ snd b <= snd a) l.
Lemma knots_cons p q r : knots (p :: q :: r) -> (fst p < fst q)%Z /\ snd q <= snd p /\ knots (q :: r).
Proof. intros K. inversion K as [|? ? K' F]; subst. inversion F; subst. tauto. Qed.
Lemma slope_pos (p q : Z * R) : (fst p < fst q)%Z -> 0 < / (IZR (fst q) - IZR (fst p)).
Proof. intros H. apply IZR_lt in H. apply Rinv_0_lt_compat. lra. Qed.
Lemma interp_upper s l : forall p : Z * R, knots (p :: l) -> interp s p l <= snd p.
Proof.
  induction l as [|q r IH]; intros p K; cbn [interp]; [lra|]. destruct (knots_cons _ _ _ K) as (A & B & K').
  destruct (Z.ltb_spec s (fst q)) as [L|L].
  - destruct (Z.leb_spec s (fst p)) as [M|M]; [lra|]. apply IZR_lt in M. pose proof (slope_pos p q A).
    assert (0 <= (snd p - snd q) * / (IZR (fst q) - IZR (fst p)) * (IZR s - IZR (fst p))) by (apply Rmult_le_pos; [apply Rmult_le_pos|]; lra). unfold Rdiv. lra.
  - specialize (IH q K'). lra.
Qed.
Lemma interp_lower s m l : forall p : Z * R, knots (p :: l) -> (forall q, In q (p :: l) -> m <= snd q) -> m <= interp s p l.
Proof.
  induction l as [|q r IH]; intros p K H; cbn [interp]; [apply H; left; reflexivity|]. destruct (knots_cons _ _ _ K) as (A & B & K').
  destruct (Z.ltb_spec s (fst q)) as [L|L]; [|apply IH; [exact K'|intros x I; apply H; right; exact I]].
  destruct (Z.leb_spec s (fst p)) as [M|M]; [apply H; left; reflexivity|].
  pose proof (slope_pos p q A). apply IZR_lt in M, L, A.
  assert (X : snd q <= snd p + (snd q - snd p) / (IZR (fst q) - IZR (fst p)) * (IZR s - IZR (fst p))).
  { replace (snd p + (snd q - snd p) / (IZR (fst q) - IZR (fst p)) * (IZR s - IZR (fst p))) with (snd q + (snd p - snd q) * / (IZR (fst q) - IZR (fst p)) * (IZR (fst q) - IZR s)) by (field; lra).
    assert (0 <= (snd p - snd q) * / (IZR (fst q) - IZR (fst p)) * (IZR (fst q) - IZR s)) by (apply Rmult_le_pos; [apply Rmult_le_pos|]; lra). lra. }
  pose proof (H q (or_intror (or_introl eq_refl))). lra.
Qed.
Lemma interp_anti s s' l : forall p : Z * R, knots (p :: l) -> (s <= s')%Z -> interp s' p l <= interp s p l.
Proof.
  induction l as [|q r IH]; intros p K H; cbn [interp]; [lra|]. destruct (knots_cons _ _ _ K) as (A & B & K').
  pose proof (slope_pos p q A) as SP.
  destruct (Z.ltb_spec s' (fst q)) as [L'|L'], (Z.ltb_spec s (fst q)) as [L|L]; try lia.
  - destruct (Z.leb_spec s' (fst p)) as [M'|M'], (Z.leb_spec s (fst p)) as [M|M]; try lia; [lra| |].
    + apply IZR_lt in M'. assert (0 <= (snd p - snd q) * / (IZR (fst q) - IZR (fst p)) * (IZR s' - IZR (fst p))) by (apply Rmult_le_pos; [apply Rmult_le_pos|]; lra). unfold Rdiv. lra.
    + apply IZR_le in H. assert (0 <= (snd p - snd q) * / (IZR (fst q) - IZR (fst p)) * (IZR s' - IZR s)) by (apply Rmult_le_pos; [apply Rmult_le_pos|]; lra). unfold Rdiv. lra.
  - pose proof (interp_upper s' r q K') as U. destruct (Z.leb_spec s (fst p)) as [M|M]; [lra|].
    apply IZR_lt in M, L, A.
    replace (snd p + (snd q - snd p) / (IZR (fst q) - IZR (fst p)) * (IZR s - IZR (fst p))) with (snd q + (snd p - snd q) * / (IZR (fst q) - IZR (fst p)) * (IZR (fst q) - IZR s)) by (field; lra).
    assert (0 <= (snd p - snd q) * / (IZR (fst q) - IZR (fst p)) * (IZR (fst q) - IZR s)) by (apply Rmult_le_pos; [apply Rmult_le_pos|]; lra). lra.
  - apply IH; assumption.
Qed.
Lemma interp_line s a na b nb l1 l2 : forall p, knots (p :: l1 ++ (b, nb) :: l2)%list -> In (a, na) (p :: l1) ->
  (forall q, In q (p :: l1) -> (fst q <= a)%Z) -> (a <= s <= b)%Z -> interp s p (l1 ++ (b, nb) :: l2) = line a na b nb s.
Proof.
  induction l1 as [|q r IH]; intros p K I H L; cbn [app interp].
  - destruct I as [->|[]]. destruct (knots_cons _ _ _ K) as (A & B & K'). cbn [fst snd] in *. apply IZR_lt in A. destruct (Z.ltb_spec s b) as [M|M].
    + destruct (Z.leb_spec s a) as [N|N]; unfold line; [|field; lra]. replace s with a by lia. field. lra.
    + replace s with b by lia. unfold line. replace (na + (nb - na) * (IZR b - IZR a) / (IZR b - IZR a)) with nb by (field; lra).
      destruct l2 as [|[k v] l2]; cbn [interp]; [reflexivity|]. cbn [fst snd]. destruct (knots_cons _ _ _ K') as (A' & _ & _). cbn [fst] in A'.
      destruct (Z.ltb_spec b k); [|lia]. destruct (Z.leb_spec b b); [reflexivity|lia].
  - destruct (knots_cons _ _ _ K) as (A & B & K').
    assert (Q : (fst q <= a)%Z) by (apply H; right; left; reflexivity).
    destruct (Z.ltb_spec s (fst q)) as [M|M]; [lia|]. apply IH; [exact K'| |intros x J; apply H; right; exact J|exact L].
    destruct I as [->|I]; [cbn [fst] in *; lia|exact I].
Qed.
Lemma interp_knot k n l : forall p : Z * R, knots (p :: l) -> In (k, n) (p :: l) -> interp k p l = n.
Proof.
  induction l as [|q r IH]; intros p K I; cbn [interp].
  - destruct I as [->|[]]. reflexivity.
  - destruct (knots_cons _ _ _ K) as (A & B & K'). destruct I as [->|I].
    + cbn [fst snd] in *. destruct (Z.ltb_spec k (fst q)); [|lia]. destruct (Z.leb_spec k k); [reflexivity|lia].
    + assert (fst q <= k)%Z.
      { destruct I as [->|I]; [cbn; lia|]. inversion K' as [|? ? _ F]; subst. rewrite Forall_forall in F. specialize (F _ I). cbn in F. lia. }
      destruct (Z.ltb_spec k (fst q)); [lia|]. apply IH; assumption.
Qed.
(* ------------------------------ filled values ------------------------------ *)
Definition exact_vals (vals : list (Z * (option R * R))) : Prop :=
  StronglySorted Z.lt (map fst vals) /\ (forall s v, In (s, v) vals -> snd v = 0 /\ match fst v with Some n => 0 <= n | None => True end) /\
  (forall s s' v v' n n', In (s, v) vals -> In (s', v') vals -> (s < s')%Z -> fst v = Some n -> fst v' = Some n' -> n' <= n).
Definition level (vals : list (Z * (option R * R))) (s : Z) : R := match filled vals with p :: r => interp s p r | [] => 0 end.
Lemma filled_in s n vals : In (s, n) (filled vals) <-> exists v, In (s, v) vals /\ fst v = Some n.
Proof.
  unfold filled. rewrite in_flat_map. split.
  - intros ([s' v] & I & J). cbn [fst snd] in J. destruct (fst v) as [m|] eqn:E; [|destruct J]. destruct J as [J|[]]. injection J as <- <-. exists v. split; assumption.
  - intros (v & I & E). exists (s, v). split; [exact I|]. cbn [fst snd]. rewrite E. left. reflexivity.
Qed.
Lemma filled_knots vals : exact_vals vals -> knots (filled vals).
Proof.
  induction vals as [|[s v] r IH]; intros (S & Z0 & D); [constructor|].
  assert (R' : knots (filled r)).
  { apply IH. split; [cbn in S; inversion S; assumption|]. split; [intros s' v' I; apply (Z0 s'); right; exact I|]. intros s1 s2 v1 v2 n1 n2 I1 I2. apply D; right; assumption. }
  change (filled ((s, v) :: r)) with ((match fst v with Some n => [(s, n)] | None => [] end) ++ filled r)%list.
  destruct (fst v) as [n|] eqn:E; cbn [app]; [|exact R']. constructor; [exact R'|]. apply Forall_forall. intros [s' n'] I. cbn [fst snd]. apply filled_in in I. destruct I as (v' & I & E').
  assert (L : (s < s')%Z) by (apply (sub_sorted fst (s, v) r S (s', v') I)). split; [exact L|]. exact (D s s' v v' n n' (or_introl eq_refl) (or_intror I) L E E').
Qed.
Lemma fill_levels vals : exact_vals vals -> fill_in vals = map (fun e => (level vals (fst e), 0)) vals.
Proof.
  intros EV. pose proof (filled_knots _ EV) as K. unfold fill_in. apply map_ext_in. intros [s v] I. cbn [fst snd]. destruct EV as (_ & Z0 & _). destruct (Z0 _ _ I) as [-> _]. f_equal.
  unfold level. destruct (fst v) as [n|] eqn:E; [|reflexivity].
  assert (J : In (s, n) (filled vals)) by (apply filled_in; exists v; split; assumption).
  destruct (filled vals) as [|p r]; [destruct J|]. symmetry. apply interp_knot; assumption.
Qed.
Lemma level_anti vals s s' : exact_vals vals -> (s <= s')%Z -> level vals s' <= level vals s.
Proof. intros EV L. pose proof (filled_knots _ EV) as K. unfold level. destruct (filled vals) as [|p r]; [lra|]. apply interp_anti; assumption. Qed.
Lemma level_pos vals s : exact_vals vals -> 0 <= level vals s.
Proof.
  intros EV. pose proof (filled_knots _ EV) as K. unfold level. destruct (filled vals) as [|p r] eqn:E; [lra|]. apply interp_lower; [exact K|].
  intros [s' n'] I. rewrite <- E in I. apply filled_in in I. destruct I as (v & I & F). destruct EV as (_ & Z0 & _). destruct (Z0 _ _ I) as [_ X]. rewrite F in X. exact X.
Qed.
Lemma levels_stacked (f : Z -> R) (k : list Z) : StronglySorted Z.lt k -> (forall s, 0 <= f s) -> (forall s s', (s <= s')%Z -> f s' <= f s) -> stacked (map (fun s => (f s, 0)) k).
Proof.
  intros S P A. induction k as [|s r IH]; [exact I|]. inversion S as [|? ? S' F]; subst. cbn [map stacked]. unfold lower, upper. cbn [fst snd]. split; [specialize (P s); lra|]. split; [lra|].
  split; [|apply IH; exact S']. destruct r as [|s2 r]; [exact I|]. cbn [map fst snd]. rewrite Forall_forall in F. specialize (F s2 (or_introl eq_refl)). specialize (A s s2 ltac:(lia)). lra.
Qed.
Lemma split_between (f : Z -> R) s1 s s2 l2 l1 : forall prev, (forall s, 0 <= f s) -> (forall s s', (s <= s')%Z -> f s' <= f s) -> (s1 <= s <= s2)%Z ->
  exists l1' l2', split_pass prev (map (fun s => (f s, 0)) (l1 ++ s1 :: s :: s2 :: l2)) = (l1' ++ ((f s + f s2) / 2, (f s1 + f s) / 2) :: l2')%list /\ List.length l1' = S (List.length l1).
Proof.
  induction l1 as [|x r IH]; intros prev P A L.
  - cbn [app map split_pass]. eexists [_], _. split; [|reflexivity]. cbn [app]. f_equal. f_equal.
    pose proof (P s). pose proof (P s1). pose proof (P s2). pose proof (A s1 s ltac:(lia)). pose proof (A s s2 ltac:(lia)).
    rewrite !Rminus_0_r, !Rplus_0_r. rewrite !(Rmax_left (f _) 0) by apply P.
    rewrite (Rmax_left (f s + (f s2 - f s) / 2) 0) by lra. unfold Rltb. destruct (Rlt_dec _ _) as [X|X]; [lra|]. f_equal; lra.
  - cbn [app map]. set (w := map (fun s => (f s, 0)) (r ++ s1 :: s :: s2 :: l2)) in *. cbn [split_pass].
    destruct (IH (Some (f x, 0)) P A L) as (l1' & l2' & E & N). fold w in E. rewrite E. eexists (_ :: l1'), l2'. split; [reflexivity|]. cbn. rewrite N. reflexivity.
Qed.
Lemma refine_levels k (f : Z -> R) keys ext : StronglySorted Z.lt keys -> (forall s, 0 <= f s) -> (forall s s', (s <= s')%Z -> f s' <= f s) ->
  refine (S k) (map (fun s => (f s, 0)) keys) ext = split_pass None (map (fun s => (f s, 0)) keys) /\
  Forall proper (split_pass None (map (fun s => (f s, 0)) keys)) /\ StronglySorted above (split_pass None (map (fun s => (f s, 0)) keys)).
Proof.
  intros S P A. pose proof (levels_stacked f keys S P A) as ST. destruct (split_stacked _ None ST I) as (F & C & _).
  assert (PR : Forall proper (split_pass None (map (fun s => (f s, 0)) keys))).
  { clear -F. induction F as [|v e l r H F IH]; constructor; [unfold proper; lra|exact IH]. }
  split; [|split; [exact PR|apply chain_sorted; assumption]].
  rewrite refine_S, (join_id _ None C). destruct (chain_decreasing _ C PR) as [-> ->]. reflexivity.
Qed.
Lemma lookup_at (l1 : list Z) s l2 (e1 : list (R * R)) e e2 : StronglySorted Z.lt (l1 ++ s :: l2)%list -> List.length e1 = List.length l1 ->
  lookup s (combine (l1 ++ s :: l2) (e1 ++ e :: e2)) = Some e.
Proof.
  revert e1. induction l1 as [|x r IH]; intros [|y e1] S L; try discriminate L.
  - unfold lookup. cbn [app combine find fst]. rewrite Z.eqb_refl. reflexivity.
  - cbn [app combine]. unfold lookup. cbn [find fst]. cbn [app] in S. inversion S as [|? ? S' F]; subst. rewrite Forall_forall in F.
    specialize (F s ltac:(apply in_or_app; right; left; reflexivity)). destruct (Z.eqb_spec x s); [lia|]. apply IH; [exact S'|]. injection L as L. exact L.
Qed.

Lemma lt_app (l1 l2 : list Z) : StronglySorted Z.lt (l1 ++ l2)%list -> forall x y, In x l1 -> In y l2 -> (x < y)%Z.
Proof.
  induction l1 as [|z r IH]; intros S x y I J; [destruct I|]. cbn [app] in S. inversion S as [|? ? S' F]; subst.
  destruct I as [->|I]; [|apply IH; assumption]. rewrite Forall_forall in F. apply F, in_or_app. right. exact J.
Qed.
Lemma lt_app_r (l1 l2 : list Z) : StronglySorted Z.lt (l1 ++ l2)%list -> StronglySorted Z.lt l2.
Proof. induction l1 as [|z r IH]; intros S; [exact S|]. cbn [app] in S. inversion S; subst. apply IH. assumption. Qed.
Lemma three_in k s1 s s2 : StronglySorted Z.lt k -> In s1 k -> In s k -> In s2 k -> (s1 < s < s2)%Z -> (forall x, In x k -> ~ (s1 < x < s)%Z /\ ~ (s < x < s2)%Z) ->
  exists l1 l2, k = (l1 ++ s1 :: s :: s2 :: l2)%list.
Proof.
  intros S I1 I I2 L N. destruct (in_split s k I) as (A & B & ->). pose proof (lt_app _ _ S) as LA. pose proof (lt_app_r _ _ S) as SB. inversion SB as [|? ? SB' FB]; subst. rewrite Forall_forall in FB.
  assert (J1 : In s1 A). { apply in_app_or in I1. destruct I1 as [I1|[->|I1]]; [exact I1|lia|]. specialize (FB _ I1). lia. }
  assert (J2 : In s2 B). { apply in_app_or in I2. destruct I2 as [I2|[->|I2]]; [specialize (LA _ s I2 (or_introl eq_refl)); lia|lia|exact I2]. }
  destruct B as [|y B]; [destruct J2|]. assert (y = s2).
  { pose proof (FB y (or_introl eq_refl)). destruct J2 as [->|J2]; [reflexivity|]. inversion SB' as [|? ? _ G]; subst. rewrite Forall_forall in G. specialize (G _ J2).
    exfalso. apply (proj2 (N y ltac:(apply in_or_app; right; right; left; reflexivity))). lia. }
  subst y. destruct (@exists_last _ A) as (A' & x & ->); [intros ->; destruct J1|]. assert (x = s1).
  { pose proof (LA x s ltac:(apply in_or_app; right; left; reflexivity) (or_introl eq_refl)). apply in_app_or in J1. destruct J1 as [J1|[->|[]]]; [|reflexivity].
    rewrite <- app_assoc in S. pose proof (lt_app _ _ S s1 x J1 (or_introl eq_refl)).
    exfalso. apply (proj1 (N x ltac:(apply in_or_app; left; apply in_or_app; right; left; reflexivity))). lia. }
  subst x. exists A', B. rewrite <- app_assoc. reflexivity.
Qed.
Lemma knots_app l1 l2 : knots (l1 ++ l2)%list -> forall x y, In x l1 -> In y l2 -> (fst x < fst y)%Z.
Proof.
  induction l1 as [|z r IH]; intros S x y I J; [destruct I|]. cbn [app] in S. inversion S as [|? ? S' F]; subst.
  destruct I as [->|I]; [|apply IH; assumption]. rewrite Forall_forall in F. apply (F y). apply in_or_app. right. exact J.
Qed.
Lemma level_line vals a na b nb s : exact_vals vals -> (exists v, In (a, v) vals /\ fst v = Some na) -> (exists v, In (b, v) vals /\ fst v = Some nb) -> (a < b)%Z ->
  (forall x v, In (x, v) vals -> (a < x < b)%Z -> fst v = None) -> (a <= s <= b)%Z -> level vals s = line a na b nb s.
Proof.
  intros EV HA HB L N LS. pose proof (filled_knots _ EV) as K. apply filled_in in HA, HB.
  assert (NB : forall q, In q (filled vals) -> ~ (a < fst q < b)%Z).
  { intros [x n] I X. apply filled_in in I. destruct I as (v & I & E). cbn in X. rewrite (N x v I X) in E. discriminate. }
  unfold level. destruct (in_split _ _ HB) as (k1 & k2 & E). rewrite E in *. clear E. pose proof (knots_app _ _ K) as LA.
  assert (JA : In (a, na) k1). { apply in_app_or in HA. destruct HA as [HA|HA]; [exact HA|]. exfalso.
    change ((b, nb) :: k2) with ([(b, nb)] ++ k2)%list in K. rewrite app_assoc in K.
    destruct HA as [X|HA]; [injection X as X _; lia|]. pose proof (knots_app _ _ K (b, nb) (a, na) ltac:(apply in_or_app; right; left; reflexivity) HA) as X. cbn in X. lia. }
  destruct k1 as [|p l1]; [destruct JA|]. cbn [app] in K, NB, LA |- *. apply interp_line; [exact K|exact JA| |exact LS].
  intros q I. pose proof (LA q (b, nb) I (or_introl eq_refl)) as X. cbn [fst] in X. specialize (NB q (in_or_app (p :: l1) _ _ (or_introl I))). lia.
Qed.

Section Exact.
Context (csfd : R -> R) (number_at : R -> result R) (age : R -> result R) (nconv : R).
Context (trunc : nat -> R -> R -> R -> R -> R) (normal : nat -> R -> R -> R).
Notation contribution := (contribution csfd number_at nconv).
Notation contributions := (contributions csfd number_at nconv).
Notation group_values := (group_values csfd number_at nconv).
Notation sequence_extents := (sequence_extents csfd number_at nconv).
Notation sigma_range := (sigma_range csfd number_at nconv).
Notation values_of := (values_of csfd number_at nconv).
Notation value_of := (value_of csfd number_at nconv).
Notation process := (process csfd number_at age nconv trunc normal).
Context (craters : list qcrater).
Notation valid := (valid craters).
Notation G := (sorted_groups valid).
Lemma values_in g : forall vals s v, values_of g vals -> In (s, v) vals -> exists l1 m l2, g = (l1 ++ (s, m) :: l2)%list /\ value_of m (match l2 with [] => true | _ => false end) v.
Proof.
  induction g as [|[s0 m0] r IH]; intros [|[s' v'] vals] s v V I; cbn in V; try contradiction. destruct V as (<- & W & V). destruct I as [X|I].
  - injection X as <- <-. exists [], m0, r. split; [reflexivity|exact W].
  - destruct (IH _ _ _ V I) as (l1 & m & l2 & -> & H). exists ((s0, m0) :: l1), m, l2. split; [reflexivity|exact H].
Qed.
Lemma range_fun c lo hi lo' hi' : sigma_range c lo hi -> sigma_range c lo' hi' -> lo = lo' /\ hi = hi'.
Proof.
  intros S T. inversion S as [d n s H1 H2 H3|m s H1 H2 H3 H4]; inversion T as [d' n' s' K1 K2 K3|m' s' K1 K2 K3 K4]; try congruence.
  - rewrite H1 in K1. injection K1 as <- <- <-. split; congruence.
  - rewrite H2 in K2. injection K2 as <- <-. split; congruence.
Qed.
Lemma range_dated c lo hi : sigma_range c lo hi -> dated c.
Proof. intros S. inversion S; [left|right]; congruence. Qed.
Lemma last_key l1 s m l2 : G = (l1 ++ (s, m) :: l2)%list -> l2 <> [] -> exists s', In s' (map fst G) /\ (s < s')%Z.
Proof.
  intros E N. destruct l2 as [|[s' m'] l2]; [congruence|]. exists s'. destruct (sorted_groups_good valid) as (_ & S). rewrite E in *. rewrite map_app in *. split; [apply in_or_app; right; right; left; reflexivity|].
  apply lt_app_r in S. cbn in S. inversion S as [|? ? _ F]; subst. inversion F; subst. assumption.
Qed.
Lemma key_in_use s : In s (map fst G) <-> in_use craters s.
Proof.
  destruct (sorted_groups_good valid) as ((_ & _ & K) & _). rewrite K. split.
  - intros ([i c] & I & Q). exists c. split; [eapply member_in; exact I|exact Q].
  - intros (c & I & Q). destruct (in_member craters c I) as [i V]; [right; congruence|]. exists (i, c). split; [exact V|exact Q].
Qed.
Context (IO : in_order csfd number_at nconv craters) (ED : exact_dates csfd number_at nconv craters).
Lemma member_exact s m cs p : In (s, m) G -> contributions (map snd m) = Ok cs -> In p cs -> snd p = 0 /\ 0 <= lower p.
Proof.
  intros I E J. destruct (group_range csfd number_at nconv craters IO s m cs p I E J) as (c & C & Q & S & L & _). split; [|exact L].
  assert (X : lower p = upper p) by (apply (ED c); [exact C|congruence|exact S]). unfold lower, upper in X. lra.
Qed.
Lemma group_exact s m cs : In (s, m) G -> contributions (map snd m) = Ok cs -> cs <> [] -> snd (group_value cs) = 0 /\ 0 <= fst (group_value cs).
Proof.
  intros I E N. assert (SN : forall p, In p cs -> 0 <= snd p) by (intros p J; destruct (member_exact s m cs p I E J); lra).
  assert (Z0 : snd (group_value cs) = 0).
  { unfold group_value. cbn [snd]. assert (X : lsum (fun p => snd p ^ 2) cs = 0).
    { pose proof (lsum_bound (fun p : R * R => snd p ^ 2) cs 0 ltac:(intros p J; destruct (member_exact s m cs p I E J) as [-> _]; lra)).
      pose proof (lsum_bound_low (fun p : R * R => snd p ^ 2) cs 0 ltac:(intros p J; destruct (member_exact s m cs p I E J) as [-> _]; lra)). lra. }
    rewrite X, sqrt_0. unfold Rdiv. apply Rmult_0_l. }
  split; [exact Z0|]. pose proof (group_lower cs 0 N SN ltac:(intros p J; apply (member_exact s m cs p I E J))) as X. unfold lower in X. lra.
Qed.
Lemma vals_exact vals : values_of G vals -> exact_vals vals.
Proof.
  intros V. destruct (sorted_groups_good valid) as (_ & S). split; [rewrite (values_keys _ _ _ _ _ V); exact S|]. split.
  - intros s v I. destruct (values_in _ _ _ _ V I) as (l1 & m & l2 & E & cs & C & H).
    assert (J : In (s, m) G) by (rewrite E; apply in_or_app; right; left; reflexivity).
    destruct H as [[N ->]|[_ ->]]; cbn [fst snd]; [exact (group_exact s m cs J C N)|]. split; [reflexivity|]. destruct l2; [lra|exact Logic.I].
  - intros s s' v v' n n' I I' L Ev Ev'. destruct (values_in _ _ _ _ V I) as (l1 & m & l2 & E & cs & C & H). destruct (values_in _ _ _ _ V I') as (l1' & m' & l2' & E' & cs' & C' & H').
    assert (J : In (s, m) G) by (rewrite E; apply in_or_app; right; left; reflexivity).
    assert (J' : In (s', m') G) by (rewrite E'; apply in_or_app; right; left; reflexivity).
    destruct H as [[N ->]|[N ->]]; cbn [fst] in Ev.
    + assert (n = fst (group_value cs)) as -> by congruence. destruct (group_exact s m cs J C N) as [Z0 P0].
      destruct H' as [[N' ->]|[N' ->]]; cbn [fst] in Ev'; [|destruct l2'; [|discriminate]; assert (n' = 0) by congruence; lra].
      assert (n' = fst (group_value cs')) as -> by congruence. destruct (group_exact s' m' cs' J' C' N') as [Z1 P1].
      assert (X : upper (group_value cs') <= lower (group_value cs)); [|unfold upper, lower in X; lra].
      apply group_lower; [exact N|intros p K; destruct (member_exact s m cs p J C K); lra|]. intros p K. destruct (group_range csfd number_at nconv craters IO s m cs p J C K) as (c & Cc & Qc & Sc & _ & _).
      apply group_upper; [exact N'|intros q K'; destruct (member_exact s' m' cs' q J' C' K'); lra|]. intros q K'. destruct (group_range csfd number_at nconv craters IO s' m' cs' q J' C' K') as (c' & Cc' & Qc' & Sc' & _ & _).
      destruct IO as [_ IO2]. exact (IO2 c c' s s' _ _ _ _ Cc Cc' Qc Qc' L Sc Sc').
    + destruct l2; [|discriminate]. exfalso. assert (K : In s' (map fst G)) by (apply in_map_iff; exists (s', m'); split; [reflexivity|exact J']).
      rewrite E, map_app in S, K. cbn [map fst] in S, K. apply in_app_or in K. destruct K as [K|[K|[]]]; [|lia]. pose proof (lt_app _ _ S s' s K (or_introl eq_refl)). lia.
Qed.
Lemma anchor_value vals s n : values_of G vals -> anchor csfd number_at nconv craters s n -> exists v, In (s, v) vals /\ fst v = Some n.
Proof.
  intros V AC. assert (U : In s (map fst G)) by (apply key_in_use; destruct AC as [(c & I & Q & _)|(U & _)]; [exists c; split; assumption|exact U]).
  rewrite <- (values_keys _ _ _ _ _ V) in U. apply in_map_iff in U. destruct U as ([s' v] & X & I). cbn in X. subst s'. exists v. split; [exact I|].
  destruct (values_in _ _ _ _ V I) as (l1 & m & l2 & E & cs & C & H).
  assert (J : In (s, m) G) by (rewrite E; apply in_or_app; right; left; reflexivity). destruct (contributions_range csfd number_at nconv _ _ C) as [CR1 CR2].
  destruct AC as [(c & Ic & Q & OD & S)|(U & ND & LA & ->)].
  - destruct (CR2 c (member_group craters s m c J Ic Q) (range_dated _ _ _ S)) as (p0 & P0 & _).
    destruct H as [[N ->]|[N _]]; [|rewrite N in P0; destruct P0]. cbn [fst]. rewrite (group_same cs n N); [reflexivity|].
    intros p P. destruct (CR1 p P) as (c' & Ic' & _ & S'). destruct (group_member craters s m c' J Ic') as [Cc' Qc'].
    assert (c' = c) as -> by (apply OD; [exact Cc'|congruence|exact (range_dated _ _ _ S')]). destruct (range_fun _ _ _ _ _ S S') as [X Y]. unfold lower, upper in *. destruct p as [x y]. cbn [fst snd] in *. f_equal; lra.
  - destruct H as [[N _]|[_ ->]].
    + exfalso. destruct cs as [|p k]; [congruence|]. destruct (CR1 p (or_introl eq_refl)) as (c & Ic & _ & S). destruct (group_member craters s m c J Ic) as [Cc Qc].
      apply ND. exists c. split; [exact Cc|]. split; [exact Qc|exact (range_dated _ _ _ S)].
    + cbn [fst]. destruct l2 as [|x l2]; [reflexivity|]. exfalso. destruct (last_key _ _ _ _ E ltac:(discriminate)) as (s' & K & L). apply key_in_use in K. specialize (LA s' K). lia.
Qed.
Lemma undated_value vals x v b : values_of G vals -> In (x, v) vals -> ~ has_date craters x -> in_use craters b -> (x < b)%Z -> fst v = None.
Proof.
  intros V I ND U L. destruct (values_in _ _ _ _ V I) as (l1 & m & l2 & E & cs & C & H).
  assert (J : In (x, m) G) by (rewrite E; apply in_or_app; right; left; reflexivity). destruct (contributions_range csfd number_at nconv _ _ C) as [CR1 _].
  destruct H as [[N _]|[_ ->]].
  - exfalso. destruct cs as [|p k]; [congruence|]. destruct (CR1 p (or_introl eq_refl)) as (c & Ic & _ & S). destruct (group_member craters x m c J Ic) as [Cc Qc].
    apply ND. exists c. split; [exact Cc|]. split; [exact Qc|exact (range_dated _ _ _ S)].
  - cbn [fst]. destruct l2 as [|y l2]; [|reflexivity]. exfalso. apply key_in_use in U. destruct (sorted_groups_good valid) as (_ & S). rewrite E, map_app in S, U. cbn [map fst] in S, U.
    apply in_app_or in U. destruct U as [U|[U|[]]]; [|lia]. pose proof (lt_app _ _ S b x U (or_introl eq_refl)). lia.
Qed.
Lemma exact_extents ext : sequence_extents G = Ok ext -> exists vals, values_of G vals /\ exact_vals vals /\
  ext = combine (map fst G) (split_pass None (map (fun s => (level vals s, 0)) (map fst G))) /\ good_ext ext.
Proof.
  unfold Quasi_model.sequence_extents. destruct (group_values true G) as [vals|] eqn:V; [|discriminate]. cbn [rbind]. intros X.
  assert (X' : combine (map fst G) (refine 10 (fill_in vals) []) = ext) by congruence. subst ext. clear X.
  destruct (sorted_groups_good valid) as (_ & S). apply group_values_spec in V. pose proof (vals_exact _ V) as EV. exists vals. split; [exact V|]. split; [exact EV|].
  rewrite (fill_levels _ EV), <- (map_map fst (fun s => (level vals s, 0))), (values_keys _ _ _ _ _ V).
  destruct (refine_levels 9 (level vals) (map fst G) [] S (fun s => level_pos vals s EV) (fun s s' => level_anti vals s s' EV)) as (-> & P & SS).
  split; [reflexivity|]. apply good_from_sorted; assumption.
Qed.
Lemma exact_good ext : (match G with [] => Ok [] | _ => sequence_extents G end) = Ok ext -> good_ext ext.
Proof.
  destruct G as [|p k] eqn:E; [intros [= <-]; split; [intros a e L; discriminate|intros a b e f L; discriminate]|]. rewrite <- E. intros X. destruct (exact_extents ext X) as (_ & _ & _ & _ & H). exact H.
Qed.
Lemma undated_between dmax res dm c t s1 s s2 a na b nb : age_like age -> trunc_ok trunc ->
  process dmax craters = Ok (res, dm) -> In (c, t) res -> q_seq c = Some s ->
  in_use craters s1 -> in_use craters s2 -> (a <= s1 < s)%Z -> (s < s2 <= b)%Z -> (forall x, in_use craters x -> ~ (s1 < x < s)%Z /\ ~ (s < x < s2)%Z) ->
  anchor csfd number_at nconv craters a na -> anchor csfd number_at nconv craters b nb -> (forall x, (a < x < b)%Z -> ~ has_date craters x) ->
  exists tlo thi, age ((line a na b nb s + line a na b nb s2) / 2) = Ok tlo /\ age ((line a na b nb s1 + line a na b nb s) / 2) = Ok thi /\ tlo <= t <= thi.
Proof.
  intros AL TO E I Q U1 U2 L1 L2 N AA AB ND. destruct (result_in csfd number_at age nconv trunc normal dmax craters res dm c t E I) as (ext & ts & i & (X & T & _) & Vi & A).
  destruct (T _ Vi) as (u & B & D). cbn [fst snd] in *. rewrite A in B. injection B as <-. rewrite Q in D. destruct D as (e & LK & D).
  pose proof (exact_good ext X) as [PR _]. specialize (PR _ _ LK).
  assert (X' : sequence_extents G = Ok ext). { destruct G as [|p k] eqn:EG; [|exact X]. assert (ext = []) by congruence. subst ext. discriminate. }
  destruct (exact_extents ext X') as (vals & V & EV & EX & _).
  assert (U : in_use craters s) by (exists c; split; [eapply member_in; exact Vi|exact Q]).
  destruct (sorted_groups_good valid) as (_ & S).
  destruct (three_in (map fst G) s1 s s2 S (proj2 (key_in_use s1) U1) (proj2 (key_in_use s) U) (proj2 (key_in_use s2) U2) ltac:(lia) ltac:(intros x J; apply N, key_in_use, J)) as (l1 & l2 & K).
  assert (UB : in_use craters b) by (destruct AB as [(cb & Ib & Qb & _)|(UB & _)]; [exists cb; split; assumption|exact UB]).
  assert (LL : forall x, (a <= x <= b)%Z -> level vals x = line a na b nb x).
  { intros x LX. apply level_line; [exact EV|exact (anchor_value _ _ _ V AA)|exact (anchor_value _ _ _ V AB)|lia| |exact LX]. intros y v J Y. exact (undated_value vals y v b V J (ND y Y) UB ltac:(lia)). }
  rewrite K in EX. destruct (split_between (level vals) s1 s s2 l2 l1 None (fun s => level_pos vals s EV) (fun s s' => level_anti vals s s' EV) ltac:(lia)) as (k1 & k2 & SP & LN).
  rewrite SP in EX. assert (e = ((level vals s + level vals s2) / 2, (level vals s1 + level vals s) / 2)).
  { rewrite EX in LK. rewrite K in S. change (l1 ++ s1 :: s :: s2 :: l2)%list with (l1 ++ [s1] ++ s :: s2 :: l2)%list in LK, S. rewrite app_assoc in LK, S. rewrite lookup_at in LK; [congruence|exact S|]. rewrite app_length, LN. cbn. lia. }
  subst e. destruct (draw_in_bounds csfd age nconv trunc AL TO i c _ t PR D) as (tlo & thi & B1 & B2 & B3). cbn [fst snd] in *.
  rewrite Rmax_left in B1 by (pose proof (level_pos vals s EV); pose proof (level_pos vals s2 EV); lra).
  rewrite !LL in B1 by lia. rewrite !LL in B2 by lia. exists tlo, thi. split; [exact B1|]. split; [exact B2|exact B3].
Qed.
Lemma exact_in_order dmax : age_like age -> trunc_ok trunc -> (forall x, age x <> Err RuntimeError) -> (forall x, number_at x <> Err RuntimeError) ->
  process dmax craters <> Err RuntimeError /\ (forall res d, process dmax craters = Ok (res, d) -> respects_sequence res).
Proof.
  intros AL TO NA NN. split.
  - apply (never_inconsistent csfd number_at age nconv trunc normal AL TO dmax craters exact_good NA NN).
  - intros res d E. exact (respects csfd number_at age nconv trunc normal AL TO dmax craters res d exact_good E).
Qed.
End Exact.
