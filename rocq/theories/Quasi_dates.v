From Coq Require Import Reals ZArith Lra Lia Permutation Sorted.
From Verif Require Import Common RSum Sorting Quasi_model Quasi_spec Measure_spec Quasi_proofs Quasi_order.
Open Scope R_scope.

(* ------------------------------ extents by sequence number ------------------------------ *)
Lemma combine_in_l {A B} (k : list A) (l : list B) x y : In (x, y) (combine k l) -> In x k.
Proof. apply in_combine_l. Qed.
Lemma combine_in_r {A B} (k : list A) (l : list B) x y : In (x, y) (combine k l) -> In y l.
Proof. apply in_combine_r. Qed.
Lemma lookup_in s l e : lookup s l = Some e -> In (s, e) l.
Proof.
  unfold lookup. destruct (find _ l) as [[s' e']|] eqn:F; [|discriminate]. apply find_some in F. destruct F as [I E]. cbn in *. apply Z.eqb_eq in E. intros [= <-]. subst. exact I.
Qed.
Lemma combine_sorted (P : R * R -> R * R -> Prop) (k : list Z) l : StronglySorted P l -> StronglySorted (fun x y => P (snd x) (snd y)) (combine k l).
Proof.
  intros S. revert k. induction S as [|e l S IH F]; intros [|z k]; cbn [combine]; try constructor; [apply IH|].
  apply Forall_forall. intros [z' e'] I. cbn. rewrite Forall_forall in F. apply F. eapply combine_in_r. exact I.
Qed.
Lemma combine_keys (k : list Z) (l : list (R * R)) : StronglySorted Z.lt k -> StronglySorted Z.lt (map fst (combine k l)).
Proof.
  intros S. revert l. induction S as [|z k S IH F]; intros [|e l]; cbn; try constructor; [apply IH|].
  apply Forall_forall. intros z' I. apply in_map_iff in I. destruct I as ([a b] & <- & I). rewrite Forall_forall in F. apply F. eapply combine_in_l. exact I.
Qed.
Lemma good_from_sorted k l : StronglySorted Z.lt k -> Forall proper l -> StronglySorted above l -> good_ext (combine k l).
Proof.
  intros K P S. split.
  - intros a e L. apply lookup_in, combine_in_r in L. rewrite Forall_forall in P. apply P, L.
  - intros a b e f L M H. apply lookup_in in L, M.
    exact (sorted_pos (fun x y => above (snd x) (snd y)) fst (combine k l) (a, e) (b, f) (combine_sorted above k l S) (combine_keys k l K) L M H).
Qed.
Lemma refine_good k vals ext : (exists r, refine k vals ext = r /\ chain r /\ decreasing (map fst r) = true /\ decreasing (map snd r) = true) -> (2 <= List.length (refine k vals ext))%nat ->
  Forall proper (refine k vals ext) /\ StronglySorted above (refine k vals ext).
Proof.
  intros (r & -> & C & D1 & D2) L. pose proof (decreasing_proper _ C L D1 D2) as P. split; [exact P|apply chain_sorted; assumption].
Qed.

(* ------------------------------ averages ------------------------------ *)
Lemma lsum_nil {A} (f : A -> R) : lsum f [] = 0.
Proof. reflexivity. Qed.
Lemma sqrt_sum (l : list (R * R)) : (forall p, In p l -> 0 <= snd p) -> 0 <= sqrt (lsum (fun p => snd p ^ 2) l) <= lsum snd l.
Proof.
  intros H. split; [apply sqrt_pos|].
  assert (X : 0 <= lsum snd l /\ lsum (fun p => snd p ^ 2) l <= lsum snd l ^ 2).
  { induction l as [|p r IH]; [rewrite !lsum_nil; lra|]. rewrite !lsum_cons. destruct IH as [A B]; [intros q I; apply H; right; exact I|]. pose proof (H p (or_introl eq_refl)). split; [lra|].
    assert (0 <= snd p * lsum snd r) by (apply Rmult_le_pos; assumption). nra. }
  destruct X as [A B]. rewrite <- (sqrt_pow2 (lsum snd l) A). apply sqrt_le_1_alt, B.
Qed.
Lemma lsum_bound {A} (f : A -> R) l B : (forall x, In x l -> f x <= B) -> lsum f l <= INR (List.length l) * B.
Proof.
  induction l as [|x r IH]; intros H; [rewrite lsum_nil; cbn; lra|]. rewrite lsum_cons. change (List.length (x :: r)) with (S (List.length r)). rewrite S_INR.
  pose proof (H x (or_introl eq_refl)). specialize (IH (fun y I => H y (or_intror I))). lra.
Qed.
Lemma lsum_bound_low {A} (f : A -> R) l B : (forall x, In x l -> B <= f x) -> INR (List.length l) * B <= lsum f l.
Proof.
  induction l as [|x r IH]; intros H; [rewrite lsum_nil; cbn; lra|]. rewrite lsum_cons. change (List.length (x :: r)) with (S (List.length r)). rewrite S_INR.
  pose proof (H x (or_introl eq_refl)). specialize (IH (fun y I => H y (or_intror I))). lra.
Qed.
Lemma lsum_add {A} (f g : A -> R) l : lsum (fun x => f x + g x) l = lsum f l + lsum g l.
Proof. induction l as [|x r IH]; rewrite ?lsum_nil, ?lsum_cons; lra. Qed.
Lemma lsum_sub {A} (f g : A -> R) l : lsum (fun x => f x - g x) l = lsum f l - lsum g l.
Proof. induction l as [|x r IH]; rewrite ?lsum_nil, ?lsum_cons; lra. Qed.
Lemma group_upper l B : l <> [] -> (forall p, In p l -> 0 <= snd p) -> (forall p, In p l -> upper p <= B) -> upper (group_value l) <= B.
Proof.
  intros N S U. assert (0 < INR (List.length l)) by (destruct l; [congruence|]; apply lt_0_INR; cbn; lia).
  unfold upper, group_value. cbn [fst snd]. pose proof (sqrt_sum l S). pose proof (lsum_bound (fun p => fst p + snd p) l B U) as X. rewrite lsum_add in X.
  unfold Rdiv. rewrite <- Rmult_plus_distr_r. apply Rmult_le_reg_r with (INR (List.length l)); [assumption|]. rewrite Rmult_assoc, Rinv_l by lra. lra.
Qed.
Lemma group_lower l B : l <> [] -> (forall p, In p l -> 0 <= snd p) -> (forall p, In p l -> B <= lower p) -> B <= lower (group_value l).
Proof.
  intros N S U. assert (0 < INR (List.length l)) by (destruct l; [congruence|]; apply lt_0_INR; cbn; lia).
  unfold lower, group_value. cbn [fst snd]. pose proof (sqrt_sum l S). pose proof (lsum_bound_low (fun p => fst p - snd p) l B U) as X. rewrite lsum_sub in X.
  unfold Rdiv. rewrite <- Rmult_minus_distr_r. apply Rmult_le_reg_r with (INR (List.length l)); [assumption|]. rewrite (Rmult_assoc (_ - _)), Rinv_l by lra. lra.
Qed.
Lemma group_sig l : l <> [] -> 0 <= snd (group_value l).
Proof.
  intros N. cbn [group_value snd]. apply Rmult_le_pos; [apply sqrt_pos|]. left. apply Rinv_0_lt_compat. destruct l; [congruence|]. apply lt_0_INR. cbn. lia.
Qed.
Lemma group_same l n : l <> [] -> (forall p, In p l -> p = (n, 0)) -> group_value l = (n, 0).
Proof.
  intros N H. assert (0 < INR (List.length l)) by (destruct l; [congruence|]; apply lt_0_INR; cbn; lia).
  assert (X : lsum fst l = INR (List.length l) * n /\ lsum (fun p => snd p ^ 2) l = 0).
  { clear N H0. induction l as [|p r IH]; [rewrite !lsum_nil; cbn; lra|]. destruct IH as [A B]; [intros q I; apply H; right; exact I|].
    change (List.length (p :: r)) with (S (List.length r)). rewrite S_INR, !lsum_cons, A, B, (H p (or_introl eq_refl)). cbn [fst snd]. lra. }
  destruct X as [A B]. unfold group_value. rewrite A, B, sqrt_0. f_equal; field; lra.
Qed.

Section Dates.
Context (csfd : R -> R) (number_at : R -> result R) (age : R -> result R) (nconv : R).
Context (trunc : nat -> R -> R -> R -> R -> R) (normal : nat -> R -> R -> R).
Notation contribution := (contribution csfd number_at nconv).
Notation contributions := (contributions csfd number_at nconv).
Notation group_values := (group_values csfd number_at nconv).
Notation sequence_extents := (sequence_extents csfd number_at nconv).
Notation sigma_range := (sigma_range csfd number_at nconv).
Notation process := (process csfd number_at age nconv trunc normal).

Lemma contribution_range c x : contribution c = Ok x -> (x = [] /\ ~ dated c) \/ (exists p, x = [p] /\ sigma_range c (lower p) (upper p)).
Proof.
  unfold Quasi_model.contribution. destruct (q_ND c) as [[[d n] s]|] eqn:E.
  - intros X. right. exists (to_N1 csfd nconv (d, n, s)). split; [congruence|]. unfold lower, upper, to_N1. cbn [fst snd].
    replace (d * 1e3) with (d * 1000) by lra. eapply range_ND; [exact E|reflexivity|reflexivity].
  - destruct (q_time c) as [[m s]|] eqn:T.
    + destruct (number_at (Rmax (m - s) 0)) as [lo|] eqn:A; [|discriminate]. cbn [rbind]. destruct (number_at (m + s)) as [hi|] eqn:B; [|discriminate]. cbn [rbind].
      intros X. right. exists ((hi + lo) / 2, (hi - lo) / 2). split; [congruence|]. unfold lower, upper. cbn [fst snd].
      eapply range_time; [exact E|exact T|rewrite A; f_equal; lra|rewrite B; f_equal; lra].
    + intros [= <-]. left. split; [reflexivity|]. unfold dated. intros [K|K]; congruence.
Qed.
Lemma contributions_range l x : contributions l = Ok x ->
  (forall p, In p x -> exists c, In c l /\ contribution c = Ok [p] /\ sigma_range c (lower p) (upper p)) /\
  (forall c, In c l -> dated c -> exists p, In p x /\ contribution c = Ok [p]).
Proof.
  revert x. induction l as [|c r IH]; intros x; cbn [Quasi_model.contributions]; [intros [= <-]; split; intros ? []|].
  destruct (contribution c) as [y|] eqn:E; [|discriminate]. cbn [rbind]. destruct (contributions r) as [z|]; [|discriminate]. cbn [rbind]. intros X.
  assert (x = (y ++ z)%list) as -> by congruence. destruct (IH z eq_refl) as [A B]. destruct (contribution_range c y E) as [[-> N]|(p & -> & S)]; cbn [app].
  - split; [intros p I; destruct (A p I) as (c' & I' & K); exists c'; split; [right; exact I'|exact K]|].
    intros c' [<-|I] D; [contradiction|]. exact (B c' I D).
  - split.
    + intros q [<-|I]; [exists c; split; [left; reflexivity|split; [exact E|exact S]]|]. destruct (A q I) as (c' & I' & K); exists c'; split; [right; exact I'|exact K].
    + intros c' [<-|I] D; [exists p; split; [left; reflexivity|exact E]|]. destruct (B c' I D) as (q & J & K). exists q. split; [right; exact J|exact K].
Qed.
(** What a group's value comes from. *)
Definition value_of (members : list (nat * qcrater)) (last : bool) (v : option R * R) : Prop :=
  exists cs, contributions (map snd members) = Ok cs /\
  ((cs <> [] /\ v = (Some (fst (group_value cs)), snd (group_value cs))) \/ (cs = [] /\ v = (if last then Some 0 else None, 0))).
Fixpoint values_of (g : groups) (vals : list (Z * (option R * R))) : Prop :=
  match g, vals with
  | [], [] => True
  | (s, m) :: g', (s', v) :: vals' => s = s' /\ value_of m (match g' with [] => true | _ => false end) v /\ values_of g' vals'
  | _, _ => False
  end.
Lemma group_values_spec g : forall first vals, group_values first g = Ok vals -> values_of g vals.
Proof.
  induction g as [|[s m] r IH]; intros first vals; cbn [Quasi_model.group_values]; [intros [= <-]; exact I|].
  destruct (contributions (map snd m)) as [cs|] eqn:E; [|discriminate]. cbn [rbind].
  match goal with |- rbind ?x _ = _ -> _ => destruct x as [v|] eqn:V end; [|discriminate]. cbn [rbind].
  destruct (group_values false r) as [rest|] eqn:K; [|discriminate]. cbn [rbind]. intros X. assert (vals = (s, v) :: rest) as -> by congruence.
  cbn [values_of]. split; [reflexivity|]. split; [|exact (IH _ _ K)]. exists cs. split; [exact E|].
  destruct cs as [|p k].
  - right. split; [reflexivity|]. destruct first; [discriminate|]. destruct r; congruence.
  - left. split; [discriminate|]. destruct (group_value (p :: k)). cbn [fst snd]. congruence.
Qed.

Section InOrder.
Context (craters : list qcrater).
Notation valid := (valid craters).
Notation G := (sorted_groups valid).
Context (IO : in_order csfd number_at nconv craters) (AN : anchored craters).
Lemma member_in i c : In (i, c) valid -> In c craters.
Proof.
  intros I. assert (J : In c (map snd valid)) by (apply in_map_iff; exists (i, c); split; [reflexivity|exact I]).
  unfold Quasi_proofs.valid in J. rewrite number_from_snd in J. apply filter_In in J. apply J.
Qed.
Lemma in_member c : In c craters -> metadata c -> exists i, In (i, c) valid.
Proof.
  intros I M. assert (J : In c (map snd valid)). { unfold Quasi_proofs.valid. rewrite number_from_snd. apply filter_In. split; [exact I|]. exact (proj2 (has_metadata_iff c) M). }
  apply in_map_iff in J. destruct J as ([i c'] & <- & J). exists i. exact J.
Qed.
Lemma group_member s m c : In (s, m) G -> In c (map snd m) -> In c craters /\ q_seq c = Some s.
Proof.
  intros I J. apply in_map_iff in J. destruct J as ([i c'] & <- & J). destruct (sorted_groups_good valid) as ((_ & FG & _) & _).
  rewrite (proj2 (FG s m I)) in J. apply filter_In in J. destruct J as [J K]. apply tag_is_iff in K. split; [eapply member_in; exact J|exact K].
Qed.
Lemma member_group s m c : In (s, m) G -> In c craters -> q_seq c = Some s -> In c (map snd m).
Proof.
  intros I J K. destruct (sorted_groups_good valid) as ((_ & FG & _) & _). destruct (in_member c J) as [i V]. { right. congruence. }
  apply in_map_iff. exists (i, c). split; [reflexivity|]. rewrite (proj2 (FG s m I)). apply filter_In. split; [exact V|]. apply tag_is_iff, K.
Qed.
Lemma group_range s m cs p : In (s, m) G -> contributions (map snd m) = Ok cs -> In p cs ->
  exists c, In c craters /\ q_seq c = Some s /\ sigma_range c (lower p) (upper p) /\ 0 <= lower p /\ 0 <= snd p.
Proof.
  intros I E J. destruct (proj1 (contributions_range _ _ E) p J) as (c & K & _ & S). destruct (group_member s m c I K) as [C Q].
  exists c. split; [exact C|]. split; [exact Q|]. split; [exact S|]. destruct IO as [IO1 _].
  assert (0 <= lower p <= upper p) by (apply (IO1 c); [exact C|congruence|exact S]). unfold lower, upper in *. lra.
Qed.
(** The values of the groups, which no interpolation changes, are stacked. *)
Lemma fill_all (vals : list (Z * (option R * R))) : (forall s v, In (s, v) vals -> fst v <> None) ->
  fill_in vals = map (fun e => (match fst (snd e) with Some n => n | None => 0 end, snd (snd e))) vals.
Proof.
  intros H. unfold fill_in. generalize (filled vals). intros fl. apply map_ext_in. intros [s [o g]] I. specialize (H _ _ I). cbn in *. destruct o; [reflexivity|congruence].
Qed.
Lemma sub_sorted {A} (key : A -> Z) (x : A) l : StronglySorted Z.lt (map key (x :: l)) -> forall y, In y l -> (key x < key y)%Z.
Proof. intros S y I. cbn in S. inversion S as [|? ? _ F]; subst. rewrite Forall_forall in F. apply F. apply in_map. exact I. Qed.
Definition value (e : Z * (option R * R)) : R * R := (match fst (snd e) with Some n => n | None => 0 end, snd (snd e)).
Lemma groups_stacked g : forall vals, incl g G -> StronglySorted Z.lt (map fst g) ->
  (forall s m c a, In (s, m) G -> In c (map snd m) -> In a (map fst g) -> (a < s)%Z -> In (s, m) g) ->
  values_of g vals ->
  (forall s v, In (s, v) vals -> fst v <> None) /\ stacked (map value vals) /\
  (forall s v, In (s, v) vals -> exists m cs, In (s, m) g /\ contributions (map snd m) = Ok cs /\ (cs <> [] -> value (s, v) = group_value cs)).
Proof.
  induction g as [|[s m] r IH]; intros [|[s' v] vals] INC S CL V; try contradiction; [repeat split; intros ? ? []|].
  cbn [values_of] in V. destruct V as (<- & (cs & E & W) & V).
  assert (I0 : In (s, m) G) by (apply INC; left; reflexivity).
  assert (S' : StronglySorted Z.lt (map fst r)) by (cbn in S; inversion S; assumption).
  assert (LT : forall y, In y r -> (s < fst y)%Z) by (intros y Iy; exact (sub_sorted fst (s, m) r S y Iy)).
  destruct (IH vals) as (A & B & C); [intros x Ix; apply INC; right; exact Ix|exact S'| |exact V|].
  { intros s2 m2 c2 a I2 J2 Ia L. apply in_map_iff in Ia. destruct Ia as (y & <- & Iy). specialize (LT y Iy).
    destruct (CL s2 m2 c2 (fst y) I2 J2) as [X|X]; [right; apply in_map; exact Iy|exact L| |exact X]. exfalso. assert (s = s2) by congruence. lia. }
  assert (HV : (cs <> [] /\ v = (Some (fst (group_value cs)), snd (group_value cs))) \/ (r = [] /\ cs = [] /\ v = (Some 0, 0))).
  { destruct W as [W|[W1 W2]]; [left; exact W|]. destruct r as [|[s2 m2] r']; [right; repeat split; assumption|]. exfalso.
    destruct (sorted_groups_good valid) as ((_ & FG & _) & _).
    assert (M : exists c, In c (map snd m)). { destruct m as [|[i c] k]; [exfalso; exact (proj1 (FG s [] I0) eq_refl)|exists c; left; reflexivity]. }
    destruct M as (c & Ic). destruct (group_member s m c I0 Ic) as [Cc Qc].
    destruct (AN c s Cc Qc) as [(c' & C' & Q' & D')|L].
    - destruct (proj2 (contributions_range _ _ E) c' (member_group s m c' I0 C' Q') D') as (p & Ip & _). rewrite W1 in Ip. exact Ip.
    - assert (I2 : In (s2, m2) G) by (apply INC; right; left; reflexivity).
      assert (M : exists c2, In c2 (map snd m2)). { destruct m2 as [|[i2 c2] k]; [exfalso; exact (proj1 (FG s2 [] I2) eq_refl)|exists c2; left; reflexivity]. }
      destruct M as (c2 & Ic2). destruct (group_member s2 m2 c2 I2 Ic2) as [Cc2 Qc2]. specialize (L c2 s2 Cc2 Qc2). specialize (LT (s2, m2) (or_introl eq_refl)). cbn in LT. lia. }
  assert (VAL : value (s, v) = match cs with [] => (0, 0) | _ => group_value cs end).
  { destruct HV as [[N ->]|(_ & -> & ->)]; [|reflexivity]. unfold value. cbn [fst snd]. destruct cs; [congruence|]. destruct (group_value _); reflexivity. }
  split; [|split].
  - intros s2 v2 [X|I]; [|exact (A s2 v2 I)]. injection X as <- <-. destruct HV as [[_ ->]|(_ & _ & ->)]; discriminate.
  - cbn [map stacked]. rewrite VAL.
    destruct HV as [[N Hv]|(-> & -> & ->)].
    + destruct cs as [|p k]; [congruence|]. set (cs := p :: k) in *.
      assert (SN : forall q, In q cs -> 0 <= snd q) by (intros q Iq; destruct (group_range s m cs q I0 E Iq) as (? & _ & _ & _ & _ & X); exact X).
      split; [|split; [|split; [|exact B]]].
      * apply group_lower; [discriminate|exact SN|]. intros q Iq. destruct (group_range s m cs q I0 E Iq) as (? & _ & _ & _ & X & _). exact X.
      * apply group_sig. discriminate.
      * destruct vals as [|[s2 v2] vals']; [exact I|]. cbn [map]. destruct r as [|[s2' m2] r']; [destruct V|]. destruct (C s2 v2 (or_introl eq_refl)) as (m' & cs' & I' & E' & X').
        apply group_lower; [discriminate|exact SN|]. intros q Iq. destruct (group_range s m cs q I0 E Iq) as (c & Cc & Qc & Sc & Lc & _).
        destruct cs' as [|p' k'].
        { (* the last group, with nothing dated *)
          cbn [map stacked] in B. cbn [values_of] in V. destruct V as (<- & (cs2 & E2 & W2) & V2).
          assert (m' = m2). { destruct I' as [X|I']; [congruence|]. exfalso. cbn in S'. inversion S' as [|? ? _ F]; subst. rewrite Forall_forall in F.
            assert (In s2' (map fst r')) by (apply in_map_iff; exists (s2', m'); split; [reflexivity|exact I']). specialize (F s2' H). lia. }
          subst m'. rewrite E' in E2. injection E2 as <-. destruct W2 as [[W2 _]|[_ W2]]; [congruence|].
          specialize (A s2' v2 (or_introl eq_refl)). destruct r' as [|? ?]; rewrite W2 in *; cbn in A |- *; [|congruence]. unfold upper, value. cbn. lra. }
        rewrite (X' (ltac:(discriminate))). set (cs' := p' :: k') in *.
        assert (I2 : In (s2, m') G) by (apply INC; right; exact I').
        apply group_upper; [discriminate| |].
        -- intros q' Iq'. destruct (group_range s2 m' cs' q' I2 E' Iq') as (? & _ & _ & _ & _ & X); exact X.
        -- intros q' Iq'. destruct (group_range s2 m' cs' q' I2 E' Iq') as (c' & Cc' & Qc' & Sc' & _ & _).
           destruct IO as [_ IO2]. apply (IO2 c c' s s2 (lower q) (upper q) (lower q') (upper q')); try assumption. exact (LT (s2, m') I').
    + destruct vals as [|? ?]; [|contradiction]. cbn. unfold lower, upper. cbn. repeat split; lra.
  - intros s2 v2 [X|I].
    + injection X as <- <-. exists m, cs. split; [left; reflexivity|]. split; [exact E|]. intros N. rewrite VAL. destruct cs; [congruence|reflexivity].
    + destruct (C s2 v2 I) as (m2 & cs2 & J & K). exists m2, cs2. split; [right; exact J|exact K].
Qed.
Lemma values_keys g : forall vals, values_of g vals -> map fst vals = map fst g.
Proof. induction g as [|[s m] r IH]; intros [|[s' v] vals]; cbn; try contradiction; [reflexivity|]. intros (<- & _ & V). rewrite (IH _ V). reflexivity. Qed.
Lemma stacked_extents ext : sequence_extents G = Ok ext -> good_ext ext /\
  (forall s e, lookup s ext = Some e -> exists m cs, In (s, m) G /\ contributions (map snd m) = Ok cs /\ (cs <> [] -> fst e <= fst (group_value cs) <= snd e)).
Proof.
  unfold Quasi_model.sequence_extents. destruct (group_values true G) as [vals|] eqn:V; [|discriminate]. cbn [rbind]. intros X.
  assert (X' : combine (map fst G) (refine 10 (fill_in vals) []) = ext) by congruence. subst ext. clear X.
  destruct (sorted_groups_good valid) as (_ & S). apply group_values_spec in V.
  destruct (groups_stacked G vals) as (A & B & C); [apply incl_refl|exact S|intros; assumption|exact V|].
  rewrite (fill_all vals A). fold value. change (map (fun e : Z * (option R * R) => (match fst (snd e) with Some n => n | None => 0 end, snd (snd e))) vals) with (map value vals).
  destruct (refine_stacked 9 (map value vals) [] B) as (r & -> & F & SS).
  assert (P : Forall proper r) by (clear -F; induction F as [|v e l r H F IH]; constructor; [unfold proper; lra|exact IH]).
  split; [apply good_from_sorted; assumption|].
  intros s e L. apply lookup_in in L. rewrite <- (values_keys _ _ V) in L.
  assert (W : exists v, In (s, v) vals /\ fst e <= fst (value (s, v)) <= snd e).
  { clear -F L. revert r F L. induction vals as [|[s' v] vals IH]; intros r F L; [contradiction|]. inversion F as [|? e' ? r' H F']; subst. cbn [map combine fst] in L.
    destruct L as [L|L]; [injection L as <- <-; exists v; split; [left; reflexivity|exact H]|]. destruct (IH r' F' L) as (v' & I & H'). exists v'. split; [right; exact I|exact H']. }
  destruct W as (v & I & H). destruct (C s v I) as (m & cs & J & E & K). exists m, cs. split; [exact J|]. split; [exact E|]. intros N. rewrite <- (K N). exact H.
Qed.
Lemma in_order_good ext : (match G with [] => Ok [] | _ => sequence_extents G end) = Ok ext -> good_ext ext.
Proof.
  destruct G as [|p k] eqn:E; [intros [= <-]; split; [intros a e L; discriminate|intros a b e f L; discriminate]|]. rewrite <- E. intros X. exact (proj1 (stacked_extents ext X)).
Qed.
End InOrder.
End Dates.
