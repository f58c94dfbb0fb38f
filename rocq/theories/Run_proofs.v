(** Proofs for C09-C11. *)
From Coq Require Import Reals List Lra Lia ZArith.
From Verif Require Import Common Trig_model Mesh_model Mesh_proofs Run_model Run_spec.
Import ListNotations.
Open Scope R_scope.

Lemma periods_app l1 l2 : periods (l1 ++ l2) = periods l1 ++ periods l2.
Proof. induction l1 as [|[]]; simpl; auto. now rewrite IHl1. Qed.
Lemma saves_app l1 l2 : saves (l1 ++ l2) = saves l1 ++ saves l2.
Proof. induction l1 as [|[]]; simpl; auto. now rewrite IHl1. Qed.

Lemma trunc_spec q : 0 <= q -> IZR (trunc q) <= q < IZR (trunc q) + 1.
Proof.
  intros H. unfold trunc. destruct (Rle_dec 0 q); [|lra].
  destruct (base_Int_part q). lra.
Qed.
Lemma trunc_nonneg q : 0 <= q -> (0 <= trunc q)%Z.
Proof.
  intros H. destruct (trunc_spec q H) as [_ H1].
  assert (-1 < trunc q)%Z; [|lia]. apply lt_IZR. simpl. lra.
Qed.
Lemma trunc_unique q z : 0 <= q -> IZR z <= q < IZR z + 1 -> trunc q = z.
Proof.
  intros Hq [H1 H2]. destruct (trunc_spec q Hq) as [H3 H4].
  assert (trunc q < z + 1)%Z by (apply lt_IZR; rewrite plus_IZR; lra).
  assert (z < trunc q + 1)%Z by (apply lt_IZR; rewrite plus_IZR; lra).
  lia.
Qed.

Section P.
Variables (csfd chron : R -> R) (age_of : R -> R -> result R) (tlo thi : option R).
Variables (area Dconv Nconv : R).
Variable forms : list event -> R -> R -> result bool.
Hypothesis G : good_production csfd chron age_of area.

Notation validate_age := (validate_age tlo thi).
Notation fn_chk := (fn_chk csfd chron tlo thi).
Notation fn := (fn csfd chron).
Notation sample_args := (sample_args csfd chron age_of tlo thi area).
Notation pick_args := (pick_args area Dconv Nconv).
Notation vra := (validate_run_args csfd chron age_of tlo thi area Dconv Nconv).
Notation populate := (populate csfd chron age_of tlo thi area Dconv Nconv forms).
Notation advance := (advance csfd chron Nconv).
Notation step_time := (step_time csfd chron age_of tlo thi area Dconv Nconv forms).
Notation step_number := (step_number csfd chron age_of tlo thi area Dconv Nconv forms).
Notation run := (run csfd chron age_of tlo thi area Dconv Nconv forms).
Notation period := (period csfd chron area Dconv Nconv).

Lemma va_ok ts te : validate_age ts te = Ok tt ->
  te <= ts /\ (forall l, tlo = Some l -> l <= ts) /\ (forall h, thi = Some h -> ts <= h).
Proof.
  unfold Run_model.validate_age. destruct (Rlt_dec ts te); [discriminate|].
  destruct tlo as [l|], thi as [h|];
  repeat match goal with |- context [Rlt_dec ?x ?y] => destruct (Rlt_dec x y); try discriminate end;
  intros _; (split; [lra|]); split; intros ? [= <-]; lra.
Qed.
Lemma va_ok_conv ts te :
  te <= ts -> (forall l, tlo = Some l -> l <= ts) -> (forall h, thi = Some h -> ts <= h) ->
  validate_age ts te = Ok tt.
Proof.
  intros H1 H2 H3. unfold Run_model.validate_age. destruct (Rlt_dec ts te); [lra|].
  destruct tlo as [l|], thi as [h|];
  try specialize (H2 _ eq_refl); try specialize (H3 _ eq_refl);
  repeat match goal with |- context [Rlt_dec ?x ?y] => destruct (Rlt_dec x y); try lra end;
  reflexivity.
Qed.
Lemma va_cases ts te : validate_age ts te = Ok tt \/ validate_age ts te = Err ValueError.
Proof.
  unfold Run_model.validate_age. destruct (Rlt_dec ts te); auto.
  destruct (match tlo with Some _ => _ | None => _ end); auto.
  destruct (match thi with Some _ => _ | None => _ end); auto.
Qed.

Lemma fn0 D t : fn D t 0 = csfd D * chron t.
Proof. unfold Run_model.fn. rewrite (gp_zero _ _ _ _ G). ring. Qed.

Lemma fn_chk_ok D t v : fn_chk D t = Ok v ->
  v = csfd D * chron t /\ 0 <= t /\
  (forall l, tlo = Some l -> l <= t) /\ (forall h, thi = Some h -> t <= h).
Proof.
  unfold Run_model.fn_chk. destruct (va_cases t 0) as [E|E]; rewrite E; simpl; [|discriminate].
  intros [= <-]. apply va_ok in E. rewrite fn0. tauto.
Qed.

Lemma chron_inj a b : 0 <= a -> 0 <= b -> chron a = chron b -> a = b.
Proof.
  intros Ha Hb E. destruct (Rtotal_order a b) as [H|[H|H]]; auto.
  - pose proof (gp_mono _ _ _ _ G a b ltac:(lra)). lra.
  - pose proof (gp_mono _ _ _ _ G b a ltac:(lra)). lra.
Qed.
Lemma root_unique D n a b : 0 < csfd D -> age_at csfd chron D n a -> age_at csfd chron D n b -> a = b.
Proof.
  intros HD [Ha E1] [Hb E2]. apply chron_inj; auto.
  apply Rmult_eq_reg_l with (csfd D); lra.
Qed.
Lemma root_lt D a b : 0 < csfd D -> 0 <= a -> 0 <= b -> csfd D * chron a < csfd D * chron b -> a < b.
Proof.
  intros HD Ha Hb H. assert (chron a < chron b) by (apply Rmult_lt_reg_l with (csfd D); lra).
  destruct (Rtotal_order a b) as [|[->|H1]]; [auto|lra|].
  pose proof (gp_mono _ _ _ _ G b a ltac:(lra)). lra.
Qed.

(** What sample_args guarantees. *)
Lemma sample_ok ts te dn dne t0 t1 p q : sample_args ts te dn dne = Ok (t0, t1, p, q) ->
  0 <= t1 <= t0 /\ 0 < csfd (fst p) /\ fst q = fst p /\
  csfd (fst p) * chron t0 = snd p / area /\ csfd (fst p) * chron t1 = snd q / area /\
  match ts, dn with
  | Some t, None => t0 = t
  | None, Some d => p = d
  | _, _ => False
  end /\
  match te, dne with
  | Some t, None => t1 = t
  | None, None => t1 = 0
  | None, Some d => fst d = fst p /\ q = d
  | _, _ => False
  end.
Proof.
  pose proof (gp_area _ _ _ _ G) as HA. pose proof (gp_csfd _ _ _ _ G) as HC.
  unfold Run_model.sample_args. intros HH.
  destruct (Bool.eqb (given ts) (given dn)) eqn:Hsd; [discriminate|].
  destruct (given te && given dne) eqn:Hg; [discriminate|]. destruct (Rlt_dec area 0); [discriminate|].
  destruct (sample_start csfd chron age_of tlo thi area ts dn) as [[t0' p']|] eqn:Hf; [|discriminate].
  cbn [rbind] in HH.
  destruct (sample_end csfd chron age_of tlo thi area t0' (fst p') te dne) as [[t1' q']|] eqn:He; [|discriminate].
  cbn [rbind] in HH. injection HH as -> -> -> ->.
  assert (Hs : 0 <= t0 /\ 0 < csfd (fst p) /\ csfd (fst p) * chron t0 = snd p / area /\
     match ts, dn with Some t, None => t0 = t | None, Some d => p = d | _, _ => False end).
  { unfold sample_start in Hf. destruct ts as [t|], dn as [d|]; try discriminate.
    - destruct (fn_chk REF_DIAM t) eqn:E; [|discriminate]. apply fn_chk_ok in E as (-> & Ht & _).
      simpl in Hf. injection Hf as <- <-. unfold REF_DIAM. simpl. repeat split; auto.
      field. lra.
    - destruct (validate_csfd d); [|discriminate]. simpl in Hf.
      destruct (age_of (fst d) (snd d / area)) eqn:E; [|discriminate]. simpl in Hf.
      apply (gp_root _ _ _ _ G) in E as (? & ? & ?). injection Hf as <- <-. auto. }
  destruct Hs as (Ht0 & Hcs & Heq & Htd). clear Hf.
  unfold sample_end in He.
  destruct te as [e|], dne as [d|]; simpl in Hg; try discriminate; clear Hg; cbv [rbind] in He.
  - (* te given *)
    destruct (va_cases t0 e) as [Ev|Ev]; rewrite Ev in He; try discriminate.
    destruct (fn_chk (fst p) e) eqn:Ef; [|discriminate].
    injection He as <- <-. apply fn_chk_ok in Ef as (-> & He' & _). apply va_ok in Ev as (Hle & _).
    cbn [fst snd]. repeat match goal with |- _ /\ _ => split end; auto; try lra. field. lra.
  - (* dne given *)
    destruct (validate_csfd d) eqn:Ed; try discriminate.
    destruct (Req_EM_T (fst d) (fst p)) as [Hd|]; [|discriminate].
    rewrite Ed in He.
    destruct (age_of (fst d) (snd d / area)) as [aa|] eqn:Ea; try discriminate.
    destruct (va_cases t0 aa) as [Ev|Ev]; rewrite Ev in He; try discriminate.
    injection He as <- <-. apply va_ok in Ev as (Hle & _).
    apply (gp_root _ _ _ _ G) in Ea as (? & ? & ?).
    rewrite Hd in *. repeat match goal with |- _ /\ _ => split end; auto; try lra.
  - (* neither *)
    destruct (validate_csfd (REF_DIAM, 0)) eqn:Ed; try discriminate.
    cbn [fst snd] in He.
    destruct (Req_EM_T REF_DIAM (fst p)) as [Hd|Hd].
    + destruct (va_cases t0 0) as [Ev|Ev]; rewrite Ev in He; try discriminate.
      injection He as <- <-. rewrite (gp_zero _ _ _ _ G).
      cbn [fst snd]. repeat match goal with |- _ /\ _ => split end; auto; try lra.
    + destruct (fn_chk (fst p) 0) eqn:Ef; [|discriminate].
      destruct (va_cases t0 0) as [Ev|Ev]; rewrite Ev in He; try discriminate.
      injection He as <- <-. apply fn_chk_ok in Ef as (-> & _).
      cbn [fst snd]. repeat match goal with |- _ /\ _ => split end; auto; try lra. field. lra.
Qed.

(** Validated plans. *)
Definition plan_ok (a : args) (p : plan) : Prop :=
  0 <= p_te p <= p_ts p /\ (1 <= p_n p)%Z /\
  0 < csfd (fst (p_dn p)) /\ fst (p_dne p) = fst (p_dn p) /\
  csfd (fst (p_dn p)) * chron (p_ts p) = snd (p_dn p) / area /\
  csfd (fst (p_dn p)) * chron (p_te p) = snd (p_dne p) / area /\
  (if p_time p then
     exists dt, a_dt a = Some dt /\ p_dt p = Some dt /\ 0 < dt <= p_ts p - p_te p /\
                p_n p = ceil ((p_ts p - p_te p) / dt)
   else a_dt a = None /\ p_dt p = None /\ p_dN p = (snd (p_dn p) - snd (p_dne p)) / IZR (p_n p) /\
        (a_n a = Some (p_n p) \/ a_n a = None /\ p_n p = 1%Z)).

Lemma ceil_pos x : 0 < x -> (1 <= ceil x)%Z.
Proof.
  intros H. pose proof (ceil_ge x). assert (0 < ceil x)%Z; [|lia]. apply lt_IZR. lra.
Qed.

Lemma conv_eq x : area * x / Nconv / area = x / Nconv.
Proof.
  pose proof (gp_area _ _ _ _ G). unfold Rdiv.
  replace (area * x * / Nconv * / area) with (x * / Nconv * (area * / area)) by ring.
  rewrite Rinv_r; lra.
Qed.

Lemma vra_ok cur a p : vra cur a = Ok p -> plan_ok a p /\ period cur a (p_ts p) (p_te p).
Proof.
  pose proof (gp_area _ _ _ _ G) as HA.
  unfold validate_run_args.
  destruct (pick_args cur a) as [[[[ts te] dn] dne]|] eqn:Ep; [|discriminate]. cbv [rbind].
  intros H.
  destruct (match a_n a with Some n => _ | None => _ end) as [nint|] eqn:En; [|discriminate].
  destruct (sample_args ts te dn dne) as [[[[t0 t1] pp] q]|] eqn:Es; [|discriminate].
  apply sample_ok in Es as (Ht & Hc & Hq & E0 & E1 & Hts & Hte).
  assert (HP : period cur a t0 t1).
  { unfold Run_model.pick_args in Ep. destruct (a_age a) as [x|] eqn:Ea; cbv [rbind] in Ep.
    - destruct (given (a_ts a) || given (a_te a)); [discriminate|].
      destruct (a_dn a); [discriminate|]. destruct (a_ND a); [discriminate|]. simpl in Ep.
      injection Ep as <- <- <- <-. simpl in *. subst t0.
      destruct (a_dne a); [contradiction|]. subst t1. now apply by_age.
    - destruct (a_ts a) as [t|] eqn:Et.
      + destruct (a_dn a); [discriminate|]. destruct (a_ND a); [discriminate|]. simpl in Ep.
        injection Ep as <- <- <- <-. simpl in *. subst t0.
        destruct (a_dne a); [contradiction|]. destruct (a_te a) eqn:Ee; subst t1.
        * now apply by_start_end.
        * now apply by_start.
      + destruct (a_te a) as [e|] eqn:Ee.
        * destruct cur as [c|]; [|discriminate]. injection Ep as <- <- <- <-. simpl in *.
          destruct (a_dn a); [contradiction|]. destruct (a_dne a); [contradiction|].
          subst. now apply by_end.
        * destruct (a_ND a) as [[D n]|] eqn:EN.
          -- destruct (given (a_dn a) || given (a_dne a)); [discriminate|].
             injection Ep as <- <- <- <-. simpl in *. subst pp. destruct Hte as [Hte ->]. simpl in *.
             apply by_density with (D := D) (n := n); auto.
             ++ split; [lra|]. rewrite E0. apply conv_eq.
             ++ destruct (a_NDe a) as [[D' n']|]; simpl in *.
                ** split; [auto|]. split; [lra|]. rewrite Hte, E1. apply conv_eq.
                ** apply (root_unique (D * Dconv) 0); auto.
                   --- split; [lra|]. rewrite E1. unfold Rdiv. ring.
                   --- split; [lra|]. rewrite (gp_zero _ _ _ _ G). ring.
          -- destruct (given (a_NDe a)); [discriminate|].
             destruct (a_dn a) as [[D n]|] eqn:Ed; [|discriminate]. simpl in Ep.
             injection Ep as <- <- <- <-. subst pp. simpl in *.
             apply by_number with (D := D) (n := n); auto.
             ++ split; [lra|auto].
             ++ destruct (a_dne a) as [[D' n']|]; simpl in *; auto.
                destruct Hte as [-> ->]. split; [auto|]. split; [lra|]. exact E1. }
  destruct (a_dt a) as [dt|] eqn:Edt.
  - destruct (a_n a) as [n|] eqn:Ean.
    { destruct (n <? 1)%Z; discriminate. }
    destruct ts as [lts|], te as [lte|]; try discriminate.
    destruct (Rlt_dec (lts - lte) dt); [discriminate|].
    destruct (Rle_dec dt 0); [discriminate|].
    injection H as <-. cbn [p_ts p_te]. split; [|exact HP].
    destruct dn; [contradiction|]. destruct dne; [contradiction|]. subst.
    unfold plan_ok. cbn. repeat match goal with |- _ /\ _ => split end; auto; try lra.
    + apply ceil_pos. apply Rdiv_lt_0_compat; lra.
    + exists dt. repeat match goal with |- _ /\ _ => split end; auto; lra.
  - injection H as <-. cbn [p_ts p_te]. split; [|exact HP].
    unfold plan_ok. cbn. destruct (a_n a) as [n|] eqn:Ean.
    + destruct (n <? 1)%Z eqn:Hn; [discriminate|]. apply Z.ltb_ge in Hn. simpl in En.
      injection En as <-. repeat match goal with |- _ /\ _ => split end; auto; try lra.
    + simpl in En. injection En as <-.
      repeat match goal with |- _ /\ _ => split end; auto; try lra; try lia.
Qed.

(** populate inside the loop samples exactly the period it is given *)
Lemma populate_ok a s s1 : populate a s = (s1, None) ->
  exists p, vra (time s) a = Ok p /\
    time s1 = time s /\ interval s1 = interval s /\ elapsed s1 = elapsed s /\ n1 s1 = n1 s /\
    trace s1 = trace s ++ [EPop (p_ts p) (p_te p)].
Proof.
  unfold Run_model.populate. destruct (vra (time s) a) as [p|]; [|discriminate].
  destruct (forms _ _ _); [|discriminate]. intros [= <-]. exists p. simpl. auto 10.
Qed.

Lemma step_time_ok ts te dt i s s' : step_time ts te dt i s = (s', None) ->
  let t0 := ts - IZR i * dt in
  let t1 := Rmax (ts - (IZR i + 1) * dt) te in
  0 <= t1 <= t0 /\
  time s' = Some t1 /\ interval s' = (interval s + 1)%Z /\ elapsed s' = elapsed s + dt /\
  n1 s' = n1 s + fn DSTD t0 t1 * Nconv /\
  trace s' = trace s ++ [EPop t0 t1; ESave (interval s') (time s') (elapsed s')].
Proof.
  unfold Run_model.step_time.
  replace (if Rlt_dec (ts - (IZR i + 1) * dt) te then te else ts - (IZR i + 1) * dt)
    with (Rmax (ts - (IZR i + 1) * dt) te).
  2:{ unfold Rmax. destruct (Rlt_dec _ _), (Rle_dec _ _); lra. }
  set (t1 := Rmax _ _). set (t0 := ts - _).
  destruct (populate _ s) as [s1 [x|]] eqn:E; [discriminate|]. intros [= <-].
  apply populate_ok in E as (p & Ev & ? & ? & ? & ? & Htr).
  apply vra_ok in Ev as [(Hb & _) Hp].
  inversion Hp; simpl in *; try discriminate.
  match goal with H : Some t0 = Some _ |- _ => injection H as H; rewrite <- H in * end.
  match goal with H : Some t1 = Some _ |- _ => injection H as H; rewrite <- H in * end.
  simpl. repeat match goal with |- _ /\ _ => split end; try congruence; try lra.
  rewrite Htr, <- app_assoc. simpl.
  repeat f_equal; congruence.
Qed.

Lemma step_number_ok dn dN i s s' : step_number dn dN i s = (s', None) ->
  exists t0 t1,
  0 < csfd (fst dn) /\ age_at csfd chron (fst dn) ((snd dn - IZR i * dN) / area) t0 /\
  age_at csfd chron (fst dn) ((snd dn - (IZR i + 1) * dN) / area) t1 /\ t1 <= t0 /\
  time s' = Some t1 /\ interval s' = (interval s + 1)%Z /\ elapsed s' = elapsed s + (t0 - t1) /\
  n1 s' = n1 s + fn DSTD t0 t1 * Nconv /\
  trace s' = trace s ++ [EPop t0 t1; ESave (interval s') (time s') (elapsed s')].
Proof.
  unfold Run_model.step_number.
  destruct (populate _ s) as [s1 [x|]] eqn:E; [discriminate|]. cbn [fst snd].
  apply populate_ok in E as (p & Ev & ? & ? & ? & ? & Htr).
  apply vra_ok in Ev as [(Hb & _ & Hcs & _) Hp].
  inversion Hp; simpl in *; try discriminate.
  match goal with H : Some _ = Some (D, n) |- _ => injection H as HD Hn; subst D n end.
  match goal with H : _ /\ age_at _ _ _ _ (p_te p) |- _ => destruct H as [_ Hte] end.
  destruct (age_of (fst dn) ((snd dn - IZR i * dN) / area)) as [t0|] eqn:E0; [|discriminate].
  apply (gp_root _ _ _ _ G) in E0 as (Ht0 & HD & E0).
  match goal with H : age_at _ _ _ _ (p_ts p) |- _ =>
    rewrite (root_unique _ _ _ _ HD H (conj Ht0 E0)) in * end.
  destruct (if Rlt_dec 0 (snd dn - (IZR i + 1) * dN) then _ else _) as [e|] eqn:E1; [|discriminate].
  assert (He : e = p_te p /\ 0 <= e).
  { destruct (Rlt_dec 0 (snd dn - (IZR i + 1) * dN)) as [Hpos|Hneg].
    - apply (gp_root _ _ _ _ G) in E1 as (G1 & G2 & G3).
      split; [|auto]. apply (root_unique _ _ _ _ HD (conj G1 G3) Hte).
    - injection E1 as <-. split; [|lra]. destruct Hte as [Hte0 Hte].
      destruct (Rle_lt_or_eq_dec _ _ Hte0) as [Hl|]; [|auto].
      pose proof (gp_mono _ _ _ _ G 0 (p_te p) ltac:(lra)) as Hm. rewrite (gp_zero _ _ _ _ G) in Hm.
      assert (Hq : 0 < csfd (fst dn) * chron (p_te p)) by (apply Rmult_lt_0_compat; lra).
      rewrite Hte in Hq. exfalso. unfold Rdiv in Hq.
      assert (0 < / area) by (apply Rinv_0_lt_compat; apply (gp_area _ _ _ _ G)).
      pose proof (Rmult_le_compat_r (/ area) (snd dn - (IZR i + 1) * dN) 0 ltac:(lra) ltac:(lra)).
      lra. }
  destruct He as [-> He]. destruct (Rlt_dec (p_te p) 0); [lra|].
  intros [= <-]. exists t0, (p_te p). simpl.
  repeat match goal with |- _ /\ _ => split end; try congruence; try lra; auto.
  - split; [lra|exact E0].
  - rewrite Htr, <- app_assoc. simpl. repeat f_equal; congruence.
Qed.

(** summary of what a completed stretch of a run did *)
Definition did (s s' : sim) (a b : R) (k : nat) (dt : R) : Prop :=
  exists l sv, trace s' = trace s ++ l /\ periods l = sv /\ tiles a b sv /\ List.length sv = k /\
    saves l = map (fun j => interval s + 1 + Z.of_nat j)%Z (seq 0 k) /\
    time s' = Some b /\ interval s' = (interval s + Z.of_nat k)%Z /\
    elapsed s' = elapsed s + dt /\ n1 s' = n1 s + fn DSTD a b * Nconv.

Lemma fn_add D a b c : fn D a b + fn D b c = fn D a c.
Proof. unfold Run_model.fn. ring. Qed.

Lemma loop_time ts te dt n : 0 < dt -> ts - IZR n * dt <= te -> te < ts - (IZR n - 1) * dt ->
  forall k i s s', (i + Z.of_nat k = n)%Z -> k <> O ->
  loop (step_time ts te dt) k i s = (s', None) ->
  did s s' (ts - IZR i * dt) te k (INR k * dt).
Proof.
  intros Hdt Hn1 Hn2. induction k as [|k IH]; intros i s s' Hi Hk HL; [easy|].
  simpl in HL. destruct (step_time ts te dt i s) as [s1 [x|]] eqn:E; [discriminate|].
  apply step_time_ok in E as (Hb & Et & Ei & Ee & En & Etr).
  assert (Hin : (i <= n - 1)%Z) by lia. apply IZR_le in Hin. rewrite minus_IZR in Hin.
  assert (Hlt : te < ts - IZR i * dt).
  { assert ((IZR i) * dt <= (IZR n - 1) * dt) by (apply Rmult_le_compat_r; lra). lra. }
  destruct k as [|k].
  - simpl in HL. injection HL as <-.
    assert (E1 : Rmax (ts - (IZR i + 1) * dt) te = te).
    { apply Rmax_right. replace (IZR i + 1) with (IZR n); [lra|].
      rewrite <- Hi. rewrite plus_IZR. simpl. lra. }
    rewrite E1 in *. rewrite Ei, Et, Ee in Etr.
    eexists; exists [(ts - IZR i * dt, te)].
    repeat match goal with |- _ /\ _ => split end; try exact Etr; auto.
    + now constructor.
    + simpl. now rewrite Z.add_0_r.
    + simpl. lra.
  - assert (E1 : Rmax (ts - (IZR i + 1) * dt) te = ts - IZR (i + 1) * dt).
    { rewrite plus_IZR. apply Rmax_left.
      assert (Hin2 : (i + 1 <= n - 1)%Z) by lia. apply IZR_le in Hin2.
      rewrite minus_IZR, plus_IZR in Hin2.
      assert ((IZR i + 1) * dt <= (IZR n - 1) * dt) by (apply Rmult_le_compat_r; lra). lra. }
    rewrite E1 in *.
    destruct (IH (i + 1)%Z s1 s' ltac:(lia) ltac:(discriminate) HL) as (l & sv & H1 & H2 & H3 & H4 & H5 & H6 & H7 & H8 & H9).
    rewrite Ei, Et, Ee in Etr. eexists; eexists ((_, _) :: sv).
    repeat match goal with |- _ /\ _ => split end.
    + rewrite H1, Etr, <- app_assoc. reflexivity.
    + simpl. rewrite H2. reflexivity.
    + constructor; [|exact H3]. rewrite plus_IZR. lra.
    + simpl. lia.
    + cbn [saves app]. rewrite H5, Ei. change (seq 0 (S (S k))) with (0%nat :: seq 1 (S k)).
      rewrite <- (seq_shift (S k) 0). cbn [map]. rewrite map_map. f_equal; [lia|].
      apply map_ext. intros. lia.
    + exact H6.
    + rewrite H7, Ei. lia.
    + rewrite H8, Ee. change (INR (S (S k))) with (INR (S k) + 1). lra.
    + rewrite H9, En. rewrite <- (fn_add DSTD (ts - IZR i * dt) (ts - IZR (i + 1) * dt) te). ring.
Qed.

Lemma loop_number dn dN n te : 0 < csfd (fst dn) -> 0 < dN ->
  age_at csfd chron (fst dn) ((snd dn - IZR n * dN) / area) te ->
  forall k i s s', (i + Z.of_nat k = n)%Z -> k <> O ->
  loop (step_number dn dN) k i s = (s', None) ->
  exists t0, age_at csfd chron (fst dn) ((snd dn - IZR i * dN) / area) t0 /\
  did s s' t0 te k (t0 - te).
Proof.
  intros HD HdN Hte. induction k as [|k IH]; intros i s s' Hi Hk HL; [easy|].
  simpl in HL. destruct (step_number dn dN i s) as [s1 [x|]] eqn:E; [discriminate|].
  apply step_number_ok in E as (t0 & t1 & _ & A0 & A1 & Hle & Et & Ei & Ee & En & Etr).
  assert (Hlt : t1 < t0).
  { apply (root_lt (fst dn)); auto; try apply A0; try apply A1.
    destruct A0 as [_ ->], A1 as [_ ->]. unfold Rdiv. apply Rmult_lt_compat_r.
    - apply Rinv_0_lt_compat, (gp_area _ _ _ _ G).
    - lra. }
  exists t0. split; [exact A0|].
  destruct k as [|k].
  - simpl in HL. injection HL as <-.
    assert (t1 = te) as <-.
    { apply (root_unique _ _ _ _ HD A1). rewrite <- Hi in Hte. rewrite plus_IZR in Hte. exact Hte. }
    rewrite Ei, Et, Ee in Etr. eexists; exists [(t0, t1)].
    repeat match goal with |- _ /\ _ => split end; try exact Etr; auto.
    + now constructor.
    + simpl. now rewrite Z.add_0_r.
  - destruct (IH (i + 1)%Z s1 s' ltac:(lia) ltac:(discriminate) HL)
      as (t0' & A0' & l & sv & H1 & H2 & H3 & H4 & H5 & H6 & H7 & H8 & H9).
    assert (t0' = t1) as ->.
    { apply (root_unique _ _ _ _ HD A0'). rewrite plus_IZR. exact A1. }
    rewrite Ei, Et, Ee in Etr. eexists; eexists ((_, _) :: sv).
    repeat match goal with |- _ /\ _ => split end.
    + rewrite H1, Etr, <- app_assoc. reflexivity.
    + simpl. rewrite H2. reflexivity.
    + constructor; [|exact H3]. lra.
    + simpl. lia.
    + cbn [saves app]. rewrite H5, Ei. change (seq 0 (S (S k))) with (0%nat :: seq 1 (S k)).
      rewrite <- (seq_shift (S k) 0). cbn [map]. rewrite map_map. f_equal; [lia|].
      apply map_ext. intros. lia.
    + exact H6.
    + rewrite H7, Ei. lia.
    + rewrite H8, Ee. lra.
    + rewrite H9, En. rewrite <- (fn_add DSTD t0 t1 te). ring.
Qed.


(** Everything about one completed run. *)
Definition dt_of (p : plan) : R :=
  if (p_n p =? 1)%Z then p_ts p - p_te p else match p_dt p with Some d => d | None => 0 end.

Lemma plan_dN_pos a p : plan_ok a p -> p_te p < p_ts p -> p_time p = false -> 0 < p_dN p.
Proof.
  intros (Hb & Hn & Hc & Hf & E0 & E1 & Hm) Hlt Ht. rewrite Ht in Hm.
  destruct Hm as (_ & _ & -> & _). apply Rdiv_lt_0_compat.
  - pose proof (gp_mono _ _ _ _ G (p_te p) (p_ts p) ltac:(lra)).
    assert (csfd (fst (p_dn p)) * chron (p_te p) < csfd (fst (p_dn p)) * chron (p_ts p))
      by (apply Rmult_lt_compat_l; lra).
    rewrite E0, E1 in H0. unfold Rdiv in H0. apply Rmult_lt_reg_r in H0; [lra|].
    apply Rinv_0_lt_compat, (gp_area _ _ _ _ G).
  - apply IZR_lt. lia.
Qed.

Lemma fn_pos a b : 0 <= b < a -> 0 < fn DSTD a b.
Proof.
  intros H. unfold Run_model.fn. apply Rmult_lt_0_compat; [apply (gp_csfd _ _ _ _ G)|].
  pose proof (gp_mono _ _ _ _ G b a H). lra.
Qed.

(** the run, unfolded: [cur] is the time it starts from *)
Lemma run_inv a s s' : run a s = (s', None) ->
  exists p, vra (time s) a = Ok p /\ plan_ok a p /\ period (time s) a (p_ts p) (p_te p) /\
  p_te p < p_ts p /\
  exists cur i0, (time s = None -> cur = p_ts p) /\ (forall c, time s = Some c -> cur = c) /\
  cur <= p_ts p /\
  (if (p_n p =? 1)%Z || p_time p
   then dt_of p <> 0 /\ i0 = trunc ((p_ts p - cur) / dt_of p)
   else i0 = trunc (fn DSTD (p_ts p) cur / (fn DSTD (p_ts p) (p_te p) / IZR (p_n p)))) /\
  exists s1, time s1 = Some cur /\ (time s = None -> interval s1 = 0%Z) /\
    (time s <> None -> interval s1 = interval s) /\ elapsed s1 = elapsed s /\ n1 s1 = n1 s /\
    trace s1 = trace s ++ (if is_new s then [ESave (interval s1) (Some cur) (elapsed s)] else []) /\
  is_new s1 = is_new s /\
  loop (if (p_n p =? 1)%Z || p_time p then step_time (p_ts p) (p_te p) (dt_of p)
        else step_number (p_dn p) (p_dN p)) (Z.to_nat (p_n p - i0)) i0 s1 = (s', None).
Proof.
  unfold Run_model.run. intros H.
  destruct (vra (time s) a) as [p|] eqn:Ev; [|discriminate].
  pose proof (vra_ok _ _ _ Ev) as [Hp Hper]. exists p.
  split; [reflexivity|]. split; [exact Hp|]. split; [exact Hper|].
  fold (dt_of p) in H.
  assert (Hstart : (if (p_n p =? 1)%Z || p_time p then Ok (p_ts p)
       else age_of (fst (p_dn p)) (snd (p_dn p) / area)) = Ok (p_ts p) \/
       exists e, (if (p_n p =? 1)%Z || p_time p then Ok (p_ts p)
       else age_of (fst (p_dn p)) (snd (p_dn p) / area)) = Err e).
  { destruct ((p_n p =? 1)%Z || p_time p); [now left|].
    destruct (age_of _ _) as [t|e] eqn:Ea; [|right; eauto]. left. f_equal.
    apply (gp_root _ _ _ _ G) in Ea as (? & ? & ?).
    destruct Hp as (Hb & _ & Hc & _ & E0 & _).
    apply (root_unique (fst (p_dn p)) (snd (p_dn p) / area)); auto; split; auto; lra. }
  destruct Hstart as [Hs|[e Hs]]; rewrite Hs in H; [|discriminate]. clear Hs.
  set (s0 := match time s with None => _ | Some _ => _ end) in *.
  set (cur := match time s0 with Some c => c | None => p_ts p end) in *.
  destruct (Rlt_dec (p_ts p) cur) as [|Hcur]; [discriminate|].
  assert (Hc1 : time s = None -> cur = p_ts p).
  { intros E. subst cur s0. now rewrite E. }
  assert (Hc2 : forall c, time s = Some c -> cur = c).
  { intros c E. subst cur s0. now rewrite E, E. }
  assert (Hcc : time s0 = Some cur).
  { subst cur s0. destruct (time s) eqn:E; auto. now rewrite E. }
  set (i0r := if (p_n p =? 1)%Z || p_time p then _ else _) in H.
  destruct i0r as [i0|e] eqn:Ei0; [|discriminate].
  assert (Hlt : p_te p < p_ts p).
  { destruct Hp as (Hb & Hn & Hc & Hf & E0 & E1 & Hm).
    destruct (Rle_lt_or_eq_dec _ _ (proj2 Hb)) as [|Heq]; [auto|exfalso].
    subst i0r. destruct (p_n p =? 1)%Z eqn:E1n; simpl in Ei0.
    - unfold dt_of in Ei0. rewrite E1n in Ei0. destruct (Req_EM_T _ 0); [discriminate|lra].
    - destruct (p_time p); [destruct Hm as (dt & _ & _ & ? & _); lra|].
      destruct (Req_EM_T _ 0) as [|Hne]; [discriminate|]. apply Hne. rewrite Heq.
      unfold Run_model.fn. unfold Rdiv. ring. }
  split; [exact Hlt|]. exists cur, i0.
  split; [exact Hc1|]. split; [exact Hc2|]. split; [lra|].
  split.
  { subst i0r. destruct ((p_n p =? 1)%Z || p_time p).
    - destruct (Req_EM_T _ 0); [discriminate|]. injection Ei0 as <-. auto.
    - destruct (Req_EM_T _ 0); [discriminate|]. injection Ei0 as <-. auto. }
  exists (if is_new s0 then save s0 else s0).
  assert (Hn0 : is_new s0 = is_new s) by (subst s0; destruct (time s); reflexivity).
  assert (He0 : elapsed s0 = elapsed s) by (subst s0; destruct (time s); reflexivity).
  assert (Hn10 : n1 s0 = n1 s) by (subst s0; destruct (time s); reflexivity).
  assert (Ht0 : trace s0 = trace s) by (subst s0; destruct (time s); reflexivity).
  assert (Hi0 : time s = None -> interval s0 = 0%Z) by (intros E; subst s0; rewrite E; reflexivity).
  assert (Hi1 : time s <> None -> interval s0 = interval s) by (intros E; subst s0; destruct (time s); easy).
  rewrite Hn0 in *. destruct (is_new s); simpl;
  repeat match goal with |- _ /\ _ => split end; auto;
  rewrite ?Ht0, ?Hcc, ?He0, ?app_nil_r; auto.
Qed.

(** C09/C10 for a simulation that is new or stands at the requested start, every mode. *)
Lemma fresh_run a s s' :
  (forall c ts te, time s = Some c -> period (time s) a ts te -> ts = c) ->
  run a s = (s', None) ->
  exists ts te p, vra (time s) a = Ok p /\ p_ts p = ts /\ p_te p = te /\ plan_ok a p /\
    period (time s) a ts te /\ te < ts /\
  exists l, trace s' = trace s ++ l /\
    tiles ts te (periods l) /\ List.length (periods l) = Z.to_nat (p_n p) /\
    (let i := match time s with None => 0%Z | Some _ => interval s end in
    saves l = (if is_new s then [i] else []) ++
              map (fun j => i + 1 + Z.of_nat j)%Z (seq 0 (Z.to_nat (p_n p))) /\
    interval s' = (i + p_n p)%Z) /\
    time s' = Some te /\
    elapsed s' = elapsed s + (match a_dt a with
                              | Some dt => if (p_n p =? 1)%Z then ts - te else IZR (p_n p) * dt
                              | None => ts - te end) /\
    n1 s' = n1 s + fn DSTD ts te * Nconv.
Proof.
  intros Hf H. apply run_inv in H as (p & Ev & Hp & Hper & Hlt & cur & i0 & Hc1 & Hc2 & Hcur & Hi & s1 & T1 & I1 & I2 & E1 & N1 & Tr1 & _ & HL).
  assert (cur = p_ts p) as ->.
  { destruct (time s) as [c|]; [|auto]. rewrite (Hc2 c eq_refl). symmetry. eapply Hf; eauto. }
  assert (Ii : interval s1 = match time s with None => 0%Z | Some _ => interval s end).
  { destruct (time s) as [c|]; [apply I2; discriminate|auto]. }
  exists (p_ts p), (p_te p), p.
  do 4 (split; [first [exact Ev | reflexivity | exact Hp]|]).
  split; [exact Hper|]. split; [exact Hlt|].
  assert (Hi0 : i0 = 0%Z).
  { rewrite Rminus_eq_0 in Hi.
    assert (T0 : trunc 0 = 0%Z) by (apply trunc_unique; [lra|split; simpl; lra]).
    destruct ((p_n p =? 1)%Z || p_time p).
    - destruct Hi as [_ ->]. unfold Rdiv. rewrite Rmult_0_l. exact T0.
    - rewrite Hi. unfold Run_model.fn at 1. rewrite Rminus_eq_0, Rmult_0_r.
      unfold Rdiv. rewrite Rmult_0_l. exact T0. }
  subst i0. rewrite Z.sub_0_r in HL. clear Hi.
  pose proof Hp as (Hb & Hn & Hc & Hfst & A0 & A1 & Hm).
  assert (Hk : Z.to_nat (p_n p) <> O) by lia.
  assert (Hdid : did s1 s' (p_ts p) (p_te p) (Z.to_nat (p_n p))
    (match a_dt a with
     | Some dt => if (p_n p =? 1)%Z then p_ts p - p_te p else IZR (p_n p) * dt
     | None => p_ts p - p_te p end)).
  { destruct ((p_n p =? 1)%Z || p_time p) eqn:Emode.
    - assert (Hd : 0 < dt_of p /\ p_ts p - IZR (p_n p) * dt_of p <= p_te p /\
                   p_te p < p_ts p - (IZR (p_n p) - 1) * dt_of p).
      { unfold dt_of. destruct (p_n p =? 1)%Z eqn:En.
        - apply Z.eqb_eq in En. rewrite En. simpl. lra.
        - simpl in Emode. rewrite Emode in Hm. destruct Hm as (dt & _ & -> & Hdt & Hn').
          set (x := (p_ts p - p_te p) / dt) in *.
          assert (Hx : p_ts p - p_te p = x * dt) by (unfold x; field; lra).
          pose proof (ceil_ge x). pose proof (ceil_lt x). rewrite Hn'.
          assert (x * dt <= IZR (ceil x) * dt) by (apply Rmult_le_compat_r; lra).
          assert ((IZR (ceil x) - 1) * dt < x * dt) by (apply Rmult_lt_compat_r; lra).
          lra. }
      destruct Hd as (Hd1 & Hd2 & Hd3).
      pose proof (loop_time _ _ _ _ Hd1 Hd2 Hd3 (Z.to_nat (p_n p)) 0%Z s1 s' ltac:(lia) Hk HL) as HD.
      rewrite Rmult_0_l, Rminus_0_r in HD.
      replace (match a_dt a with Some _ => _ | None => _ end) with (INR (Z.to_nat (p_n p)) * dt_of p); [exact HD|].
      rewrite INR_IZR_INZ, Z2Nat.id by lia. unfold dt_of.
      destruct (p_n p =? 1)%Z eqn:En.
      + apply Z.eqb_eq in En. rewrite En. destruct (a_dt a); simpl; ring.
      + simpl in Emode. rewrite Emode in Hm. destruct Hm as (dt & -> & -> & _). reflexivity.
    - apply orb_false_iff in Emode as [En Et]. rewrite Et in Hm.
      destruct Hm as (-> & _ & HdN & _).
      assert (HdNp : 0 < p_dN p) by (apply (plan_dN_pos a); auto).
      assert (HE : age_at csfd chron (fst (p_dn p)) ((snd (p_dn p) - IZR (p_n p) * p_dN p) / area) (p_te p)).
      { split; [lra|]. rewrite A1, HdN. f_equal. field. apply IZR_neq. lia. }
      destruct (loop_number _ _ _ _ Hc HdNp HE (Z.to_nat (p_n p)) 0%Z s1 s' ltac:(lia) Hk HL) as (t0 & HA & HD).
      rewrite Rmult_0_l, Rminus_0_r in HA.
      assert (t0 = p_ts p) as ->; [|exact HD].
      apply (root_unique (fst (p_dn p)) (snd (p_dn p) / area)); auto. split; [lra|auto]. }
  destruct Hdid as (l & sv & H1 & H2 & H3 & H4 & H5 & H6 & H7 & H8 & H9).
  eexists. split; [rewrite H1, Tr1, <- app_assoc; reflexivity|].
  rewrite periods_app, saves_app.
  assert (Hp0 : periods (if is_new s then [ESave (interval s1) (Some (p_ts p)) (elapsed s)] else []) = [])
    by (destruct (is_new s); reflexivity).
  rewrite Hp0, H2. simpl.
  repeat match goal with |- _ /\ _ => split end; auto.
  - rewrite H5, Ii. destruct (is_new s); simpl; f_equal; auto.
  - rewrite H7, Ii. lia.
  - rewrite H8, E1. reflexivity.
  - rewrite H9, N1. reflexivity.
Qed.

(** validation of plain times succeeds *)
Lemma vra_times cur t0 t1 : 0 <= t1 <= t0 ->
  (forall l, tlo = Some l -> l <= t1) -> (forall h, thi = Some h -> t0 <= h) ->
  exists p, vra cur (mkArgs None (Some t0) (Some t1) None None None None None None) = Ok p /\
    p_ts p = t0 /\ p_te p = t1.
Proof.
  intros Hb Hl Hh. unfold validate_run_args, Run_model.pick_args, Run_model.sample_args, sample_start, sample_end.
  simpl. destruct (Rlt_dec area 0); [pose proof (gp_area _ _ _ _ G); lra|].
  unfold Run_model.fn_chk.
  rewrite (va_ok_conv t0 0); [|lra|intros l Hl'; specialize (Hl l Hl'); lra|auto]. simpl.
  rewrite (va_ok_conv t0 t1); [|lra|intros l Hl'; specialize (Hl l Hl'); lra|auto]. simpl.
  rewrite (va_ok_conv t1 0); [|lra|auto|intros h Hh'; specialize (Hh h Hh'); lra]. simpl.
  eexists. split; [reflexivity|]. simpl. auto.
Qed.

(** C11: the accepted sets of time arguments. *)
Lemma accepted_times cur a : a_ND a = None -> a_NDe a = None -> a_dn a = None -> a_dne a = None ->
  (exists p, vra cur a = Ok p) <-> consistent_times tlo thi cur a.
Proof.
  intros E1 E2 E3 E4.
  assert (K : forall ts te, sample_args (Some ts) (Some te) None None =
     (if Rlt_dec area 0 then Err ValueError else
      rbind (fn_chk REF_DIAM ts) (fun v => rbind (validate_age ts te) (fun _ =>
        rbind (fn_chk REF_DIAM te) (fun v' => Ok (ts, te, (REF_DIAM, v * area), (REF_DIAM, v' * area))))))).
  { intros. unfold Run_model.sample_args, sample_start, sample_end. simpl.
    destruct (Rlt_dec area 0); auto. destruct (fn_chk REF_DIAM ts); auto. simpl.
    destruct (validate_age ts te); auto. simpl. destruct (fn_chk REF_DIAM te); auto. }
  assert (KP : forall ts te, (exists y, sample_args (Some ts) (Some te) None None = Ok y) <->
     (0 <= te <= ts /\ (forall l, tlo = Some l -> l <= te) /\ (forall h, thi = Some h -> ts <= h))).
  { intros. rewrite K. destruct (Rlt_dec area 0); [pose proof (gp_area _ _ _ _ G); lra|]. split.
    - intros [y Hy]. destruct (fn_chk REF_DIAM ts) eqn:F1; [|discriminate]. simpl in Hy.
      destruct (va_cases ts te) as [F2|F2]; rewrite F2 in Hy; [|discriminate]. simpl in Hy.
      destruct (fn_chk REF_DIAM te) eqn:F3; [|discriminate].
      apply fn_chk_ok in F1 as (_ & ? & ? & ?). apply fn_chk_ok in F3 as (_ & ? & ? & ?).
      apply va_ok in F2 as (? & ? & ?). repeat split; auto.
    - intros (Hb & Hl & Hh). unfold Run_model.fn_chk.
      rewrite (va_ok_conv ts 0); [|lra|intros l Hl'; specialize (Hl l Hl'); lra|auto]. simpl.
      rewrite (va_ok_conv ts te); [|lra|intros l Hl'; specialize (Hl l Hl'); lra|auto]. simpl.
      rewrite (va_ok_conv te 0); [|lra|auto|intros h Hh'; specialize (Hh h Hh'); lra]. simpl. eauto. }
  assert (KT : forall ts te, pick_args cur a = Ok (Some ts, Some te, None, None) ->
     ((exists p, vra cur a = Ok p) <->
      ((0 <= te <= ts /\ (forall l, tlo = Some l -> l <= te) /\ (forall h, thi = Some h -> ts <= h)) /\
       (a_dt a = None \/ a_n a = None) /\ (forall n, a_n a = Some n -> (1 <= n)%Z) /\
       (forall dt, a_dt a = Some dt -> 0 < dt <= ts - te)))).
  { intros ts te Ep. rewrite <- KP. unfold validate_run_args. rewrite Ep. simpl.
    destruct (a_n a) as [n|].
    - destruct (n <? 1)%Z eqn:Hn; simpl.
      + apply Z.ltb_lt in Hn. split; [intros [? ?]; discriminate|].
        intros (_ & _ & H & _). specialize (H n eq_refl). lia.
      + apply Z.ltb_ge in Hn. destruct (a_dt a) as [dt|]; simpl.
        * split; [intros [? ?]; discriminate|]. intros (_ & [H|H] & _); discriminate.
        * destruct (sample_args (Some ts) (Some te) None None) as [[[[? ?] ?] ?]|]; simpl.
          -- split; [intros _|eauto]. split; [eauto|]. split; [auto|]. split; [intros ? [= <-]; lia|discriminate].
          -- split; [intros [? ?]; discriminate|]. intros ([? ?] & _). discriminate.
    - destruct (a_dt a) as [dt|]; simpl.
      + destruct (sample_args (Some ts) (Some te) None None) as [[[[? ?] ?] ?]|]; simpl.
        * destruct (Rlt_dec (ts - te) dt) as [Hd|Hd].
          { split; [intros [? ?]; discriminate|]. intros (_ & _ & _ & H). specialize (H _ eq_refl). lra. }
          destruct (Rle_dec dt 0) as [Hd'|Hd'].
          { split; [intros [? ?]; discriminate|]. intros (_ & _ & _ & H). specialize (H _ eq_refl). lra. }
          split; [intros _|eauto]. split; [eauto|]. split; [auto|]. split; [discriminate|].
          intros ? [= <-]. lra.
        * split; [intros [? ?]; discriminate|]. intros ([? ?] & _). discriminate.
      + destruct (sample_args (Some ts) (Some te) None None) as [[[[? ?] ?] ?]|]; simpl.
        * split; [intros _|eauto]. split; [eauto|]. split; [auto|]. split; discriminate.
        * split; [intros [? ?]; discriminate|]. intros ([? ?] & _). discriminate. }
  assert (KN : forall e, pick_args cur a = Err e -> ~ exists p, vra cur a = Ok p).
  { intros e Ep [p Hp]. unfold validate_run_args in Hp. rewrite Ep in Hp. discriminate. }
  unfold consistent_times.
  unfold Run_model.pick_args in KT, KN. rewrite E1, E2, E3, E4 in KT, KN. simpl in KT, KN.
  destruct (a_age a) as [x|]; simpl in KT, KN.
  - destruct (a_ts a) as [t|], (a_te a) as [e|]; simpl in KT, KN;
      try (split; [intros H; destruct (KN _ eq_refl H)|
                   intros (? & ? & [(_ & ? & ? & _)|[(? & _)|(? & _)]] & _); discriminate]).
    rewrite (KT _ _ eq_refl). split.
    + intros ((? & ? & ?) & ? & ? & ?). exists x, 0. split; [left; auto|tauto].
    + intros (ts & te & [(H1 & _ & _ & ->)|[(? & _)|(? & _)]] & ? & ? & ? & ? & ? & ?); try discriminate.
      injection H1 as <-. tauto.
  - destruct (a_ts a) as [t|].
    + simpl in KT. rewrite (KT _ _ eq_refl). destruct (a_te a) as [e|]; split.
      * intros ((? & ? & ?) & ? & ? & ?). exists t, e. split; [right; left; auto|tauto].
      * intros (ts & te & [(? & _)|[(_ & H1 & [H2|(H2 & _)])|(_ & ? & _)]] & ? & ? & ? & ? & ? & ?); try discriminate.
        injection H1 as <-. injection H2 as <-. tauto.
      * intros ((? & ? & ?) & ? & ? & ?). exists t, 0. split; [right; left; auto|tauto].
      * intros (ts & te & [(? & _)|[(_ & H1 & [H2|(_ & ->)])|(_ & ? & _)]] & ? & ? & ? & ? & ? & ?); try discriminate.
        injection H1 as <-. tauto.
    + destruct (a_te a) as [e|].
      * destruct cur as [c|].
        -- rewrite (KT _ _ eq_refl). split.
           ++ intros ((? & ? & ?) & ? & ? & ?). exists c, e. split; [right; right; auto|tauto].
           ++ intros (ts & te & [(? & _)|[(_ & ? & _)|(_ & _ & H1 & H2)]] & ? & ? & ? & ? & ? & ?); try discriminate.
              injection H1 as <-. injection H2 as <-. tauto.
        -- split; [intros H; destruct (KN _ eq_refl H)|].
           intros (? & ? & [(? & _)|[(_ & ? & _)|(_ & _ & _ & ?)]] & _); discriminate.
      * split; [intros H; destruct (KN _ eq_refl H)|].
        intros (? & ? & [(? & _)|[(_ & ? & _)|(_ & _ & ? & _)]] & _); discriminate.
Qed.

(** completion in equal time steps *)
Lemma step_time_total ts te dt i s n :
  (forall h a b, exists x, forms h a b = Ok x) ->
  0 <= te -> 0 < dt -> (0 <= i < n)%Z -> te < ts - (IZR n - 1) * dt ->
  (forall l, tlo = Some l -> l <= te) -> (forall h, thi = Some h -> ts <= h) ->
  exists s', step_time ts te dt i s = (s', None).
Proof.
  intros HF Hte Hdt Hi Hn Hl Hh. unfold Run_model.step_time, Run_model.populate.
  set (t0 := ts - IZR i * dt). set (t1 := if Rlt_dec _ _ then _ else _).
  assert (Hin : (i <= n - 1)%Z) by lia. apply IZR_le in Hin. rewrite minus_IZR in Hin.
  assert (H1 : IZR i * dt <= (IZR n - 1) * dt) by (apply Rmult_le_compat_r; lra).
  assert (H0 : 0 <= IZR i * dt) by (apply Rmult_le_pos; [apply IZR_le; lia|lra]).
  assert (Hb : te <= t1 <= t0) by (subst t1 t0; destruct (Rlt_dec _ _); lra).
  destruct (vra_times (time s) t0 t1) as (p & Ep & Ep1 & Ep2); [lra| | |].
  - intros l E. specialize (Hl l E). lra.
  - intros h E. specialize (Hh h E). subst t0. lra.
  - rewrite Ep. destruct (HF (trace s) (p_ts p) (p_te p)) as [x ->]. eauto.
Qed.

Lemma loop_time_total ts te dt n :
  (forall h a b, exists x, forms h a b = Ok x) ->
  0 <= te -> 0 < dt -> te < ts - (IZR n - 1) * dt ->
  (forall l, tlo = Some l -> l <= te) -> (forall h, thi = Some h -> ts <= h) ->
  forall k i s, (0 <= i)%Z -> (i + Z.of_nat k <= n)%Z ->
  exists s', loop (step_time ts te dt) k i s = (s', None).
Proof.
  intros HF Hte Hdt Hn Hl Hh. induction k as [|k IH]; intros i s Hi Hk; simpl; [eauto|].
  destruct (step_time_total ts te dt i s n) as [s1 ->]; auto; [lia|]. apply IH; lia.
Qed.

Definition is_time_mode (p : plan) : bool := (p_n p =? 1)%Z || p_time p.

Lemma time_plan a p : plan_ok a p -> p_te p < p_ts p -> is_time_mode p = true ->
  0 < dt_of p /\ p_ts p - IZR (p_n p) * dt_of p <= p_te p /\
  p_te p < p_ts p - (IZR (p_n p) - 1) * dt_of p.
Proof.
  intros (Hb & Hn & Hc & Hfst & A0 & A1 & Hm) Hlt Emode. unfold is_time_mode in Emode.
  unfold dt_of. destruct (p_n p =? 1)%Z eqn:En.
  - apply Z.eqb_eq in En. rewrite En. simpl. lra.
  - simpl in Emode. rewrite Emode in Hm. destruct Hm as (dt & _ & -> & Hdt & Hn').
    set (x := (p_ts p - p_te p) / dt) in *.
    assert (Hx : p_ts p - p_te p = x * dt) by (unfold x; field; lra).
    pose proof (ceil_ge x). pose proof (ceil_lt x). rewrite Hn'.
    assert (x * dt <= IZR (ceil x) * dt) by (apply Rmult_le_compat_r; lra).
    assert ((IZR (ceil x) - 1) * dt < x * dt) by (apply Rmult_lt_compat_r; lra).
    lra.
Qed.

(** ranges of a validated period *)
Lemma vra_range cur a p : a_ND a = None -> a_dn a = None -> vra cur a = Ok p ->
  (forall l, tlo = Some l -> l <= p_te p) /\ (forall h, thi = Some h -> p_ts p <= h).
Proof.
  intros E1 E3 H. pose proof (vra_ok _ _ _ H) as [_ Hper].
  unfold validate_run_args in H.
  destruct (pick_args cur a) as [[[[ts te] dn] dne]|] eqn:Ep; [|discriminate]. cbv [rbind] in H.
  assert (Hd : dn = None /\ exists x y, ts = Some x /\ te = Some y).
  { unfold Run_model.pick_args in Ep. rewrite E1, E3 in Ep. simpl in Ep.
    destruct (a_age a); cbv [rbind] in Ep.
    - destruct (given _ || given _); [discriminate|]. injection Ep as <- <- <- <-. eauto 6.
    - destruct (a_ts a); [injection Ep as <- <- <- <-; eauto 6|].
      destruct (a_te a); [destruct cur; [injection Ep as <- <- <- <-; eauto 6|discriminate]|].
      destruct (given (a_NDe a)); discriminate. }
  destruct Hd as (-> & x & y & -> & ->).
  destruct (match a_n a with Some n => _ | None => _ end) as [nint|]; [|discriminate].
  destruct (sample_args (Some x) (Some y) None dne) as [[[[t0 t1] pp] q]|] eqn:Es; [|discriminate].
  assert (Hpq : p_ts p = t0 /\ p_te p = t1).
  { destruct (a_dt a).
    - destruct (Rlt_dec _ _); [discriminate|]. destruct (Rle_dec _ _); [discriminate|].
      injection H as <-. auto.
    - injection H as <-. auto. }
  destruct Hpq as [-> ->].
  unfold Run_model.sample_args, sample_start, sample_end in Es. simpl in Es.
  destruct dne; simpl in Es; [discriminate|].
  destruct (Rlt_dec area 0); [discriminate|].
  destruct (fn_chk REF_DIAM x) eqn:F1; [|discriminate]. simpl in Es.
  destruct (va_cases x y) as [F2|F2]; rewrite F2 in Es; [|discriminate]. simpl in Es.
  destruct (fn_chk REF_DIAM y) eqn:F3; [|discriminate]. simpl in Es.
  injection Es as <- <- _ _.
  apply fn_chk_ok in F1 as (_ & ? & ? & ?). apply fn_chk_ok in F3 as (_ & ? & ? & ?). auto.
Qed.

Lemma time_run_total a s p :
  (forall h a b, exists x, forms h a b = Ok x) ->
  a_ND a = None -> a_dn a = None ->
  vra (time s) a = Ok p -> p_te p < p_ts p -> is_time_mode p = true ->
  (forall c, time s = Some c -> c <= p_ts p) ->
  exists s', run a s = (s', None).
Proof.
  intros HF E1 E2 Ev Hlt Hmode Hc. pose proof (vra_ok _ _ _ Ev) as [Hp _].
  destruct (time_plan _ _ Hp Hlt Hmode) as (Hd & Hd1 & Hd2).
  destruct (vra_range _ _ _ E1 E2 Ev) as [Hl Hh].
  unfold Run_model.run. rewrite Ev. unfold is_time_mode in Hmode. rewrite Hmode.
  fold (dt_of p).
  set (s0 := match time s with None => _ | Some _ => _ end).
  set (cur := match time s0 with Some c => c | None => p_ts p end).
  assert (Hcur : cur <= p_ts p).
  { subst cur s0. destruct (time s) eqn:E; simpl; [rewrite E; auto|lra]. }
  destruct (Rlt_dec (p_ts p) cur); [lra|]. destruct (Req_EM_T (dt_of p) 0); [lra|].
  set (i0 := trunc _).
  assert (Hi0 : (0 <= i0)%Z).
  { apply trunc_nonneg. unfold Rdiv. apply Rmult_le_pos; [lra|].
    apply Rlt_le, Rinv_0_lt_compat. lra. }
  destruct (Z_le_gt_dec i0 (p_n p)).
  - apply loop_time_total with (n := p_n p); auto; try lia. destruct Hp as (? & _). lra.
  - replace (Z.to_nat (p_n p - i0)) with O by lia. simpl. eauto.
Qed.

(** Resuming at time [c], in equal time steps. *)
Lemma resume_run a s s' p c : time s = Some c -> vra (time s) a = Ok p -> is_time_mode p = true ->
  run a s = (s', None) ->
  exists k, (0 <= k)%Z /\ p_te p < p_ts p /\ c <= p_ts p /\
    IZR k * dt_of p <= p_ts p - c < (IZR k + 1) * dt_of p /\
    exists l, trace s' = trace s ++ l /\
    if (k <? p_n p)%Z
    then tiles (p_ts p - IZR k * dt_of p) (p_te p) (periods l) /\
         List.length (periods l) = Z.to_nat (p_n p - k) /\
         time s' = Some (p_te p) /\ interval s' = (interval s + (p_n p - k))%Z /\
         elapsed s' = elapsed s + IZR (p_n p - k) * dt_of p
    else periods l = [] /\ time s' = Some c /\ interval s' = interval s /\ elapsed s' = elapsed s /\
         n1 s' = n1 s.
Proof.
  intros Hc Ev Hmode H. unfold is_time_mode in Hmode.
  apply run_inv in H as (p' & Ev' & Hp & _ & Hlt & cur & i0 & _ & Hc2 & Hcur & Hi & s1 & T1 & _ & I2 & E1 & N1 & Tr1 & _ & HL).
  assert (p' = p) as -> by congruence.
  assert (cur = c) as -> by auto. rewrite Hmode in *. destruct Hi as [Hd0 Hi].
  destruct (time_plan _ _ Hp Hlt Hmode) as (Hd & Hd1 & Hd2).
  assert (Hq : 0 <= (p_ts p - c) / dt_of p).
  { unfold Rdiv. apply Rmult_le_pos; [lra|]. apply Rlt_le, Rinv_0_lt_compat. lra. }
  pose proof (trunc_spec _ Hq) as [Q1 Q2]. pose proof (trunc_nonneg _ Hq) as Q3. rewrite <- Hi in *.
  exists i0. split; [auto|]. split; [auto|]. split; [auto|].
  assert (Hx : p_ts p - c = ((p_ts p - c) / dt_of p) * dt_of p) by (field; lra).
  split.
  { rewrite Hx. split; [apply Rmult_le_compat_r; lra|apply Rmult_lt_compat_r; lra]. }
  specialize (I2 ltac:(rewrite Hc; discriminate)).
  destruct (i0 <? p_n p)%Z eqn:Ek.
  - apply Z.ltb_lt in Ek.
    pose proof (loop_time _ _ _ _ Hd Hd1 Hd2 (Z.to_nat (p_n p - i0)) i0 s1 s' ltac:(lia) ltac:(lia) HL) as
      (l & sv & H1 & H2 & H3 & H4 & H5 & H6 & H7 & H8 & H9).
    eexists. split; [rewrite H1, Tr1, <- app_assoc; reflexivity|].
    rewrite periods_app.
    replace (periods (if is_new s then _ else _)) with (@nil (R * R)) by (destruct (is_new s); reflexivity).
    simpl. rewrite H2. repeat match goal with |- _ /\ _ => split end; auto.
    + rewrite H7, I2. lia.
    + rewrite H8, E1, INR_IZR_INZ, Z2Nat.id by lia. reflexivity.
  - apply Z.ltb_ge in Ek. replace (Z.to_nat (p_n p - i0)) with O in HL by lia. simpl in HL.
    injection HL as <-. eexists. split; [exact Tr1|].
    repeat match goal with |- _ /\ _ => split end; auto. destruct (is_new s); reflexivity.
Qed.

(** Running again: number mode. *)
Lemma rerun_number a s s' p : time s = Some (p_te p) -> vra (time s) a = Ok p ->
  is_time_mode p = false -> run a s = (s', None) ->
  exists l, trace s' = trace s ++ l /\ periods l = [] /\ time s' = time s /\
    interval s' = interval s /\ elapsed s' = elapsed s /\ n1 s' = n1 s.
Proof.
  intros Hc Ev Hmode H. unfold is_time_mode in Hmode.
  apply run_inv in H as (p' & Ev' & Hp & _ & Hlt & cur & i0 & _ & Hc2 & Hcur & Hi & s1 & T1 & _ & I2 & E1 & N1 & Tr1 & _ & HL).
  assert (p' = p) as -> by congruence.
  assert (cur = p_te p) as -> by auto. rewrite Hmode in *.
  specialize (I2 ltac:(rewrite Hc; discriminate)).
  assert (i0 = p_n p).
  { pose proof Hp as (Hb & Hn & _). pose proof (fn_pos (p_ts p) (p_te p) ltac:(lra)) as Hf.
    assert (0 < IZR (p_n p)) by (apply IZR_lt; lia).
    rewrite Hi. apply trunc_unique.
    - unfold Rdiv. apply Rmult_le_pos; [lra|]. apply Rlt_le, Rinv_0_lt_compat.
      apply Rmult_lt_0_compat; [lra|apply Rinv_0_lt_compat; lra].
    - replace (fn DSTD (p_ts p) (p_te p) / (fn DSTD (p_ts p) (p_te p) / IZR (p_n p))) with (IZR (p_n p))
        by (field; lra). lra. }
  subst i0. rewrite H, Z.sub_diag in HL. simpl in HL. injection HL as <-.
  eexists. split; [exact Tr1|]. repeat match goal with |- _ /\ _ => split end; auto; try congruence.
  destruct (is_new s); reflexivity.
Qed.

(** validation does not look at the current time unless only time_end is given *)
Lemma vra_cur a c1 c2 : vra None a = Ok c1 -> vra c2 a = Ok c1.
Proof.
  unfold validate_run_args. intros H. destruct (pick_args None a) as [x|] eqn:E; [|discriminate].
  replace (pick_args c2 a) with (Ok x); [exact H|]. symmetry. rewrite <- E.
  unfold Run_model.pick_args in *. destruct (a_age a).
  - destruct (given (a_ts a) || given (a_te a)); [auto|].
    destruct (given (a_dn a)), (given (a_ND a)); reflexivity.
  - simpl in *. destruct (a_ts a); [auto|]. destruct (a_te a); [discriminate|auto].
Qed.
End P.

(** ** A concrete production function and simulation *)
Definition csfd0 (D : R) : R := 1.
Definition chron0 (t : R) : R := t.
Definition age0 (D n : R) : result R := if Rle_dec 0 n then Ok n else Err ValueError.
Definition forms0 (h : list event) (t0 t1 : R) : result bool := Ok true.
Definition sim0 : sim := mkSim None 0 0 0 true [].
Definition time_args (ts te dt : R) : args :=
  mkArgs None (Some ts) (Some te) None None None None (Some dt) None.
Definition number_args (ts te : R) (n : Z) : args :=
  mkArgs None (Some ts) (Some te) None None None None None (Some n).

Lemma good0 : good_production csfd0 chron0 age0 1.
Proof.
  constructor; unfold csfd0, chron0, age0; intros; try lra.
  destruct (Rle_dec 0 n); [|discriminate]. injection H as <-. lra.
Qed.

Notation vra0 := (validate_run_args csfd0 chron0 age0 None None 1 1 1).
Notation run0 := (run csfd0 chron0 age0 None None 1 1 1 forms0).

Lemma vra0_time cur ts te dt : 0 <= te -> 0 < dt <= ts - te ->
  exists p, vra0 cur (time_args ts te dt) = Ok p /\ p_ts p = ts /\ p_te p = te /\
    p_n p = ceil ((ts - te) / dt) /\ p_dt p = Some dt /\ p_time p = true.
Proof.
  intros H0 H.
  destruct (proj2 (accepted_times _ _ _ None None 1 1 1 good0 cur (time_args ts te dt)
    eq_refl eq_refl eq_refl eq_refl)) as [p Hp].
  { exists ts, te. split; [right; left; auto|]. split; [lra|]. simpl. split; [discriminate|].
    split; [discriminate|]. split; [auto|]. split; [discriminate|]. intros ? [= <-]. lra. }
  exists p. split; [exact Hp|].
  pose proof (vra_ok _ _ _ _ _ _ _ _ good0 _ _ _ Hp) as [Hpl Hper].
  inversion Hper; simpl in *; try discriminate.
  match goal with A : Some ts = Some _ |- _ => injection A as A end.
  match goal with A : Some te = Some _ |- _ => injection A as A end. subst.
  destruct Hpl as (_ & _ & _ & _ & _ & _ & Hm).
  destruct (p_time p) eqn:Et; [|destruct Hm as [? _]; discriminate].
  destruct Hm as (dt' & [= <-] & E2 & _ & E4). auto 10.
Qed.

Lemma ceil_unique x z : IZR z - 1 < x <= IZR z -> ceil x = z.
Proof.
  intros [H1 H2]. pose proof (ceil_ge x). pose proof (ceil_lt x).
  assert (ceil x < z + 1)%Z by (apply lt_IZR; rewrite plus_IZR; lra).
  assert (z < ceil x + 1)%Z by (apply lt_IZR; rewrite plus_IZR; lra). lia.
Qed.

Lemma run0_time s ts te dt : 0 <= te -> 0 < dt <= ts - te ->
  (forall c, time s = Some c -> c <= ts) ->
  exists s', run0 (time_args ts te dt) s = (s', None).
Proof.
  intros H0 H Hc. destruct (vra0_time (time s) ts te dt H0 H) as (p & E & E1 & E2 & E3 & E4 & E5).
  apply (time_run_total _ _ _ _ _ _ _ _ _ good0 _ _ p); auto.
  - intros. now exists true.
  - lra.
  - unfold is_time_mode. rewrite E5. apply orb_true_r.
  - intros c E'. rewrite E1. auto.
Qed.

Lemma run0_facts s s' ts te dt c n : 0 <= te -> 0 < dt <= ts - te -> time s = Some c ->
  ceil ((ts - te) / dt) = n -> n <> 1%Z ->
  run0 (time_args ts te dt) s = (s', None) ->
  exists k, (0 <= k)%Z /\ IZR k * dt <= ts - c < (IZR k + 1) * dt /\
  exists l, trace s' = trace s ++ l /\
  if (k <? n)%Z then tiles (ts - IZR k * dt) te (periods l) /\
     List.length (periods l) = Z.to_nat (n - k) /\
     time s' = Some te /\ interval s' = (interval s + (n - k))%Z /\
     elapsed s' = elapsed s + IZR (n - k) * dt
  else periods l = [].
Proof.
  intros H0 H Hc Hn Hn1 Hr.
  destruct (vra0_time (time s) ts te dt H0 H) as (p & E & E1 & E2 & E3 & E4 & E5).
  assert (Hm : is_time_mode p = true) by (unfold is_time_mode; rewrite E5; apply orb_true_r).
  destruct (resume_run _ _ _ _ _ _ _ _ _ good0 _ _ _ p c Hc E Hm Hr)
    as (k & Hk & Hlt & Hle & Hb & l & Hl & HH).
  assert (Hd : dt_of p = dt).
  { unfold dt_of. rewrite E3, Hn, E4. destruct (n =? 1)%Z eqn:Q; [apply Z.eqb_eq in Q; lia|auto]. }
  rewrite Hd, E1, E2, E3, Hn in *. exists k. split; [auto|]. split; [auto|]. exists l. split; [auto|].
  destruct (k <? n)%Z; tauto.
Qed.

(** first run: 100 -> 0 in steps of 30 *)
Lemma run0_first ts te dt n : 0 <= te -> 0 < dt <= ts - te -> ceil ((ts - te) / dt) = n -> n <> 1%Z ->
  exists s', run0 (time_args ts te dt) sim0 = (s', None) /\ time s' = Some te /\
    interval s' = n /\ elapsed s' = IZR n * dt /\ tiles ts te (periods (trace s')) /\
    List.length (periods (trace s')) = Z.to_nat n.
Proof.
  intros H0 H Hn Hn1.
  destruct (run0_time sim0 ts te dt H0 H) as [s' Hr]; [discriminate|].
  exists s'. split; [exact Hr|].
  pose proof Hr as Hr'.
  apply (fresh_run _ _ _ _ _ _ _ _ _ good0) in Hr' as (a & b & p & Ev & <- & <- & Hp & Hper & Hlt & l & Hl & Ht & Hlen & (_ & Hi) & Htm & He & _).
  2:{ intros c ? ? Hc. simpl in Hc. discriminate. }
  simpl in Hl. subst l.
  destruct (vra0_time None ts te dt H0 H) as (p' & E & E1 & E2 & E3 & E4 & E5).
  simpl time in Ev. assert (p' = p) as -> by congruence.
  rewrite E1, E2, E3, Hn in *. simpl in *.
  repeat match goal with |- _ /\ _ => split end; auto.
  destruct (n =? 1)%Z eqn:Q; [apply Z.eqb_eq in Q; lia|lra].
Qed.

(** ** The property statements *)
Section Final.
Variables (csfd chron : R -> R) (age_of : R -> R -> result R) (tlo thi : option R).
Variables (area Dconv Nconv : R).
Variable forms : list event -> R -> R -> result bool.
Notation run := (run csfd chron age_of tlo thi area Dconv Nconv forms).
Notation vra := (validate_run_args csfd chron age_of tlo thi area Dconv Nconv).
Notation period := (period csfd chron area Dconv Nconv).
Hypothesis G : good_production csfd chron age_of area.

Lemma pieces_count a p : plan_ok csfd chron area a p ->
  match a_n a, a_dt a with
  | Some n, _ => p_n p = n
  | None, Some dt => p_n p = ceil ((p_ts p - p_te p) / dt)
  | None, None => p_n p = 1%Z
  end \/ (exists n dt, a_n a = Some n /\ a_dt a = Some dt).
Proof.
  intros (_ & _ & _ & _ & _ & _ & Hm). destruct (p_time p).
  - destruct Hm as (dt & E & _ & _ & E2). rewrite E. destruct (a_n a); [right; eauto|left; auto].
  - destruct Hm as (E & _ & _ & [E2|[E2 E3]]); rewrite E, E2; left; auto.
Qed.

Lemma covers a s s' :
  (forall c ts te, time s = Some c -> period (time s) a ts te -> ts = c) ->
  run a s = (s', None) ->
  exists ts te l, period (time s) a ts te /\ te < ts /\ trace s' = trace s ++ l /\
    tiles ts te (periods l) /\
    List.length (periods l) = Z.to_nat (match a_n a, a_dt a with
                                        | Some n, _ => n
                                        | None, Some dt => ceil ((ts - te) / dt)
                                        | None, None => 1%Z end).
Proof.
  intros Hf H. pose proof H as H'.
  apply (fresh_run _ _ _ _ _ _ _ _ _ G) in H' as (ts & te & p & Ev & <- & <- & Hp & Hper & Hlt & l & Hl & Ht & Hlen & _); [|exact Hf].
  exists (p_ts p), (p_te p), l. do 4 (split; [assumption|]).
  rewrite Hlen. f_equal.
  destruct (pieces_count a p Hp) as [HH|(n & dt & E1 & E2)].
  - destruct (a_n a), (a_dt a); auto.
  - exfalso. unfold validate_run_args in Ev. destruct (pick_args _ _ _ _ _) as [[[[? ?] ?] ?]|]; [|discriminate].
    cbv [rbind] in Ev. rewrite E1, E2 in Ev. simpl in Ev. destruct (n <? 1)%Z; discriminate.
Qed.

(** the elapsed time added by a completed run *)
Lemma bookkeeping a s s' :
  (forall c ts te, time s = Some c -> period (time s) a ts te -> ts = c) ->
  run a s = (s', None) ->
  exists ts te n l, period (time s) a ts te /\ te < ts /\ trace s' = trace s ++ l /\
    n = Z.of_nat (List.length (periods l)) /\
    time s' = Some te /\
    interval s' = (match time s with None => 0 | Some _ => interval s end + n)%Z /\
    n1 s' = n1 s + Nconv * (csfd 1000 * (chron ts - chron te)) /\
    ((a_dt a = None \/ (exists dt, a_dt a = Some dt /\ (ts - te = IZR n * dt \/ n = 1%Z))) ->
      elapsed s' = elapsed s + (ts - te)) /\
    (forall dt, a_dt a = Some dt -> n <> 1%Z -> elapsed s' = elapsed s + IZR n * dt).
Proof.
  intros Hf H. pose proof H as H'.
  apply (fresh_run _ _ _ _ _ _ _ _ _ G) in H' as (ts & te & p & Ev & <- & <- & Hp & Hper & Hlt & l & Hl & Ht & Hlen & (_ & Hi) & Htm & He & Hn1); [|exact Hf].
  exists (p_ts p), (p_te p), (p_n p), l.
  assert (Hn : p_n p = Z.of_nat (List.length (periods l))).
  { rewrite Hlen, Z2Nat.id; auto. destruct Hp as (_ & ? & _). lia. }
  repeat match goal with |- _ /\ _ => split end; auto.
  - rewrite Hn1. unfold fn, DSTD. ring.
  - rewrite He. intros [E|(dt & E & [E'|E'])]; rewrite E.
    + reflexivity.
    + destruct (p_n p =? 1)%Z; [reflexivity|]. rewrite E'. reflexivity.
    + rewrite E'. simpl. reflexivity.
  - intros dt E Hne. rewrite He, E. destruct (p_n p =? 1)%Z eqn:Q; [apply Z.eqb_eq in Q; lia|reflexivity].
Qed.

Lemma saved_states a s s' : time s = None -> is_new s = true -> run a s = (s', None) ->
  exists l, trace s' = trace s ++ l /\
    saves l = map Z.of_nat (seq 0 (S (List.length (periods l)))).
Proof.
  intros Ht Hn H.
  apply (fresh_run _ _ _ _ _ _ _ _ _ G) in H as (ts & te & p & Ev & _ & _ & Hp & Hper & Hlt & l & Hl & _ & Hlen & (Hs & _) & _).
  2:{ rewrite Ht. discriminate. }
  exists l. split; [exact Hl|]. rewrite Hs, Ht, Hn, Hlen.
  cbn [app seq map]. f_equal. rewrite <- seq_shift, map_map. apply map_ext. intros. lia.
Qed.

Lemma rerun a s s1 s2 : time s = None -> run a s = (s1, None) ->
  (forall ts te dt, a_dt a = Some dt -> period None a ts te ->
     exists k : Z, ts - te = IZR k * dt) ->
  run a s1 = (s2, None) ->
  time s2 = time s1 /\ interval s2 = interval s1 /\ elapsed s2 = elapsed s1 /\ n1 s2 = n1 s1 /\
  periods (trace s2) = periods (trace s1).
Proof.
  intros Hs H1 Hdiv H2.
  assert (Hf : forall c ts te, time s = Some c -> period (time s) a ts te -> ts = c)
    by (rewrite Hs; discriminate).
  apply (fresh_run _ _ _ _ _ _ _ _ _ G) in H1 as (ts & te & p & Ev & <- & <- & Hp & Hper & Hlt & l & Hl & _ & _ & _ & Htm & _); [|exact Hf].
  rewrite Hs in Ev, Hper. apply (vra_cur _ _ _ _ _ _ _ _ _ _ (time s1)) in Ev.
  destruct (is_time_mode p) eqn:Em.
  - destruct (resume_run _ _ _ _ _ _ _ _ _ G _ _ _ p _ Htm Ev Em H2)
      as (k & Hk & _ & _ & Hb & l' & Hl' & HH).
    destruct (time_plan csfd chron area a p Hp Hlt Em) as (Hd & Hd1 & Hd2).
    assert (Hkn : (p_n p <= k)%Z).
    { assert (E : exists z, p_ts p - p_te p = IZR z * dt_of p).
      { unfold dt_of in *. destruct (p_n p =? 1)%Z eqn:En; [exists 1%Z; simpl; lra|].
        unfold is_time_mode in Em. rewrite En in Em. simpl in Em.
        destruct Hp as (_ & _ & _ & _ & _ & _ & Hm). rewrite Em in Hm.
        destruct Hm as (dt & E1 & E2 & _). rewrite E2. eapply Hdiv; eauto. }
      destruct E as [z Ez]. rewrite Ez in Hb.
      assert (IZR z < IZR k + 1) by (apply Rmult_lt_reg_r with (dt_of p); lra).
      assert (IZR (p_n p) - 1 < IZR z) by (apply Rmult_lt_reg_r with (dt_of p); lra).
      assert (z < k + 1)%Z by (apply lt_IZR; rewrite plus_IZR; lra).
      assert (p_n p - 1 < z)%Z by (apply lt_IZR; rewrite minus_IZR; lra). lia. }
    replace (k <? p_n p)%Z with false in HH by (symmetry; apply Z.ltb_ge; lia).
    destruct HH as (Hp0 & ? & ? & ? & ?). rewrite Htm.
    repeat match goal with |- _ /\ _ => split end; auto.
    rewrite Hl', periods_app, Hp0, app_nil_r. reflexivity.
  - destruct (rerun_number _ _ _ _ _ _ _ _ _ G _ _ _ p Htm Ev Em H2) as (l' & Hl' & Hp0 & ? & ? & ? & ?).
    repeat match goal with |- _ /\ _ => split end; auto.
    rewrite Hl', periods_app, Hp0, app_nil_r. reflexivity.
Qed.

Lemma resume a s s' c dt : time s = Some c -> a_dt a = Some dt -> run a s = (s', None) ->
  exists ts te, period (time s) a ts te /\
  exists l t0, trace s' = trace s ++ l /\ c <= t0 <= ts /\
    (t0 < c + dt) /\ (exists k : Z, t0 = ts - IZR k * dt) /\
    (te < t0 -> tiles t0 te (periods l) /\ time s' = Some te) /\
    (t0 <= te -> periods l = []).
Proof.
  intros Hc Hdt H. pose proof H as H'.
  apply (run_inv _ _ _ _ _ _ _ _ _ G) in H' as (p & Ev & Hp & Hper & Hlt & _).
  assert (Em : is_time_mode p = true /\ dt_of p <= dt /\ (p_n p <> 1%Z -> dt_of p = dt) /\ (p_n p = 1%Z -> dt_of p = dt)).
  { pose proof Hp as (_ & _ & _ & _ & _ & _ & Hm). unfold is_time_mode, dt_of.
    destruct (p_time p); [|destruct Hm as [Hm _]; congruence].
    destruct Hm as (dt' & E1 & E2 & Hb & Hn). assert (dt' = dt) as -> by congruence.
    rewrite E2. destruct (p_n p =? 1)%Z eqn:Q.
    - apply Z.eqb_eq in Q. rewrite Q in Hn.
      pose proof (ceil_ge ((p_ts p - p_te p) / dt)) as Hg. rewrite <- Hn in Hg. simpl in Hg.
      assert (p_ts p - p_te p = (p_ts p - p_te p) / dt * dt) by (field; lra).
      assert ((p_ts p - p_te p) / dt * dt <= 1 * dt) by (apply Rmult_le_compat_r; lra).
      repeat match goal with |- _ /\ _ => split end; auto; intros; lra.
    - repeat match goal with |- _ /\ _ => split end; auto; lra. }
  destruct Em as (Em & _ & Hd1 & Hd2).
  assert (Hd : dt_of p = dt) by (destruct (Z.eq_dec (p_n p) 1); auto).
  destruct (resume_run _ _ _ _ _ _ _ _ _ G _ _ _ p _ Hc Ev Em H)
    as (k & Hk & _ & Hle & Hb & l & Hl & HH).
  destruct (time_plan csfd chron area a p Hp Hlt Em) as (Hd0 & Hdn1 & Hdn2).
  rewrite Hd in *.
  exists (p_ts p), (p_te p). split; [exact Hper|]. exists l, (p_ts p - IZR k * dt).
  assert (0 <= IZR k * dt) by (apply Rmult_le_pos; [apply IZR_le; lia|lra]).
  split; [exact Hl|]. split; [lra|]. split; [lra|]. split; [eauto|].
  destruct (k <? p_n p)%Z eqn:Ek.
  - apply Z.ltb_lt in Ek. split; [tauto|]. intros Hx. exfalso.
    assert (k <= p_n p - 1)%Z by lia. assert (IZR k <= IZR (p_n p) - 1) by (rewrite <- minus_IZR; apply IZR_le; lia).
    assert (IZR k * dt <= (IZR (p_n p) - 1) * dt) by (apply Rmult_le_compat_r; lra). lra.
  - apply Z.ltb_ge in Ek. split; [|tauto]. intros Hx. exfalso.
    assert (IZR (p_n p) <= IZR k) by (apply IZR_le; lia).
    assert (IZR (p_n p) * dt <= IZR k * dt) by (apply Rmult_le_compat_r; lra). lra.
Qed.

Lemma rejected a s : a_ND a = None -> a_NDe a = None -> a_dn a = None -> a_dne a = None ->
  ~ consistent_times tlo thi (time s) a -> exists e, run a s = (s, Some e).
Proof.
  intros E1 E2 E3 E4 Hn. rewrite <- (accepted_times csfd chron age_of tlo thi area Dconv Nconv G _ _ E1 E2 E3 E4) in Hn.
  unfold Run_model.run. destruct (vra (time s) a) as [p|e]; [|eauto]. exfalso. eauto.
Qed.

Lemma start_too_late a s c p : time s = Some c -> vra (time s) a = Ok p -> is_time_mode p = true ->
  p_ts p < c -> run a s = (s, Some RuntimeError).
Proof.
  intros Hc Ev Em Hlt. unfold Run_model.run. rewrite Ev. unfold is_time_mode in Em. rewrite Em, Hc, Hc.
  destruct (Rlt_dec (p_ts p) c); [reflexivity|lra].
Qed.

Lemma number_with_step a s nd dt : a_age a = None -> a_ts a = None -> a_te a = None ->
  a_ND a = Some nd -> a_dt a = Some dt -> exists e, run a s = (s, Some e).
Proof.
  intros E1 E2 E3 E4 E5. unfold Run_model.run.
  destruct (vra (time s) a) as [p|e] eqn:Ev; [exfalso|eauto].
  unfold validate_run_args in Ev.
  destruct (pick_args area Dconv Nconv (time s) a) as [[[[ts te] dn] dne]|] eqn:Ep; [|discriminate].
  cbv [rbind] in Ev.
  destruct (match a_n a with Some n => _ | None => _ end); [|discriminate].
  destruct (sample_args _ _ _ _ _ _ ts te dn dne) as [[[[? ?] ?] ?]|]; [|discriminate].
  rewrite E5 in Ev. unfold Run_model.pick_args in Ep. rewrite E1, E2, E3, E4 in Ep. simpl in Ep.
  destruct (given (a_dn a) || given (a_dne a)); [discriminate|].
  injection Ep as <- <- <- <-. discriminate.
Qed.
End Final.

(** ** Refutations *)
Lemma ceil_100_30 : ceil ((100 - 0) / 30) = 4%Z.
Proof. apply ceil_unique. simpl. lra. Qed.

Lemma elapsed_wrong : exists s',
  run0 (time_args 100 0 30) sim0 = (s', None) /\ time s' = Some 0 /\ elapsed s' = 120.
Proof.
  destruct (run0_first 100 0 30 4) as (s' & H1 & H2 & H3 & H4 & _); try lra; try easy.
  { apply ceil_100_30. }
  exists s'. split; [auto|]. split; [auto|]. rewrite H4. lra.
Qed.

Lemma rerun_wrong : exists s1 s2,
  run0 (time_args 100 0 30) sim0 = (s1, None) /\ run0 (time_args 100 0 30) s1 = (s2, None) /\
  List.length (periods (trace s1)) = 4%nat /\ List.length (periods (trace s2)) = 5%nat /\
  interval s2 = 5%Z /\ elapsed s2 = elapsed s1 + 30.
Proof.
  destruct (run0_first 100 0 30 4) as (s1 & H1 & H2 & H3 & H4 & H5 & H6); try lra; try easy.
  { apply ceil_100_30. }
  destruct (run0_time s1 100 0 30) as [s2 R2]; try lra.
  { rewrite H2. intros c [= <-]. lra. }
  exists s1, s2. split; [auto|]. split; [auto|].
  destruct (run0_facts s1 s2 100 0 30 0 4) as (k & Hk & Hb & l & Hl & HH); try lra; auto; try easy.
  { apply ceil_100_30. }
  assert (k = 3%Z).
  { assert (k < 4)%Z by (apply lt_IZR; simpl; lra). assert (2 < k)%Z by (apply lt_IZR; simpl; lra). lia. }
  subst k. simpl in HH. destruct HH as (_ & L & _ & I & E).
  rewrite Hl, periods_app, app_length, H6, L, I, E, H3. simpl. repeat split; lra.
Qed.

Lemma tiles_head a b l : tiles a b l -> exists c l', l = (a, c) :: l'.
Proof. intros H; inversion H; subst; eauto. Qed.

Lemma resume_wrong : exists s1 s2 t0 t1 t2 t3,
  run0 (time_args 100 50 30) sim0 = (s1, None) /\ run0 (time_args 100 0 30) s1 = (s2, None) /\
  time s1 = Some 50 /\
  (exists l, trace s2 = trace s1 ++ l /\ In (t2, t3) (periods l)) /\
  In (t0, t1) (periods (trace s1)) /\ t1 <= 60 <= t0 /\ t1 = 50 /\ t2 = 70 /\ t3 < 60.
Proof.
  assert (C1 : ceil ((100 - 50) / 30) = 2%Z) by (apply ceil_unique; simpl; lra).
  destruct (run0_first 100 50 30 2) as (s1 & H1 & H2 & H3 & H4 & H5 & H6); try lra; auto; try easy.
  destruct (run0_time s1 100 0 30) as [s2 R2]; try lra.
  { rewrite H2. intros c [= <-]. lra. }
  destruct (run0_facts s1 s2 100 0 30 50 4) as (k & Hk & Hb & l & Hl & HH); try lra; auto; try easy.
  { apply ceil_100_30. }
  assert (k = 1%Z).
  { assert (k < 2)%Z by (apply lt_IZR; simpl; lra). assert (0 < k)%Z by (apply lt_IZR; simpl; lra). lia. }
  subst k. simpl in HH. destruct HH as (T & L & _).
  destruct (vra0_time None 100 50 30) as (p & _); try lra.
  (* the exact pieces of both runs *)
  assert (P1 : periods (trace s1) = [(100, 70); (70, 50)]).
  { pose proof H1 as R1.
    apply (run_inv _ _ _ _ _ _ _ _ _ good0) in R1
      as (p' & Ev & Hp & _ & _ & cur & i0 & Hc1 & _ & _ & Hi & s' & T1 & _ & _ & _ & _ & Tr1 & _ & HL).
    destruct (vra0_time None 100 50 30) as (p'' & E & E1 & E2 & E3 & E4 & E5); try lra.
    simpl time in Ev. assert (p'' = p') as -> by congruence.
    specialize (Hc1 eq_refl). rewrite E5, orb_true_r in *. destruct Hi as [_ ->].
    assert (D : dt_of p' = 30) by (unfold dt_of; rewrite E3, C1, E4; reflexivity).
    rewrite Hc1, D, E1, E2, E3, C1 in HL. rewrite Hc1, E1 in Tr1.
    replace (trunc ((100 - 100) / 30)) with 0%Z in HL.
    2:{ symmetry. apply trunc_unique; [|split]; simpl; lra. }
    change (Z.to_nat (2 - 0)) with 2%nat in HL. simpl in HL.
    destruct (step_time _ _ _ _ _ _ _ _ _ 100 50 30 0 s') as [sa [x|]] eqn:Sa; [discriminate|].
    destruct (step_time _ _ _ _ _ _ _ _ _ 100 50 30 1 sa) as [sb [x|]] eqn:Sb; [discriminate|].
    injection HL as ->.
    apply (step_time_ok _ _ _ _ _ _ _ _ _ good0) in Sa as (_ & _ & _ & _ & _ & Sa).
    apply (step_time_ok _ _ _ _ _ _ _ _ _ good0) in Sb as (_ & _ & _ & _ & _ & Sb).
    rewrite Sb, Sa, Tr1. simpl.
    rewrite (Rmax_left (100 - (0 + 1) * 30) 50) by lra.
    rewrite (Rmax_right (100 - (1 + 1) * 30) 50) by lra.
    repeat f_equal; lra. }
  destruct (tiles_head _ _ _ T) as (c & l' & El).
  assert (Hc : c = 40).
  { pose proof R2 as R2'.
    apply (run_inv _ _ _ _ _ _ _ _ _ good0) in R2'
      as (p' & Ev & Hp & _ & _ & cur & i0 & _ & Hc1 & _ & Hi & s' & T1 & _ & _ & _ & _ & Tr1 & _ & HL).
    destruct (vra0_time (time s1) 100 0 30) as (p'' & E & E1 & E2 & E3 & E4 & E5); try lra.
    assert (p'' = p') as -> by congruence.
    specialize (Hc1 _ H2). rewrite E5, orb_true_r in *. destruct Hi as [_ ->].
    assert (D : dt_of p' = 30) by (unfold dt_of; rewrite E3, ceil_100_30, E4; reflexivity).
    rewrite Hc1, D, E1, E2, E3, ceil_100_30 in HL.
    replace (trunc ((100 - 50) / 30)) with 1%Z in HL.
    2:{ symmetry. apply trunc_unique; [|split]; simpl; lra. }
    change (Z.to_nat (4 - 1)) with 3%nat in HL. simpl in HL.
    destruct (step_time _ _ _ _ _ _ _ _ _ 100 0 30 1 s') as [sa [x|]] eqn:Sa; [discriminate|].
    destruct (step_time _ _ _ _ _ _ _ _ _ 100 0 30 2 sa) as [sb [x|]] eqn:Sb; [discriminate|].
    destruct (step_time _ _ _ _ _ _ _ _ _ 100 0 30 3 sb) as [sc [x|]] eqn:Sc; [discriminate|].
    injection HL as ->.
    apply (step_time_ok _ _ _ _ _ _ _ _ _ good0) in Sa as (_ & _ & _ & _ & _ & Sa).
    apply (step_time_ok _ _ _ _ _ _ _ _ _ good0) in Sb as (_ & _ & _ & _ & _ & Sb).
    apply (step_time_ok _ _ _ _ _ _ _ _ _ good0) in Sc as (_ & _ & _ & _ & _ & Sc).
    rewrite Sc, Sb, Sa, Tr1, <- !app_assoc in Hl. apply app_inv_head in Hl.
    subst l. rewrite periods_app in El.
    replace (periods (if is_new s1 then _ else _)) with (@nil (R * R)) in El by (destruct (is_new s1); reflexivity).
    simpl in El. injection El as El _.
    rewrite (Rmax_left (100 - (1 + 1) * 30) 0) in El by lra. lra. }
  exists s1, s2, 70, 50, 70, 40. rewrite P1.
  repeat match goal with |- _ /\ _ => split end; auto; try lra; [|simpl; auto].
  exists l. split; [auto|]. rewrite El, Hc. left. f_equal; lra.
Qed.

Lemma zero_length : exists a s',
  consistent_times None None None a /\
  run0 a sim0 = (s', Some ZeroDivisionError) /\ time s' = Some 5 /\ time sim0 = None.
Proof.
  exists (mkArgs None (Some 5) (Some 5) None None None None None None), (mkSim (Some 5) 0 0 0 true []).
  split; [|split; [|split]; auto].
  - exists 5, 5. split; [right; left; auto|]. simpl. split; [lra|].
    repeat split; try discriminate; auto.
  - unfold run. simpl time.
    destruct (vra_times _ _ _ None None 1 1 1 good0 None 5 5) as (p & E & E1 & E2); [lra|discriminate|discriminate|].
    pose proof E as E'. rewrite E.
    pose proof (vra_ok _ _ _ _ _ _ _ _ good0 _ _ _ E) as [(_ & _ & _ & _ & _ & _ & Hm) _].
    assert (p_n p = 1%Z).
    { destruct (p_time p); [destruct Hm as (? & ? & _); discriminate|].
      destruct Hm as (_ & _ & _ & [?|[_ ?]]); [discriminate|auto]. }
    rewrite H, E1, E2. simpl. destruct (Rlt_dec 5 5); [lra|].
    destruct (Req_EM_T (5 - 5) 0); [reflexivity|lra].
Qed.

Lemma ignored_number : exists a s s' nd,
  a_ND a = Some nd /\ run0 a s = (s', None) /\
  run0 (mkArgs (a_age a) (a_ts a) (a_te a) None (a_NDe a) (a_dn a) (a_dne a) (a_dt a) (a_n a)) s
    = (s', None).
Proof.
  pose (s := mkSim (Some 100) 0 0 0 false []).
  pose (a := mkArgs None None (Some 0) None None None None (Some 50) None).
  assert (exists p, vra0 (time s) a = Ok p) as [p Hp].
  { apply (accepted_times _ _ _ None None 1 1 1 good0); auto. exists 100, 0.
    split; [right; right; auto|]. simpl. split; [lra|]. repeat split; try discriminate; auto;
    match goal with H : Some _ = Some _ |- _ => injection H as <-; lra end. }
  destruct (time_run_total _ _ _ None None 1 1 1 forms0 good0 a s p) as [s' Hs']; auto.
  - intros. now exists true.
  - pose proof (vra_ok _ _ _ _ _ _ _ _ good0 _ _ _ Hp) as [_ Hper]. inversion Hper; simpl in *; try discriminate.
    match goal with H : Some 0 = Some _ |- _ => injection H as <- end.
    match goal with H : Some 100 = Some _ |- _ => injection H as <- end. lra.
  - pose proof (vra_ok _ _ _ _ _ _ _ _ good0 _ _ _ Hp) as [(_ & _ & _ & _ & _ & _ & Hm) _].
    unfold is_time_mode. destruct (p_time p); [apply orb_true_r|destruct Hm; discriminate].
  - pose proof (vra_ok _ _ _ _ _ _ _ _ good0 _ _ _ Hp) as [_ Hper]. inversion Hper; simpl in *; try discriminate.
    match goal with H : Some 100 = Some _ |- _ => injection H as <- end. intros ? [= <-]. lra.
  - exists (mkArgs None None (Some 0) (Some (1, 7)) None None None (Some 50) None), s, s', (1, 7).
    split; [reflexivity|]. split; exact Hs'.
Qed.

(** A run in equal number steps completes as well. *)
Lemma step_number0_total D N dN i s : D >= 0 -> 0 <= dN -> 0 <= N - (IZR i + 1) * dN ->
  exists s', step_number csfd0 chron0 age0 None None 1 1 1 forms0 (D, N) dN i s = (s', None).
Proof.
  intros HD HdN HN. unfold step_number, populate, validate_run_args, pick_args, sample_args, sample_start, sample_end.
  cbn [a_age a_ts a_te a_ND a_NDe a_dn a_dne a_dt a_n given rbind fst snd orb andb Bool.eqb].
  unfold validate_csfd, age0. cbn [fst snd].
  assert (0 <= N - IZR i * dN) by lra.
  destruct (Rlt_dec 1 0); [lra|]. destruct (Rlt_dec D 0); [lra|].
  destruct (Rlt_dec (N - IZR i * dN) 0); [lra|]. cbn [rbind].
  destruct (Rle_dec 0 ((N - IZR i * dN) / 1)); [|lra]. cbn [rbind fst snd].
  destruct (Rlt_dec (N - (IZR i + 1) * dN) 0); [lra|]. cbn [rbind].
  destruct (Req_EM_T D D); [|easy]. cbn [rbind fst snd].
  destruct (Rlt_dec D 0); [lra|].
  destruct (Rlt_dec (N - (IZR i + 1) * dN) 0); [lra|]. cbn [rbind].
  destruct (Rle_dec 0 ((N - (IZR i + 1) * dN) / 1)); [|lra]. cbn [rbind].
  unfold validate_age. destruct (Rlt_dec ((N - IZR i * dN) / 1) ((N - (IZR i + 1) * dN) / 1)); [lra|].
  cbn [rbind forms0 p_ts p_te]. unfold forms0.
  destruct (Rlt_dec 0 (N - (IZR i + 1) * dN)); eauto.
Qed.

Lemma run0_number ts te n : 0 <= te < ts -> (1 < n)%Z ->
  exists s', run0 (number_args ts te n) sim0 = (s', None).
Proof.
  intros H Hn.
  destruct (proj2 (accepted_times _ _ _ None None 1 1 1 good0 None (number_args ts te n)
    eq_refl eq_refl eq_refl eq_refl)) as [p Hp].
  { exists ts, te. split; [right; left; auto|]. split; [lra|]. simpl. split; [discriminate|].
    split; [discriminate|]. split; [auto|]. split; [intros ? [= <-]; lia|discriminate]. }
  pose proof (vra_ok _ _ _ _ _ _ _ _ good0 _ _ _ Hp) as [Hpl Hper].
  inversion Hper; simpl in *; try discriminate.
  match goal with A : Some ts = Some _ |- _ => injection A as A end.
  match goal with A : Some te = Some _ |- _ => injection A as A end. subst x y.
  destruct Hpl as (_ & _ & _ & _ & A0 & A1 & Hm).
  destruct (p_time p) eqn:Et; [destruct Hm as (? & ? & _); discriminate|].
  destruct Hm as (_ & E2 & E3 & [E4|[? _]]); [|discriminate]. injection E4 as E4.
  unfold csfd0, chron0 in A0, A1.
  unfold run. simpl time. rewrite Hp, Et, <- E4.
  replace (n =? 1)%Z with false by (symmetry; apply Z.eqb_neq; lia). cbn [orb].
  unfold age0 at 1. destruct (Rle_dec 0 (snd (p_dn p) / 1)); [|lra].
  replace (snd (p_dn p) / 1) with (p_ts p) by lra. cbn [time sim0].
  destruct (Rlt_dec (p_ts p) (p_ts p)); [lra|].
  assert (0 < IZR n) by (apply IZR_lt; lia).
  assert (Hfn : 0 < fn csfd0 chron0 DSTD (p_ts p) (p_te p) / IZR n).
  { unfold fn, csfd0, chron0. apply Rdiv_lt_0_compat; lra. }
  destruct (Req_EM_T _ 0); [lra|].
  assert (D0 : fst (p_dn p) >= 0).
  { unfold validate_run_args in Hp. simpl in Hp. destruct (n <? 1)%Z; [discriminate|]. simpl in Hp.
    unfold sample_args, sample_start, sample_end in Hp. simpl in Hp.
    destruct (Rlt_dec 1 0); [discriminate|].
    destruct (fn_chk csfd0 chron0 None None REF_DIAM ts); [|discriminate]. simpl in Hp.
    destruct (validate_age None None ts te); [|discriminate]. simpl in Hp.
    destruct (fn_chk csfd0 chron0 None None REF_DIAM te); [|discriminate]. simpl in Hp.
    injection Hp as <-. simpl. unfold REF_DIAM. lra. }
  set (i0 := trunc _).
  assert (Hi : i0 = 0%Z).
  { apply trunc_unique.
    - unfold fn at 1. rewrite Rminus_eq_0, Rmult_0_r. unfold Rdiv. rewrite Rmult_0_l. lra.
    - unfold fn at 1 3. rewrite Rminus_eq_0, Rmult_0_r. unfold Rdiv. rewrite Rmult_0_l. simpl. lra. }
  rewrite Hi, Z.sub_0_r. rewrite <- E4 in E3.
  assert (HN : forall k i s, (0 <= i)%Z -> (i + Z.of_nat k <= n)%Z ->
    exists s', loop (step_number csfd0 chron0 age0 None None 1 1 1 forms0 (p_dn p) (p_dN p)) k i s = (s', None)).
  { induction k as [|k IH]; intros i s Hi0 Hk; simpl; [eauto|].
    destruct (step_number0_total (fst (p_dn p)) (snd (p_dn p)) (p_dN p) i s) as [s1 Hs]; auto.
    - rewrite E3. apply Rlt_le, Rdiv_lt_0_compat; lra.
    - assert (HdN : 0 < p_dN p) by (rewrite E3; apply Rdiv_lt_0_compat; lra).
      assert (IZR n * p_dN p = snd (p_dn p) - snd (p_dne p)) by (rewrite E3; field; lra).
      assert (IZR i + 1 <= IZR n) by (rewrite <- plus_IZR; apply IZR_le; lia).
      assert ((IZR i + 1) * p_dN p <= IZR n * p_dN p) by (apply Rmult_le_compat_r; lra).
      lra.
    - rewrite <- surjective_pairing in Hs. rewrite Hs. apply IH; lia. }
  apply HN; lia.
Qed.
