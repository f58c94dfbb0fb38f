(** Proofs about Restart_model. *)
From Coq Require Import Reals List String Bool Arith Lia Lra.
From Verif Require Import Common Restart_model Restart_spec.
Import ListNotations.
Open Scope R_scope.

Lemma total_app : forall f a b, total f (a ++ b) = total f a + total f b.
Proof. induction a; simpl; intros; [lra | rewrite IHa; lra]. Qed.

Lemma latest_put : forall A (l : list (nat * A)) i x,
  Forall (fun e => (fst e <= i)%nat) l -> latest (put i x l) = Some (i, x).
Proof.
  intros A l i x F. unfold put. cbn [latest].
  assert (D : Forall (fun e => (fst e <= i)%nat) (drop i l)).
  { unfold drop. apply Forall_forall. intros e E. apply filter_In in E.
    exact (proj1 (Forall_forall _ _) F e (proj1 E)). }
  destruct (latest (drop i l)) as [b|] eqn:E; [|reflexivity].
  assert (B : forall (m : list (nat * A)) b, latest m = Some b -> In b m).
  { induction m as [|e m IH]; cbn [latest]; intros b0 K; [discriminate|].
    destruct (latest m) as [c|].
    - destruct (fst c <=? fst e)%nat; injection K as <-; [left; reflexivity | right; apply IH; reflexivity].
    - injection K as <-. left; reflexivity. }
  cbn [fst]. pose proof (proj1 (Forall_forall _ _) D b (B _ _ E)) as X. cbn in X.
  destruct (Nat.leb_spec (fst b) i); [reflexivity | lia].
Qed.
Lemma keys_put : forall A (l : list (nat * A)) i x n, (i <= n)%nat ->
  Forall (fun e => (fst e <= n)%nat) l -> Forall (fun e => (fst e <= n)%nat) (put i x l).
Proof.
  intros A l i x n L F. unfold put, drop. constructor; [exact L|].
  apply Forall_forall. intros e E. apply filter_In in E. exact (proj1 (Forall_forall _ _) F e (proj1 E)).
Qed.
Lemma keys_drop : forall A (l : list (nat * A)) i n,
  Forall (fun e => (fst e <= n)%nat) l -> Forall (fun e => (fst e <= n)%nat) (drop i l).
Proof.
  intros A l i n F. unfold drop. apply Forall_forall. intros e E. apply filter_In in E.
  exact (proj1 (Forall_forall _ _) F e (proj1 E)).
Qed.
Lemma keys_up : forall A (l : list (nat * A)) n m, (n <= m)%nat ->
  Forall (fun e => (fst e <= n)%nat) l -> Forall (fun e => (fst e <= m)%nat) l.
Proof. intros A l n m L F. eapply Forall_impl; [|exact F]. cbn. intros; lia. Qed.

Section P.
Variable G : Type.
Notation sim := (sim G). Notation disk := (disk G).
Notation apply_all := (apply_all G).

Lemma apply_app : forall d a b, apply_all d (a ++ b) = apply_all (apply_all d a) b.
Proof. intros. apply fold_left_app. Qed.

(** What is on disk describes the object. *)
Definition keyed (s : sim) (d : disk) : Prop :=
  Forall (fun e => (fst e <= c_interval (s_counters G s))%nat) (d_surf G d) /\
  Forall (fun e => (fst e <= c_interval (s_counters G s))%nat) (d_seen G d).
Definition stored (s : sim) (d : disk) : Prop :=
  latest (d_surf G d) = Some (c_interval (s_counters G s), s_surf G s) /\
  (s_seen G s <> [] -> exists k, latest (d_seen G d) = Some (k, s_seen G s)).
Definition good (s : sim) : Prop :=
  describe (s_counters G s) (s_surf G s) /\
  (c_time (s_counters G s) = None -> s_surf G s = [] /\ c_interval (s_counters G s) = 0%nat).

Lemma save_disk : forall s d, keyed s d ->
  let d' := apply_all d (save G s) in
  keyed s d' /\ stored s d' /\ d_grid G d' = d_grid G d /\
  d_conf G d' = (if s_readonly G s then d_conf G d
                 else Written G (mkConf G (s_counters G s) (s_rng G s))).
Proof.
  intros s d [K1 K2]. unfold save, to_config, save_seen.
  assert (P : Forall (fun e => (fst e <= c_interval (s_counters G s))%nat)
                (put (c_interval (s_counters G s)) (s_surf G s) (d_surf G d)))
    by (apply keys_put; [lia | exact K1]).
  pose proof (latest_put _ _ _ (s_surf G s) K1) as L.
  destruct (s_seen G s) as [|x xs] eqn:E; destruct (s_readonly G s); cbn;
    unfold keyed, stored; cbn; rewrite E; (repeat split; auto);
    try (intros N; exfalso; apply N; reflexivity);
    try (intros _; eexists; apply latest_put; apply keys_drop; exact K2);
    apply keys_put; auto; apply keys_drop; exact K2.
Qed.

Lemma conf_disk : forall s d,
  let d' := apply_all d (to_config G s) in
  d_surf G d' = d_surf G d /\ d_seen G d' = d_seen G d /\ d_grid G d' = d_grid G d /\
  d_conf G d' = (if s_readonly G s then d_conf G d
                 else Written G (mkConf G (s_counters G s) (s_rng G s))).
Proof. intros s d. unfold to_config. destruct (s_readonly G s); cbn; auto. Qed.

(** The state of a session that may write its configuration. *)
Definition inv (s : sim) (d : disk) : Prop :=
  good s /\ keyed s d /\ stored s d /\ s_readonly G s = false /\
  exists g, d_conf G d = Written G (mkConf G (s_counters G s) g).

Lemma set_disk : forall c s s' w d, set_counters G c s = (s', w) ->
  s' = mkSim G c (s_surf G s) (s_seen G s) (s_rng G s) (s_readonly G s) (s_new G s) /\
  d_surf G (apply_all d w) = d_surf G d /\ d_seen G (apply_all d w) = d_seen G d /\
  d_grid G (apply_all d w) = d_grid G d /\
  d_conf G (apply_all d w) = (if s_readonly G s then d_conf G d else Written G (mkConf G c (s_rng G s))).
Proof.
  intros c s s' w d H. unfold set_counters in H. injection H as <- <-.
  split; [reflexivity|].
  pose proof (conf_disk (mkSim G c (s_surf G s) (s_seen G s) (s_rng G s) (s_readonly G s) (s_new G s)) d) as K.
  cbn [s_readonly s_counters s_rng] in K. exact K.
Qed.

(** iterate in one piece *)
Definition after (p : period) (s : sim) : counters :=
  mkCounters (c_interval (s_counters G s) + 1) (Some (p_end p))
    (c_elapsed (s_counters G s) + p_dt p) (c_n1 (s_counters G s) + p_dn1 p).
Definition iterated (p : period) (g : G) (s : sim) : sim :=
  mkSim G (after p s) (s_surf G s ++ [p]) (p_seen p) g (s_readonly G s) (s_new G s && negb (p_forms p)).
Definition ro_conf (s : sim) (g : G) (c : counters) : list (write G) :=
  if s_readonly G s then [] else [WTruncate G; WConf G (mkConf G c g)].
Lemma iterate_eq : forall p g s, iterate G p g s =
  (iterated p g s,
   (ro_conf s g (mkCounters (c_interval (s_counters G s)) (c_time (s_counters G s))
                   (c_elapsed (s_counters G s) + p_dt p) (c_n1 (s_counters G s)))
    ++ ro_conf s g (mkCounters (c_interval (s_counters G s)) (c_time (s_counters G s))
                   (c_elapsed (s_counters G s) + p_dt p) (c_n1 (s_counters G s) + p_dn1 p))
    ++ ro_conf s g (mkCounters (c_interval (s_counters G s)) (Some (p_end p))
                   (c_elapsed (s_counters G s) + p_dt p) (c_n1 (s_counters G s) + p_dn1 p))
    ++ ro_conf s g (after p s) ++ save G (iterated p g s))%list).
Proof. intros. reflexivity. Qed.

Lemma ro_disk : forall s g c d,
  let d' := apply_all d (ro_conf s g c) in
  d_surf G d' = d_surf G d /\ d_seen G d' = d_seen G d /\ d_grid G d' = d_grid G d /\
  d_conf G d' = (if s_readonly G s then d_conf G d else Written G (mkConf G c g)).
Proof. intros. unfold d', ro_conf. destruct (s_readonly G s); cbn; auto. Qed.

Lemma iterate_disk : forall p g s d s' w, iterate G p g s = (s', w) -> keyed s d ->
  let d' := apply_all d w in
  s' = iterated p g s /\ keyed s' d' /\ stored s' d' /\ d_grid G d' = d_grid G d /\
  d_conf G d' = (if s_readonly G s then d_conf G d else Written G (mkConf G (s_counters G s') g)).
Proof.
  intros p g s d s' w H [K1 K2]. rewrite iterate_eq in H. injection H as <- <-. cbv zeta.
  rewrite !apply_app.
  pose proof (ro_disk s g (mkCounters (c_interval (s_counters G s)) (c_time (s_counters G s))
                   (c_elapsed (s_counters G s) + p_dt p) (c_n1 (s_counters G s))) d) as A.
  cbv zeta in A. destruct A as (A1 & A2 & A3 & A4). set (d1 := apply_all d _) in *.
  pose proof (ro_disk s g (mkCounters (c_interval (s_counters G s)) (c_time (s_counters G s))
                   (c_elapsed (s_counters G s) + p_dt p) (c_n1 (s_counters G s) + p_dn1 p)) d1) as B.
  cbv zeta in B. destruct B as (B1 & B2 & B3 & B4). set (d2 := apply_all d1 _) in *.
  pose proof (ro_disk s g (mkCounters (c_interval (s_counters G s)) (Some (p_end p))
                   (c_elapsed (s_counters G s) + p_dt p) (c_n1 (s_counters G s) + p_dn1 p)) d2) as C.
  cbv zeta in C. destruct C as (C1 & C2 & C3 & C4). set (d3 := apply_all d2 _) in *.
  pose proof (ro_disk s g (after p s) d3) as D.
  cbv zeta in D. destruct D as (D1 & D2 & D3 & D4). set (d4 := apply_all d3 _) in *.
  assert (K : keyed (iterated p g s) d4).
  { unfold keyed. cbn [iterated s_counters after c_interval]. rewrite D1, C1, B1, A1, D2, C2, B2, A2.
    split; (eapply keys_up; [|eassumption]); lia. }
  destruct (save_disk _ _ K) as (S1 & S2 & S3 & S4). cbn [iterated s_readonly s_rng] in S4.
  split; [reflexivity|]. split; [exact S1|]. split; [exact S2|]. split.
  - rewrite S3, D3, C3, B3, A3. reflexivity.
  - rewrite S4. destruct (s_readonly G s); [rewrite D4, C4, B4, A4 |]; reflexivity.
Qed.

Lemma iterated_good : forall p g s, good s -> good (iterated p g s).
Proof.
  intros p g s [(D1 & D2 & D3 & D4) N]. split; [|cbn; discriminate].
  unfold describe. cbn [iterated s_counters s_surf after c_interval c_elapsed c_n1 c_time].
  rewrite app_length, !total_app, D1, D2, D3. cbn. split; [lia|]. split; [lra|]. split; [lra|].
  intros q l E. apply app_inj_tail in E. destruct E as [_ <-]. reflexivity.
Qed.

Lemma begin_disk : forall ts s d s' w, begin_run G ts s = (s', w) -> good s -> keyed s d ->
  let d' := apply_all d w in
  s_surf G s' = s_surf G s /\ s_seen G s' = s_seen G s /\ s_rng G s' = s_rng G s /\
  s_readonly G s' = s_readonly G s /\ s_new G s' = s_new G s /\
  c_interval (s_counters G s') = c_interval (s_counters G s) /\
  good s' /\ keyed s' d' /\ (stored s d -> stored s' d') /\ d_grid G d' = d_grid G d /\
  (s_readonly G s = true -> d_conf G d' = d_conf G d) /\
  (s_readonly G s = false -> (exists g, d_conf G d = Written G (mkConf G (s_counters G s) g)) ->
     exists g, d_conf G d' = Written G (mkConf G (s_counters G s') g)).
Proof.
  intros ts s d s' w H [Gd Gn] K. cbv zeta. unfold begin_run in H.
  destruct (c_time (s_counters G s)) as [t|] eqn:T.
  - injection H as <- <-. cbn [List.app].
    destruct (s_new G s) eqn:N.
    + destruct (save_disk s d K) as (S1 & S2 & S3 & S4).
      repeat (split; [first [reflexivity | exact S1 | exact S3 | split; [exact Gd | rewrite T; discriminate]
                            | intros _; exact S2 ]|]).
      split; [intros E; rewrite S4, E; reflexivity|].
      intros E _. rewrite S4, E. eexists. reflexivity.
    + cbn. repeat (split; [first [reflexivity | exact K | split; [exact Gd | rewrite T; discriminate]
                            | intros St; exact St ]|]).
      intros _ E; exact E.
  - destruct (Gn eq_refl) as [Z1 Z2].
    destruct (set_counters G (mkCounters (c_interval (s_counters G s)) (Some ts) (c_elapsed (s_counters G s))
                (c_n1 (s_counters G s))) s) as [a wa] eqn:EA.
    destruct (set_disk _ _ _ _ d EA) as (-> & A1 & A2 & A3 & A4).
    destruct (set_counters G (mkCounters 0 (Some ts) (c_elapsed (s_counters G s)) (c_n1 (s_counters G s)))
       (mkSim G (mkCounters (c_interval (s_counters G s)) (Some ts) (c_elapsed (s_counters G s))
           (c_n1 (s_counters G s))) (s_surf G s) (s_seen G s) (s_rng G s) (s_readonly G s) (s_new G s)))
       as [b wb] eqn:EB.
    destruct (set_disk _ _ _ _ (apply_all d wa) EB) as (-> & B1 & B2 & B3 & B4).
    cbn [s_surf s_seen s_rng s_readonly s_new] in *.
    set (b := mkSim G (mkCounters 0 (Some ts) (c_elapsed (s_counters G s)) (c_n1 (s_counters G s)))
                (s_surf G s) (s_seen G s) (s_rng G s) (s_readonly G s) (s_new G s)) in *.
    injection H as <- <-. rewrite !apply_app.
    set (d2 := apply_all (apply_all d wa) wb) in *.
    assert (Gb : good b).
    { split; [|cbn; discriminate]. unfold b, describe. cbn. rewrite Z1. cbn.
      destruct Gd as (_ & D2 & D3 & _). rewrite Z1 in D2, D3. cbn in D2, D3.
      repeat split; auto. intros p l E. destruct l; discriminate. }
    assert (Kb : keyed b d2).
    { unfold keyed, b. cbn. rewrite B1, A1, B2, A2. destruct K as [K1 K2]. rewrite Z2 in K1, K2. auto. }
    assert (Sb : stored s d -> stored b d2).
    { unfold stored, b. cbn. rewrite B1, A1, B2, A2, Z2. auto. }
    replace (s_new G b) with (s_new G s) by reflexivity.
    repeat (split; [first [reflexivity | exact Gb]|]).
    split; [cbn; symmetry; exact Z2|]. split; [exact Gb|].
    destruct (s_new G s) eqn:N.
    + destruct (save_disk b d2 Kb) as (S1 & S2 & S3 & S4).
      split; [exact S1|]. split; [intros _; exact S2|]. split; [rewrite S3, B3, A3; reflexivity|].
      split.
      * intros E. rewrite S4. unfold b at 1. cbn. rewrite E, B4, E, A4, E. reflexivity.
      * intros E _. rewrite S4. unfold b at 1. cbn. rewrite E. eexists. reflexivity.
    + cbn. split; [exact Kb|]. split; [exact Sb|]. split; [rewrite B3, A3; reflexivity|].
      split.
      * intros E. rewrite B4, E, A4, E. reflexivity.
      * intros E _. rewrite B4, E. eexists. reflexivity.
Qed.

(** The invariant of any session, with or without the right to write the configuration. *)
Definition live (s : sim) (d : disk) : Prop := good s /\ keyed s d /\ stored s d.

Lemma iterations_disk : forall l s d s' w, iterations G l s = (s', w) -> live s d ->
  let d' := apply_all d w in
  live s' d' /\ s_readonly G s' = s_readonly G s /\ d_grid G d' = d_grid G d /\
  (s_readonly G s = true -> d_conf G d' = d_conf G d) /\
  (s_readonly G s = false -> (exists g, d_conf G d = Written G (mkConf G (s_counters G s) g)) ->
     exists g, d_conf G d' = Written G (mkConf G (s_counters G s') g)).
Proof.
  induction l as [|[p g] l IH]; cbn [iterations]; intros s d s' w H L; cbv zeta.
  - injection H as <- <-. cbn. split; [exact L|]. split; [reflexivity|]. split; [reflexivity|]. split; auto.
  - destruct (iterate G p g s) as [s1 w1] eqn:E1.
    destruct (iterations G l s1) as [s2 w2] eqn:E2. injection H as <- <-.
    destruct L as (Gs & K & St).
    destruct (iterate_disk _ _ _ _ _ _ E1 K) as (E & K1 & S1 & G1 & C1). subst s1.
    pose proof (IH _ (apply_all d w1) _ _ E2 (conj (iterated_good p g s Gs) (conj K1 S1))) as I.
    cbv zeta in I. destruct I as (L2 & R2 & G2 & C2 & C3). rewrite apply_app.
    cbn [iterated s_readonly] in R2, C2, C3, C1.
    split; [exact L2|]. split; [exact R2|]. split; [rewrite G2, G1; reflexivity|]. split.
    + intros R. rewrite (C2 R), C1, R. reflexivity.
    + intros R _. apply (C3 R). rewrite C1, R. eexists. reflexivity.
Qed.

Lemma op_disk : forall o s d s' w, do_op G o s = (s', w) -> live s d ->
  let d' := apply_all d w in
  live s' d' /\ s_readonly G s' = s_readonly G s /\ d_grid G d' = d_grid G d /\
  (s_readonly G s = true -> d_conf G d' = d_conf G d) /\
  (s_readonly G s = false -> (exists g, d_conf G d = Written G (mkConf G (s_counters G s) g)) ->
     exists g, d_conf G d' = Written G (mkConf G (s_counters G s') g)).
Proof.
  intros [ts l|] s d s' w H L; cbv zeta; unfold do_op in H.
  - destruct (begin_run G ts s) as [s1 w1] eqn:E1.
    destruct (iterations G l s1) as [s2 w2] eqn:E2. injection H as <- <-.
    destruct L as (Gs & K & St).
    pose proof (begin_disk _ _ d _ _ E1 Gs K) as B. cbv zeta in B.
    destruct B as (_ & _ & _ & R & _ & _ & Gb & Kb & Sb & Gr & C1 & C2).
    pose proof (iterations_disk _ _ (apply_all d w1) _ _ E2 (conj Gb (conj Kb (Sb St)))) as I. cbv zeta in I.
    destruct I as (L2 & R2 & G2 & C3 & C4). rewrite apply_app.
    split; [exact L2|]. split; [rewrite R2; exact R|]. split; [rewrite G2; exact Gr|]. split.
    + intros E. rewrite C3 by (rewrite R; exact E). apply C1, E.
    + intros E X. apply C4; [rewrite R; exact E|]. apply C2; assumption.
  - unfold reset in H. set (s1 := mkSim G counters0 [] [] (s_rng G s) (s_readonly G s) true) in *.
    injection H as <- <-.
    change (apply_all d (WClearSeen G :: ([WClearSurf G; WSurf G 0 []] ++ save G s1)%list))
      with (apply_all (mkDisk G (d_conf G d) (d_grid G d) (put 0 [] []) []) (save G s1)).
    assert (K : keyed s1 (mkDisk G (d_conf G d) (d_grid G d) (put 0 [] []) [])).
    { unfold keyed; cbn; split; [constructor; [cbn; lia | constructor] | constructor]. }
    destruct (save_disk _ _ K) as (S1 & S2 & S3 & S4).
    split.
    { split; [|split; assumption]. split; cbn; [|auto]. unfold describe; cbn. repeat split; auto.
      intros p l E. destruct l; discriminate. }
    split; [reflexivity|]. split; [exact S3|]. cbn [s1 s_readonly d_conf] in S4. split.
    + intros E. etransitivity; [exact S4|]. rewrite E. reflexivity.
    + intros E _. eexists. etransitivity; [exact S4|]. rewrite E. reflexivity.
Qed.

Lemma ops_disk : forall l s d s' w, do_ops G l s = (s', w) -> live s d ->
  let d' := apply_all d w in
  live s' d' /\ s_readonly G s' = s_readonly G s /\ d_grid G d' = d_grid G d /\
  (s_readonly G s = true -> d_conf G d' = d_conf G d) /\
  (s_readonly G s = false -> (exists g, d_conf G d = Written G (mkConf G (s_counters G s) g)) ->
     exists g, d_conf G d' = Written G (mkConf G (s_counters G s') g)).
Proof.
  induction l as [|o l IH]; cbn [do_ops]; intros s d s' w H L; cbv zeta.
  - injection H as <- <-. cbn. split; [exact L|]. split; [reflexivity|]. split; [reflexivity|]. split; auto.
  - destruct (do_op G o s) as [s1 w1] eqn:E1.
    destruct (do_ops G l s1) as [s2 w2] eqn:E2. injection H as <- <-.
    pose proof (op_disk _ _ d _ _ E1 L) as A. cbv zeta in A. destruct A as (L1 & R1 & G1 & A1 & A2).
    pose proof (IH _ (apply_all d w1) _ _ E2 L1) as B. cbv zeta in B. destruct B as (L2 & R2 & G2 & B1 & B2).
    rewrite apply_app.
    split; [exact L2|]. split; [rewrite R2; exact R1|]. split; [rewrite G2; exact G1|]. split.
    + intros E. rewrite B1 by (rewrite R1; exact E). apply A1, E.
    + intros E X. apply B2; [rewrite R1; exact E|]. apply A2; assumption.
Qed.

(** Starting. *)
Lemma construct_new : forall arg ask answer id fresh d s w,
  construct G arg ask answer id fresh d = Ok (s, w) -> s_new G s = true ->
  s = mkSim G counters0 [] [] fresh false true /\
  apply_all d w = mkDisk G (Written G (mkConf G counters0 fresh)) (Some id) [(0%nat, [])] [].
Proof.
  intros arg ask answer id fresh d s w H N. unfold construct in H.
  destruct (decide_reset G arg ask answer d) eqn:Er.
  - cbn [orb negb] in H. injection H as <- <-. split; [reflexivity|].
    destruct (d_grid G d) as [i|] eqn:Eg.
    + destruct (i =? id)%nat eqn:Ei; cbn.
      * apply Nat.eqb_eq in Ei. subst i. rewrite Eg. reflexivity.
      * reflexivity.
    + reflexivity.
  - cbn [orb] in H.
    destruct (d_conf G d) as [| |f] eqn:Ec; [|discriminate|];
    (destruct (d_grid G d) as [i|] eqn:Eg; [destruct (i =? id)%nat eqn:Ei|]; cbn [negb] in H;
      injection H as <- <-; [discriminate N| |]; (split; reflexivity)).
Qed.

Lemma construct_new_iff : forall arg ask answer id fresh d s w,
  construct G arg ask answer id fresh d = Ok (s, w) ->
  s_new G s = (decide_reset G arg ask answer d || negb (match d_grid G d with Some i => (i =? id)%nat | None => false end)).
Proof.
  intros arg ask answer id fresh d s w H. unfold construct in H.
  destruct (decide_reset G arg ask answer d) eqn:Er.
  - cbn [orb] in H. injection H as <- <-. reflexivity.
  - cbn [orb] in H |- *.
    destruct (d_conf G d) as [| |f] eqn:Ec; [|discriminate|];
    (destruct (d_grid G d) as [i|] eqn:Eg; [destruct (i =? id)%nat eqn:Ei|]; cbn [negb] in H |- *;
      injection H as <- <-; reflexivity).
Qed.

Lemma restart_written : forall id fresh d f, d_conf G d = Written G f -> d_grid G d = Some id ->
  restart id fresh d =
  Ok (mkSim G (f_counters G f)
        (match latest (d_surf G d) with Some e => snd e | None => [] end)
        (match latest (d_seen G d) with Some e => snd e | None => [] end) fresh true false, []).
Proof.
  intros id fresh d f Ec Eg. unfold restart, construct. cbn [decide_reset]. rewrite Ec, Eg, Nat.eqb_refl.
  reflexivity.
Qed.

Lemma first_inv : forall id d0 s d, first_session id d0 s d ->
  live s d /\ s_readonly G s = false /\ d_grid G d = Some id /\
  exists g, d_conf G d = Written G (mkConf G (s_counters G s) g).
Proof.
  intros id d0 s d (arg & ask & answer & fresh & s0 & w0 & l & w & H & N & O & ->).
  destruct (construct_new _ _ _ _ _ _ _ _ H N) as [E D]. rewrite apply_app.
  assert (L0 : live s0 (apply_all d0 w0)).
  { rewrite E, D. unfold live, good, keyed, stored, describe. cbn. repeat split; auto.
    - intros p q K. destruct q; discriminate.
    - intros K. exfalso; apply K; reflexivity. }
  pose proof (ops_disk _ _ (apply_all d0 w0) _ _ O L0) as K. cbv zeta in K.
  destruct K as (L & R & Gr & _ & C). rewrite E in R. cbn in R.
  split; [exact L|]. split; [exact R|]. split; [rewrite Gr, D; reflexivity|].
  apply C; [rewrite E; reflexivity|]. rewrite D, E. eexists. reflexivity.
Qed.

Lemma first_resumes : forall id d0 s d fresh, first_session id d0 s d ->
  exists s', restart id fresh d = Ok (s', []) /\
    s_counters G s' = s_counters G s /\ s_surf G s' = s_surf G s /\
    describe (s_counters G s') (s_surf G s').
Proof.
  intros id d0 s d fresh F. destruct (first_inv _ _ _ _ F) as ((Gd & K & St & Sn) & R & Gr & g & C).
  eexists. split; [exact (restart_written id fresh d _ C Gr)|]. cbn. rewrite St. cbn.
  split; [reflexivity|]. split; [reflexivity|]. exact (proj1 Gd).
Qed.
Lemma first_seen : forall id d0 s d fresh, first_session id d0 s d -> s_seen G s <> [] ->
  exists s', restart id fresh d = Ok (s', []) /\ s_seen G s' = s_seen G s.
Proof.
  intros id d0 s d fresh F N. destruct (first_inv _ _ _ _ F) as ((Gd & K & St & Sn) & R & Gr & g & C).
  eexists. split; [exact (restart_written id fresh d _ C Gr)|]. destruct (Sn N) as [k Ek]. cbn. rewrite Ek. reflexivity.
Qed.

(** Crash points of one iteration. *)
Lemma prefix_cons : forall (A : Type) (x : A) l a b, x :: l = (a ++ b)%list ->
  a = [] \/ exists a', a = x :: a' /\ l = (a' ++ b)%list.
Proof.
  intros A x l [|y a] b H; [left; reflexivity | right]. injection H as -> H. exists a. auto.
Qed.

Lemma crash_point : forall id fresh (d' : disk) (s : sim) (c' : counters) (surf' : list period),
  d_grid G d' = Some id ->
  (d_conf G d' = Empty G \/
   exists c g k, d_conf G d' = Written G (mkConf G c g) /\
     ((latest (d_surf G d') = Some (k, surf') /\ c = c') \/
      (latest (d_surf G d') = Some (k, s_surf G s) /\
       (c_interval c = c_interval (s_counters G s) \/ c = c')))) ->
  restart id fresh d' = Err TypeError \/
  exists s3, restart id fresh d' = Ok (s3, []) /\
    ((s_surf G s3 = surf' /\ s_counters G s3 = c') \/
     (s_surf G s3 = s_surf G s /\
      (c_interval (s_counters G s3) = c_interval (s_counters G s) \/ s_counters G s3 = c'))).
Proof.
  intros id fresh d' s c' surf' Gr [E|(c & g & k & Ec & H)].
  - left. unfold restart, construct. cbn [decide_reset]. rewrite E. reflexivity.
  - right. eexists. split; [exact (restart_written id fresh d' _ Ec Gr)|].
    cbn [s_surf s_counters f_counters]. destruct H as [[L ->]|[L X]]; rewrite L; cbn [snd]; auto.
Qed.

Ltac crash_at Gr C St Lp I1 I2 I3 :=
    apply crash_point; [exact Gr|]; cbn -[put latest drop];
    first
    [ left; reflexivity
    | right; eexists _, _, _; split; [first [reflexivity | exact C]|];
      first [ left; split; [exact Lp | reflexivity]
            | right; split; [exact St|];
              first [ left; exact I1 | left; exact I2 | left; exact I3 | left; reflexivity | right; reflexivity] ] ].

Lemma crash_cases : forall id d0 s d p g s' w d' fresh,
  first_session id d0 s d -> iterate G p g s = (s', w) -> crash d w d' ->
  restart id fresh d' = Err TypeError \/
  exists s3, restart id fresh d' = Ok (s3, []) /\
    ((s_surf G s3 = s_surf G s' /\ s_counters G s3 = s_counters G s') \/
     (s_surf G s3 = s_surf G s /\
      (c_interval (s_counters G s3) = c_interval (s_counters G s) \/ s_counters G s3 = s_counters G s'))).
Proof.
  intros id d0 s d p g s' w d' fresh F I (w1 & w2 & E & ->).
  destruct (first_inv _ _ _ _ F) as ((Gd & [K1 K2] & St & Sn) & R & Gr & g0 & C).
  rewrite iterate_eq in I. injection I as <- <-. unfold ro_conf, save, to_config, save_seen in E.
  cbn [iterated s_readonly s_seen s_counters s_surf s_rng] in E |- *. rewrite R in E.
  set (c1 := mkCounters _ (c_time _) _ (c_n1 _)) in E.
  set (c2 := mkCounters _ (c_time _) _ _) in E.
  set (c3 := mkCounters _ (Some _) _ _) in E.
  assert (Lp : latest (put (c_interval (after p s)) (s_surf G s ++ [p])%list (d_surf G d))
               = Some (c_interval (after p s), (s_surf G s ++ [p])%list)).
  { apply latest_put. eapply keys_up; [|exact K1]. cbn; lia. }
  assert (I1 : c_interval c1 = c_interval (s_counters G s)) by reflexivity.
  assert (I2 : c_interval c2 = c_interval (s_counters G s)) by reflexivity.
  assert (I3 : c_interval c3 = c_interval (s_counters G s)) by reflexivity.
  generalize dependent (after p s). intros c4 E Lp.
  clearbody c1 c2 c3. set (surf' := (s_surf G s ++ [p])%list) in *. clearbody surf'.
  set (sn := p_seen p) in E. clearbody sn.
  destruct sn as [|x xs]; cbn [List.app] in E.
  all: repeat (apply prefix_cons in E; destruct E as [->|(? & -> & E)]; [solve [crash_at Gr C St Lp I1 I2 I3]|]).
  all: symmetry in E; apply app_eq_nil in E; destruct E as [-> ->]; solve [crash_at Gr C St Lp I1 I2 I3].
Qed.

Lemma crash_skips : forall id d0 s d p g s' w fresh,
  first_session id d0 s d -> iterate G p g s = (s', w) ->
  exists d' s3, crash d w d' /\ restart id fresh d' = Ok (s3, []) /\
    s_counters G s3 = s_counters G s' /\ s_surf G s3 = s_surf G s.
Proof.
  intros id d0 s d p g s' w fresh F I.
  destruct (first_inv _ _ _ _ F) as ((Gd & [K1 K2] & St & Sn) & R & Gr & g0 & C).
  rewrite iterate_eq in I. injection I as <- <-. unfold ro_conf. rewrite R.
  eexists _, _. split.
  { unfold crash. rewrite !app_assoc. eexists _, (save G (iterated p g s)). split; reflexivity. }
  split; [eapply restart_written; cbn; [reflexivity | exact Gr]|].
  cbn. rewrite St. split; reflexivity.
Qed.
Lemma crash_repeats : forall id d0 s d p g s' w fresh,
  first_session id d0 s d -> iterate G p g s = (s', w) ->
  exists d' s3, crash d w d' /\ restart id fresh d' = Ok (s3, []) /\
    s_surf G s3 = s_surf G s /\ c_interval (s_counters G s3) = c_interval (s_counters G s) /\
    c_time (s_counters G s3) = c_time (s_counters G s) /\
    c_elapsed (s_counters G s3) = c_elapsed (s_counters G s) + p_dt p.
Proof.
  intros id d0 s d p g s' w fresh F I.
  destruct (first_inv _ _ _ _ F) as ((Gd & [K1 K2] & St & Sn) & R & Gr & g0 & C).
  rewrite iterate_eq in I. injection I as <- <-. unfold ro_conf. rewrite R.
  eexists _, _. split.
  { unfold crash. eexists _, _. split; reflexivity. }
  split; [eapply restart_written; cbn; [reflexivity | exact Gr]|].
  cbn. rewrite St. repeat split; reflexivity.
Qed.
Lemma crash_unreadable : forall id d0 s d p g s' w,
  first_session id d0 s d -> iterate G p g s = (s', w) ->
  exists d', crash d w d' /\ forall fresh, restart id fresh d' = Err TypeError.
Proof.
  intros id d0 s d p g s' w F I.
  destruct (first_inv _ _ _ _ F) as (_ & R & _).
  rewrite iterate_eq in I. injection I as <- <-. unfold ro_conf. rewrite R.
  eexists. split.
  { exists [WTruncate G]. eexists. split; reflexivity. }
  intros. unfold restart, construct. cbn. reflexivity.
Qed.

(** A session after the first. *)
Lemma second : forall id d0 s1 d1 s2 d2 fresh,
  first_session id d0 s1 d1 -> resumed_session id d1 s2 d2 ->
  exists s3, restart id fresh d2 = Ok (s3, []) /\
    s_counters G s3 = s_counters G s1 /\ s_surf G s3 = s_surf G s2 /\
    describe (s_counters G s2) (s_surf G s2).
Proof.
  intros id d0 s1 d1 s2 d2 fresh F (fr & s0 & w0 & l & w & H & O & ->).
  destruct (first_inv _ _ _ _ F) as ((Gd & K & St & Sn) & R & Gr & g & C).
  pose proof (restart_written id fr d1 _ C Gr) as Rw. rewrite Rw in H. injection H as <- <-.
  rewrite St in O. cbn [snd f_counters] in O. cbn [List.app].
  set (s0 := mkSim G _ _ _ _ _ _) in O.
  assert (L0 : live s0 d1).
  { split; [exact Gd|]. split; [exact K|]. split; [exact St|]. cbn. intros N.
    destruct (latest (d_seen G d1)) as [[k m]|]; [|exfalso; apply N; reflexivity]. exists k. reflexivity. }
  pose proof (ops_disk _ _ d1 _ _ O L0) as Q. cbv zeta in Q. destruct Q as ((Gd2 & K2 & St2 & Sn2) & R2 & G2 & C2 & _).
  specialize (C2 eq_refl). rewrite C in C2.
  eexists. split; [eapply restart_written; [exact C2 | rewrite G2; exact Gr]|]. cbn. rewrite St2. cbn.
  split; [reflexivity|]. split; [reflexivity|]. exact (proj1 Gd2).
Qed.
End P.
