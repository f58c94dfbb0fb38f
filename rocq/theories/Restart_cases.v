(** Proofs about Restart_model: read-only sessions, and the witnesses. *)
From Coq Require Import Reals List String Bool Arith Lia Lra.
From Verif Require Import Common Restart_model Restart_spec Restart_proofs.
Import ListNotations.
Open Scope R_scope.

Section Q.
Variable G : Type.

(** A write that leaves the configuration and the grid alone. *)
Definition quiet (w : write G) : Prop :=
  match w with WTruncate _ | WConf _ _ | WGrid _ _ => False | _ => True end.
Lemma quiet_disk : forall ws d, Forall quiet ws ->
  d_conf G (apply_all G d ws) = d_conf G d /\ d_grid G (apply_all G d ws) = d_grid G d.
Proof.
  induction ws as [|w ws IH]; intros d F; [split; reflexivity|]. inversion F as [|x l Q F']; subst.
  change (apply_all G d (w :: ws)) with (apply_all G (apply G d w) ws).
  destruct (IH (apply G d w) F') as [A B]. rewrite A, B. destruct w; cbn in Q; try contradiction; split; reflexivity.
Qed.
Lemma quiet_save : forall s, s_readonly G s = true -> Forall quiet (save G s).
Proof.
  intros s E. unfold save, to_config, save_seen. rewrite E. destruct (s_seen G s); repeat constructor.
Qed.
Lemma quiet_set : forall c s s' w, set_counters G c s = (s', w) -> s_readonly G s = true ->
  Forall quiet w /\ s_readonly G s' = true.
Proof.
  intros c s s' w H E. unfold set_counters, to_config in H. cbn in H. rewrite E in H. injection H as <- <-.
  split; [constructor | reflexivity].
Qed.
Lemma quiet_begin : forall ts s s' w, begin_run G ts s = (s', w) -> s_readonly G s = true ->
  Forall quiet w /\ s_readonly G s' = true.
Proof.
  intros ts s s' w H E. unfold begin_run in H. destruct (c_time (s_counters G s)).
  - injection H as <- <-. split; [|exact E]. destruct (s_new G s); [exact (quiet_save s E) | constructor].
  - unfold set_counters, to_config in H. cbn [s_readonly] in H. rewrite E in H. cbn [List.app] in H.
    injection H as <- <-. split; [|reflexivity]. cbn [s_new]. destruct (s_new G s); [apply quiet_save; reflexivity | constructor].
Qed.
Lemma quiet_iterate : forall p g s s' w, iterate G p g s = (s', w) -> s_readonly G s = true ->
  Forall quiet w /\ s_readonly G s' = true.
Proof.
  intros p g s s' w H E. rewrite iterate_eq in H. unfold ro_conf in H. rewrite E in H. injection H as <- <-.
  split; [|exact E]. cbn [List.app]. apply quiet_save. exact E.
Qed.
Lemma quiet_iterations : forall l s s' w, iterations G l s = (s', w) -> s_readonly G s = true ->
  Forall quiet w /\ s_readonly G s' = true.
Proof.
  induction l as [|[p g] l IH]; cbn [iterations]; intros s s' w H E.
  - injection H as <- <-. split; [constructor | exact E].
  - destruct (iterate G p g s) as [s1 w1] eqn:E1. destruct (iterations G l s1) as [s2 w2] eqn:E2.
    injection H as <- <-. destruct (quiet_iterate _ _ _ _ _ E1 E) as [A B].
    destruct (IH _ _ _ E2 B) as [A2 B2]. split; [apply Forall_app; auto | exact B2].
Qed.
Lemma quiet_op : forall o s s' w, do_op G o s = (s', w) -> s_readonly G s = true ->
  Forall quiet w /\ s_readonly G s' = true.
Proof.
  intros [ts l|] s s' w H E; unfold do_op in H.
  - destruct (begin_run G ts s) as [s1 w1] eqn:E1. destruct (iterations G l s1) as [s2 w2] eqn:E2.
    injection H as <- <-. destruct (quiet_begin _ _ _ _ E1 E) as [A B].
    destruct (quiet_iterations _ _ _ _ E2 B) as [A2 B2]. split; [apply Forall_app; auto | exact B2].
  - unfold reset in H. injection H as <- <-. split; [|exact E].
    constructor; [exact I|]. cbn [List.app]. constructor; [exact I|]. constructor; [exact I|]. apply quiet_save. exact E.
Qed.
Lemma quiet_ops : forall l s s' w, do_ops G l s = (s', w) -> s_readonly G s = true ->
  Forall quiet w /\ s_readonly G s' = true.
Proof.
  induction l as [|o l IH]; cbn [do_ops]; intros s s' w H E.
  - injection H as <- <-. split; [constructor | exact E].
  - destruct (do_op G o s) as [s1 w1] eqn:E1. destruct (do_ops G l s1) as [s2 w2] eqn:E2.
    injection H as <- <-. destruct (quiet_op _ _ _ _ E1 E) as [A B].
    destruct (IH _ _ _ E2 B) as [A2 B2]. split; [apply Forall_app; auto | exact B2].
Qed.

Lemma resumed_quiet : forall id d s d' f, d_conf G d = Written G f -> d_grid G d = Some id ->
  resumed_session id d s d' -> d_conf G d' = Written G f /\ d_grid G d' = Some id.
Proof.
  intros id d s d' f C Gr (fr & s0 & w0 & l & w & H & O & ->).
  rewrite (restart_written G id fr d f C Gr) in H. injection H as <- <-. cbn [List.app].
  destruct (quiet_ops _ _ _ _ O eq_refl) as [Q _]. destruct (quiet_disk w d Q) as [A B].
  rewrite A, B. auto.
Qed.
Lemma resumed_all_quiet : forall id d d', resumed_sessions id d d' -> forall f,
  d_conf G d = Written G f -> d_grid G d = Some id -> d_conf G d' = Written G f /\ d_grid G d' = Some id.
Proof.
  intros id d d' H. induction H as [d|d s d1 d2 A _ IH]; intros f C Gr; [auto|].
  destruct (resumed_quiet _ _ _ _ f C Gr A). apply IH; assumption.
Qed.
Lemma stuck : forall id d0 s1 d1 d2 fresh, first_session id d0 s1 d1 -> resumed_sessions id d1 d2 ->
  exists s, restart id fresh d2 = Ok (s, []) /\ s_counters G s = s_counters G s1.
Proof.
  intros id d0 s1 d1 d2 fresh F H. destruct (first_inv G _ _ _ _ F) as (_ & _ & Gr & g & C).
  destruct (resumed_all_quiet _ _ _ H _ C Gr) as [C2 G2].
  eexists. split; [exact (restart_written G id fresh d2 _ C2 G2) | reflexivity].
Qed.

Lemma resume_disk : forall id fresh d f, d_conf G d = Written G f -> d_grid G d = Some id ->
  exists s, restart id fresh d = Ok (s, []) /\ s_counters G s = f_counters G f /\ s_rng G s = fresh /\
    s_new G s = false /\
    (forall k c, latest (d_surf G d) = Some (k, c) -> s_surf G s = c).
Proof.
  intros id fresh d f C Gr. eexists. split; [exact (restart_written G id fresh d f C Gr)|]. cbn.
  repeat split; auto. intros k c E. rewrite E. reflexivity.
Qed.

Lemma new_disk : forall arg ask answer id fresh d s w,
  construct G arg ask answer id fresh d = Ok (s, w) -> arg = Some true \/ d_grid G d <> Some id ->
  s_new G s = true /\ s_counters G s = counters0 /\ s_surf G s = [] /\ s_seen G s = [] /\
  apply_all G d w = mkDisk G (Written G (mkConf G counters0 fresh)) (Some id) [(0%nat, [])] [].
Proof.
  intros arg ask answer id fresh d s w H X.
  assert (N : s_new G s = true).
  { rewrite (construct_new_iff G _ _ _ _ _ _ _ _ H). destruct X as [->|X]; [reflexivity|].
    destruct (d_grid G d) as [i|]; [|apply orb_true_r]. destruct (Nat.eqb_spec i id) as [->|_]; [congruence|apply orb_true_r]. }
  destruct (construct_new G _ _ _ _ _ _ _ _ H N) as [-> D]. repeat split; auto.
Qed.
Lemma reset_starts : forall ask answer id fresh d, exists s w, construct G (Some true) ask answer id fresh d = Ok (s, w).
Proof. intros. unfold construct. cbn [decide_reset orb negb]. eexists _, _. reflexivity. Qed.

Lemma prompt : forall ask answer id fresh d s w,
  construct G None ask answer id fresh d = Ok (s, w) -> d_grid G d = Some id ->
  (s_new G s = true <-> ask = true /\ d_conf G d <> Absent G /\ (answer = "y" \/ answer = "a")%string).
Proof.
  intros ask answer id fresh d s w H Gr. rewrite (construct_new_iff G _ _ _ _ _ _ _ _ H), Gr, Nat.eqb_refl.
  cbn [negb]. rewrite orb_false_r. unfold decide_reset.
  destruct ask; cbn [andb]; [|split; [discriminate | intros [K _]; discriminate]].
  destruct (d_conf G d); [split; [discriminate | intros (_ & K & _); congruence] | |];
  (destruct (String.eqb_spec answer "a"); destruct (String.eqb_spec answer "y"); cbn [orb];
   split; intros K; try reflexivity; try discriminate;
   [..| destruct K as (_ & _ & [|]); congruence]; (split; [reflexivity|]; split; [discriminate|]); auto).
Qed.

Lemma no_config : forall ask answer id fresh d k c, d_conf G d = Absent G -> d_grid G d = Some id ->
  latest (d_surf G d) = Some (k, c) ->
  exists s w, construct G None ask answer id fresh d = Ok (s, w) /\
    s_counters G s = counters0 /\ s_surf G s = c /\
    forall l s' w', do_ops G l s = (s', w') -> d_conf G (apply_all G d (w ++ w')) = Absent G.
Proof.
  intros ask answer id fresh d k c C Gr L. unfold construct. cbn [decide_reset]. rewrite C, andb_false_r, Gr, Nat.eqb_refl, L.
  eexists _, _. split; [reflexivity|]. split; [reflexivity|]. split; [reflexivity|].
  intros l s' w' O. cbn [List.app to_config s_readonly negb orb].
  destruct (quiet_ops _ _ _ _ O eq_refl) as [Q _]. destruct (quiet_disk w' d Q) as [A _]. rewrite A. exact C.
Qed.

Lemma reset_crash : forall ask answer id fresh fresh' d k c, d_grid G d = Some id ->
  latest (d_surf G d) = Some (k, c) ->
  exists s w d' s', construct G (Some true) ask answer id fresh d = Ok (s, w) /\ crash d w d' /\
    restart id fresh' d' = Ok (s', []) /\ s_counters G s' = counters0 /\ s_surf G s' = c.
Proof.
  intros ask answer id fresh fresh' d k c Gr L. unfold construct. cbn [decide_reset].
  rewrite Gr, Nat.eqb_refl. cbn [orb negb].
  eexists _, _, _, _. split; [reflexivity|]. split.
  { exists [WTruncate G; WConf G (mkConf G counters0 fresh)]. eexists. split; reflexivity. }
  split; [eapply restart_written; cbn; [reflexivity | exact Gr]|]. cbn. rewrite L. split; reflexivity.
Qed.

Lemma rng_lost : forall id fresh d s w, restart id fresh d = Ok (s, w) -> s_rng G s = fresh.
Proof.
  intros id fresh d s w H. unfold restart, construct in H. cbn [decide_reset] in H.
  destruct (d_conf G d); [|discriminate|];
  (destruct (d_grid G d) as [i|]; [destruct (i =? id)%nat|]; cbn [orb negb] in H; injection H as <- _; reflexivity).
Qed.
End Q.

(** Witnesses. *)
Definition P1 : period := mkPeriod 100 90 10 5 true [7%nat].
Definition P2 : period := mkPeriod 90 80 10 5 true [].
Definition D0 : disk unit := mkDisk unit (Absent unit) None [] [].

Definition start0 : sim unit * list (write unit) :=
  match construct unit None false "" 0 tt D0 with Ok r => r | Err _ => (mkSim unit counters0 [] [] tt true false, []) end.
Lemma start0_ok : construct unit None false "" 0 tt D0 = Ok start0.
Proof. reflexivity. Qed.

Lemma first_of : forall l, first_session 0 D0 (fst (do_ops unit l (fst start0)))
  (apply_all unit D0 (snd start0 ++ snd (do_ops unit l (fst start0)))).
Proof.
  intros l. exists None, false, ""%string, tt, (fst start0), (snd start0), l, (snd (do_ops unit l (fst start0))).
  split; [reflexivity|]. split; [reflexivity|]. split; [apply surjective_pairing | reflexivity].
Qed.
Definition D1 (l : list (op unit)) : disk unit :=
  apply_all unit D0 (snd start0 ++ snd (do_ops unit l (fst start0))).

Definition again (d : disk unit) : sim unit :=
  match restart 0 tt d with Ok r => fst r | Err _ => fst start0 end.
Definition D2 (l : list (op unit)) (d : disk unit) : disk unit :=
  apply_all unit d (snd (do_ops unit l (again d))).
Lemma resumed_of : forall l d f, d_conf unit d = Written unit f -> d_grid unit d = Some 0%nat ->
  resumed_session 0 d (fst (do_ops unit l (again d))) (D2 l d).
Proof.
  intros l d f C Gr.
  exists tt, (again d), [], l, (snd (do_ops unit l (again d))). split.
  - unfold again. rewrite (restart_written unit 0 tt d f C Gr). reflexivity.
  - split; [apply surjective_pairing | reflexivity].
Qed.

Definition R1 : list (op unit) := [ORun unit 100 [(P1, tt)]].
Definition R2 : list (op unit) := [ORun unit 100 [(P1, tt); (P2, tt)]].

Lemma again_refuted :
  ~ (forall id (d0 : disk unit) s1 d1 s2 d2 fresh s3 w,
       first_session id d0 s1 d1 -> resumed_session id d1 s2 d2 -> restart id fresh d2 = Ok (s3, w) ->
       s_counters unit s3 = s_counters unit s2).
Proof.
  intros H.
  pose proof (first_of R1) as F. destruct (first_inv _ _ _ _ _ F) as (_ & _ & Gr & g & C).
  pose proof (resumed_of R1 _ _ C Gr) as Rs.
  destruct (stuck unit _ _ _ _ _ tt F (one_more 0 _ _ _ _ Rs (no_session 0 _))) as (s & E & K).
  pose proof (H _ _ _ _ _ _ _ _ _ F Rs E) as X. rewrite K in X.
  apply (f_equal c_interval) in X. lazy in X. discriminate X.
Qed.

Lemma lost_refuted :
  ~ (forall id (d0 : disk unit) s1 d1 s2 d2 s3 d3 fresh s4 w,
       first_session id d0 s1 d1 -> resumed_session id d1 s2 d2 -> resumed_session id d2 s3 d3 ->
       restart id fresh d3 = Ok (s4, w) -> s_surf unit s4 = s_surf unit s3).
Proof.
  intros H.
  pose proof (first_of []) as F. destruct (first_inv _ _ _ _ _ F) as (_ & _ & Gr & g & C).
  pose proof (resumed_of R2 _ _ C Gr) as Ra.
  destruct (resumed_quiet _ _ _ _ _ _ C Gr Ra) as [C2 G2].
  pose proof (resumed_of R1 _ _ C2 G2) as Rb.
  destruct (resumed_quiet _ _ _ _ _ _ C2 G2 Rb) as [C3 G3].
  pose proof (H _ _ _ _ _ _ _ _ tt _ _ F Ra Rb (restart_written unit 0 tt _ _ C3 G3)) as X.
  apply (f_equal (@List.length period)) in X. lazy in X. discriminate X.
Qed.

Lemma seen_refuted :
  ~ (forall id (d0 : disk unit) s d fresh s' w, first_session id d0 s d ->
       restart id fresh d = Ok (s', w) -> s_seen unit s' = s_seen unit s).
Proof.
  intros H.
  pose proof (first_of R2) as F. destruct (first_inv _ _ _ _ _ F) as (_ & _ & Gr & g & C).
  pose proof (H _ _ _ _ tt _ _ F (restart_written unit 0 tt _ _ C Gr)) as X. lazy in X. discriminate X.
Qed.
