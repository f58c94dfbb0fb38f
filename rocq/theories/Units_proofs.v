(** Proofs for C128. *)
From Coq Require Import List Reals Lra.
From Verif Require Import Common Units_model Units_spec.
Import ListNotations.
Open Scope R_scope.

Section Proofs.
Context (csfd age : R -> R).
Notation happens := (happens csfd age).
Notation history := (history csfd age).

Lemma among_in l x : among l x = true <-> In x l.
Proof.
  unfold among. rewrite existsb_exists. split.
  - intros (y & I & E). destruct (Req_EM_T x y) as [-> |]; [exact I | discriminate].
  - intros I. exists x. split; [exact I |]. destruct (Req_EM_T x x); [reflexivity | contradiction].
Qed.
Lemma among_not l x : among l x = false <-> ~ In x l.
Proof. rewrite <- among_in. destruct (among l x); split; intros; try discriminate; try reflexivity; try (intros X; discriminate). exfalso. apply H. reflexivity. Qed.
Definition good (p : production) : Prop :=
  (exists x, n_factor p = Some x /\ In x [1; 1000000; 1000000000000]) /\ (exists x, d_factor p = Some x /\ In x [1; 1000]).
Lemma good_set_N p v q : set_N p v = Ok q -> (exists x, n_factor q = Some x /\ In x [1; 1000000; 1000000000000]) /\ d_factor q = d_factor p /\ given q = given p.
Proof.
  unfold set_N. set (x := match v with None => _ | Some _ => _ end). destruct (among [1; 1000000; 1000000000000] x) eqn:E; [| discriminate].
  intros [= <-]. split; [| split; reflexivity]. exists x. split; [reflexivity | apply among_in; exact E].
Qed.
Lemma good_set_D p v q : set_D p v = Ok q -> (exists x, d_factor q = Some x /\ In x [1; 1000]) /\ n_factor q = n_factor p /\ given q = given p.
Proof.
  unfold set_D. set (x := match v with None => _ | Some _ => _ end). destruct (among [1; 1000] x) eqn:E; [| discriminate].
  intros [= <-]. split; [| split; reflexivity]. exists x. split; [reflexivity | apply among_in; exact E].
Qed.
Lemma good_init l N D p : init csfd age l N D = Ok p -> good p.
Proof.
  unfold init. destruct (set_N (set_craters csfd age (mk_production None None []) l) N) as [q |] eqn:E; [| discriminate]. cbn. intros F.
  destruct (good_set_N _ _ _ E) as (A & _). destruct (good_set_D _ _ _ F) as (B & C & _). split; [rewrite C; exact A | exact B].
Qed.
Lemma good_happens p e : good p -> good (happens p e).
Proof.
  intros [A B]. destruct e as [v | v | l]; cbn.
  - destruct (set_N p v) as [q |] eqn:E; [| split; assumption]. destruct (good_set_N _ _ _ E) as (X & Y & _). split; [exact X | rewrite Y; exact B].
  - destruct (set_D p v) as [q |] eqn:E; [| split; assumption]. destruct (good_set_D _ _ _ E) as (X & Y & _). split; [rewrite Y; exact A | exact X].
  - split; assumption.
Qed.
Lemma good_history : forall es p, good p -> good (history p es).
Proof. induction es as [| e es IH]; intros p G; [exact G |]. apply (IH (happens p e)), good_happens, G. Qed.
Lemma good_reports p : good p -> reports p (N_conversion_factor p) (D_conversion_factor p).
Proof.
  intros [(x & E & I) (y & F & J)]. unfold reports, N_unit, D_unit, N_conversion_factor, D_conversion_factor. rewrite E, F. split.
  - destruct (Req_EM_T x 1) as [-> |]; [constructor |]. destruct (Req_EM_T x 1000000) as [-> |]; [constructor |].
    destruct (Req_EM_T x 1000000000000) as [-> |]; [constructor |]. exfalso. destruct I as [I | [I | [I | []]]]; congruence.
  - destruct (Req_EM_T y 1) as [-> |]; [constructor |]. destruct (Req_EM_T y 1000) as [-> |]; [constructor |]. exfalso. destruct J as [J | [J | []]]; congruence.
Qed.
Lemma area_fun u a b : area_unit u a -> area_unit u b -> a = b.
Proof. intros A B. destruct A; inversion B; reflexivity. Qed.
Lemma length_fun u a b : length_unit u a -> length_unit u b -> a = b.
Proof. intros A B. destruct A; inversion B; reflexivity. Qed.
Lemma reports_factors p a m : good p -> reports p a m -> a = N_conversion_factor p /\ m = D_conversion_factor p.
Proof. intros G [A B]. destruct (good_reports p G) as [X Y]. split; [exact (area_fun _ _ _ A X) | exact (length_fun _ _ _ B Y)]. Qed.

Lemma units l N D p es : init csfd age l N D = Ok p ->
  exists a m, reports (history p es) a m /\ N_conversion_factor (history p es) = a /\ D_conversion_factor (history p es) = m.
Proof. intros I. eexists _, _. split; [apply good_reports, good_history, (good_init _ _ _ _ I) | split; reflexivity]. Qed.
Lemma map_given p l : given (set_craters csfd age p l) = map (fun c => (c, draw_time csfd age p c)) l.
Proof. reflexivity. Qed.
Lemma later l N D p es m : init csfd age l N D = Ok p -> forall a, reports (history p es) a m ->
  forall cs, Forall2 (fun c q => fst q = c /\ dates csfd age a 1000 c (snd q)) cs (given (history p (es ++ [Give cs]))).
Proof.
  intros I a R cs. unfold Units_spec.history. rewrite fold_left_app. cbn [fold_left Units_spec.happens]. rewrite map_given.
  destruct (reports_factors _ a m (good_history es p (good_init _ _ _ _ I)) R) as [-> _].
  induction cs as [| c cs IH]; constructor; [split; reflexivity | exact IH].
Qed.
Lemma stays l N D p es : init csfd age l N D = Ok p -> Forall assigns es ->
  Forall2 (fun c q => fst q = c /\ dates csfd age 1000000000000 1000 c (snd q)) l (given (history p es)).
Proof.
  intros I F. assert (given (history p es) = given p) as ->.
  { clear I. revert p. induction F as [| e es A F IH]; intros p; [reflexivity |].
    change (history p (e :: es)) with (history (happens p e) es). rewrite IH. destruct e as [v | v | k]; [| | contradiction]; cbn.
    - destruct (set_N p v) as [q |] eqn:E; [apply (good_set_N _ _ _ E) | reflexivity].
    - destruct (set_D p v) as [q |] eqn:E; [apply (good_set_D _ _ _ E) | reflexivity]. }
  unfold init in I. destruct (set_N (set_craters csfd age (mk_production None None []) l) N) as [q |] eqn:E; [| discriminate]. cbn in I.
  destruct (good_set_D _ _ _ I) as (_ & _ & ->). destruct (good_set_N _ _ _ E) as (_ & _ & ->). rewrite map_given.
  clear. induction l as [| c cs IH]; constructor; [split; reflexivity | exact IH].
Qed.
Lemma assigned p x : (In x [1; 1000000; 1000000000000] -> exists q, set_N p (Some x) = Ok q /\ N_conversion_factor q = x /\ D_conversion_factor q = D_conversion_factor p)
  /\ (~ In x [1; 1000000; 1000000000000] -> set_N p (Some x) = Err ValueError)
  /\ (In x [1; 1000] -> exists q, set_D p (Some x) = Ok q /\ D_conversion_factor q = x /\ N_conversion_factor q = N_conversion_factor p)
  /\ (~ In x [1; 1000] -> set_D p (Some x) = Err ValueError)
  /\ set_N p None = set_N p (Some 1000000000000) /\ set_D p None = set_D p (Some 1000).
Proof.
  unfold set_N, set_D. split; [intros H; apply among_in in H; rewrite H; eexists; split; [reflexivity | split; reflexivity] |].
  split; [intros H; apply among_not in H; rewrite H; reflexivity |].
  split; [intros H; apply among_in in H; rewrite H; eexists; split; [reflexivity | split; reflexivity] |].
  split; [intros H; apply among_not in H; rewrite H; reflexivity |]. split; reflexivity.
Qed.
End Proofs.
Lemma init_ex csfd age : exists p, init csfd age [mk_dated 1 2] (Some 1000000) (Some 1) = Ok p /\ reports p 1000000 1.
Proof.
  unfold init, set_N, set_D. assert (among [1; 1000000; 1000000000000] 1000000 = true) as -> by (apply among_in; cbn; tauto).
  cbn [rbind]. assert (among [1; 1000] 1 = true) as -> by (apply among_in; cbn; tauto). eexists. split; [reflexivity |].
  unfold reports, N_unit, D_unit, D_conversion_factor. cbn [n_factor d_factor]. split.
  - destruct (Req_EM_T 1000000 1); [lra |]. destruct (Req_EM_T 1000000 1000000); [constructor | contradiction].
  - destruct (Req_EM_T 1 1); [constructor | contradiction].
Qed.
(** Ages that are the densities, of a production function that falls as the diameter grows. *)
Lemma metres_differ : exists csfd age c, (forall x, 0 < x -> 0 < csfd x) /\
  exists t t', dates csfd age 1 1000 c t /\ dates csfd age 1 1 c t' /\ t <> t'.
Proof.
  exists (fun x => 1 / x), (fun n => n), (mk_dated 1 1). split; [intros x H; apply Rdiv_lt_0_compat; lra |].
  eexists _, _. split; [reflexivity |]. split; [reflexivity |]. cbn [d_number d_diameter].
  replace (1 / 1 * (1 / 1000 / (1 / (1 * 1000)))) with 1 by field. replace (1 / 1 * (1 / 1000 / (1 / (1 * 1)))) with (1 / 1000) by field.
  rewrite !Rmax_right by lra. lra.
Qed.
Lemma area_differ : exists csfd age c, (forall x, 0 < x -> 0 < csfd x) /\
  exists t t', dates csfd age 1000000000000 1000 c t /\ dates csfd age 1 1000 c t' /\ t <> t'.
Proof.
  exists (fun x => 1 / x), (fun n => n), (mk_dated 1 1). split; [intros x H; apply Rdiv_lt_0_compat; lra |].
  eexists _, _. split; [reflexivity |]. split; [reflexivity |]. cbn [d_number d_diameter].
  replace (1 / 1 * (1 / 1000 / (1 / (1 * 1000)))) with 1 by field. replace (1 / 1000000000000 * (1 / 1000 / (1 / (1 * 1000)))) with (1 / 1000000000000) by field.
  rewrite !Rmax_right by lra. lra.
Qed.
Lemma default_ex csfd age : exists p, init csfd age [mk_dated 1 2] None None = Ok p /\ reports p 1000000000000 1000.
Proof.
  unfold init, set_N, set_D. assert (among [1; 1000000; 1000000000000] 1000000000000 = true) as -> by (apply among_in; cbn; tauto).
  cbn [rbind]. assert (among [1; 1000] 1000 = true) as -> by (apply among_in; cbn; tauto). eexists. split; [reflexivity |].
  unfold reports, N_unit, D_unit, D_conversion_factor. cbn [n_factor d_factor]. split.
  - destruct (Req_EM_T 1000000000000 1); [lra |]. destruct (Req_EM_T 1000000000000 1000000); [lra |].
    destruct (Req_EM_T 1000000000000 1000000000000); [constructor | contradiction].
  - destruct (Req_EM_T 1000 1); [lra |]. destruct (Req_EM_T 1000 1000); [constructor | contradiction].
Qed.
Lemma two_assigned : Forall assigns [SetN (Some 1); SetD None].
Proof. repeat constructor. Qed.
