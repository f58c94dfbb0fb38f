(** Proofs about periods given as crater densities (C109). *)
From Coq Require Import Reals Lra Lia.
From Verif Require Import Common Prod_model Run_model Nd_model Nd_spec.
Import ListNotations.
Open Scope R_scope.

Section Nd.
Variables (csfd chron : R -> R) (age_of : R -> R -> result R) (tlo thi : option R) (Dconv Nconv area : R).
Hypothesis FA : finds_ages csfd chron tlo thi age_of.
Notation sample_args := (sample_args csfd chron age_of tlo thi area).
Notation period := (period csfd chron age_of tlo thi Dconv Nconv area).
Notation density := (density csfd chron).

Lemma age_root D n t : age_of D n = Ok t -> density D t = n /\ 0 <= n /\ 0 <= D.
Proof.
  intros H. pose proof (FA D n) as F. rewrite H in F. unfold age_from_D_N in F.
  destruct (Rlt_dec D 0); [discriminate|]. destruct (Rlt_dec n 0); [discriminate|].
  inversion F as [|x _ _ E]; subst. split; lra.
Qed.

(** With a starting time. *)
Lemma sample_time ts te dne t0 t1 p q : sample_args (Some ts) te None dne = Ok (t0, t1, p, q) -> t0 = ts /\
  match te, dne with Some e, None => t1 = e | None, None => t1 = 0 | _, _ => True end.
Proof.
  unfold Run_model.sample_args. cbn [given Bool.eqb].
  destruct (given te && given dne); [discriminate|]. destruct (Rlt_dec area 0); [discriminate|].
  unfold sample_start. destruct (fn_chk csfd chron tlo thi REF_DIAM ts) as [v|]; [|discriminate]. cbn [rbind].
  destruct (sample_end csfd chron age_of tlo thi area ts (fst (REF_DIAM, v * area)) te dne) as [[t1' q']|] eqn:E; [|discriminate].
  cbn [rbind]. intros [= <- <- <- <-]. split; [reflexivity|].
  unfold sample_end in E. destruct te as [e|], dne as [d|]; auto.
  - cbn [rbind] in E. destruct (validate_age tlo thi ts e); [|discriminate]. cbn [rbind] in E.
    destruct (fn_chk csfd chron tlo thi _ e); [|discriminate]. cbn [rbind] in E. now injection E.
  - unfold validate_csfd in E. cbn [fst snd] in E. unfold REF_DIAM in E.
    destruct (Rlt_dec 1000 0); [discriminate|]. destruct (Rlt_dec 0 0); [discriminate|]. cbn [rbind] in E.
    destruct (Req_EM_T 1000 1000) as [|XX]; [|now destruct XX]. cbn [rbind] in E.
    destruct (validate_age tlo thi ts 0); [|discriminate]. cbn [rbind] in E. now injection E.
Qed.
Lemma sample_order ts te dn dne t0 t1 p q : sample_args ts te dn dne = Ok (t0, t1, p, q) -> t1 <= t0.
Proof.
  unfold Run_model.sample_args. destruct (Bool.eqb (given ts) (given dn)); [discriminate|]. destruct (given te && given dne); [discriminate|]. destruct (Rlt_dec area 0); [discriminate|].
  destruct (sample_start csfd chron age_of tlo thi area ts dn) as [[a b]|]; [|discriminate]. cbn [rbind].
  destruct (sample_end csfd chron age_of tlo thi area a (fst b) te dne) as [[c d]|] eqn:E; [|discriminate]. cbn [rbind]. intros [= <- <- <- <-].
  unfold sample_end in E.
  match type of E with rbind ?x _ = _ => destruct x as [dne2|]; [|discriminate] end. cbn [rbind] in E.
  match type of E with rbind ?x _ = _ => destruct x as [t|]; [|discriminate] end. cbn [rbind] in E.
  destruct (validate_age tlo thi a t) as [u|] eqn:V; [|discriminate]. cbn [rbind] in E.
  match type of E with rbind ?x _ = _ => destruct x as [y|]; [|discriminate] end. cbn [rbind] in E. injection E as <- <-.
  unfold validate_age in V. destruct (Rlt_dec a t); [discriminate|lra].
Qed.

Lemma period_density ND NDe t0 t1 : period (by_density ND NDe) = Ok (t0, t1) ->
  density (fst ND * Dconv) t0 = snd ND * Nconv /\ 
  match NDe with Some e => density (fst e * Dconv) t1 = snd e * Nconv | None => t1 = 0 end /\ t1 <= t0.
Proof.
  unfold Nd_model.period, validate, by_density. cbn [q_age q_ts q_te q_ND q_NDe q_dn q_dne given]. destruct ND as [D N]. cbn [fst snd].
  destruct (age_of (D * Dconv) (N * Nconv)) as [t|] eqn:A; [|discriminate]. cbn [rbind].
  apply age_root in A as [A _].
  destruct NDe as [[De Ne]|].
  - cbn [fst snd]. destruct (age_of (De * Dconv) (Ne * Nconv)) as [u|] eqn:B; [|discriminate]. cbn [rbind]. apply age_root in B as [B _].
    destruct (sample_args (Some t) (Some u) None None) as [[[[a b] p] q]|] eqn:E; [|discriminate]. cbn [rbind]. intros [= <- <-].
    pose proof (sample_order _ _ _ _ _ _ _ _ E). apply sample_time in E as [-> ->]. auto.
  - cbn [rbind]. destruct (sample_args (Some t) None None None) as [[[[a b] p] q]|] eqn:E; [|discriminate]. cbn [rbind]. intros [= <- <-].
    pose proof (sample_order _ _ _ _ _ _ _ _ E). apply sample_time in E as [-> ->]. auto.
Qed.
Lemma period_means ND NDe t0 t1 : 0 < Nconv -> period (by_density ND NDe) = Ok (t0, t1) ->
  (means csfd chron Dconv Nconv ND t0 <-> Nconv = 1 \/ snd ND = 0) /\
  (forall e, NDe = Some e -> means csfd chron Dconv Nconv e t1 <-> Nconv = 1 \/ snd e = 0) /\
  density (fst ND * Dconv) t0 = snd ND * Nconv.
Proof.
  intros P H. apply period_density in H as (A & B & _). unfold means.
  assert (K : forall x y, x = y * Nconv -> (x * Nconv = y <-> Nconv = 1 \/ y = 0)).
  { intros x y ->. split.
    - intros E. destruct (Req_dec y 0) as [Z|Z]; [now right|left].
      assert (E2 : y * (Nconv * Nconv - 1) = 0) by lra. apply Rmult_integral in E2 as [?|E2]; [lra|].
      assert (E3 : (Nconv - 1) * (Nconv + 1) = 0) by lra. apply Rmult_integral in E3 as [?|?]; lra.
    - intros [-> | ->]; lra. }
  repeat split; auto.
  - now apply K.
  - now apply K.
  - subst NDe. now apply K.
  - subst NDe. now apply K.
Qed.

(** run *)
Lemma sample_number p0 dne t0 t1 p q : 0 < area -> sample_args None None (Some p0) (Some dne) = Ok (t0, t1, p, q) ->
  density (fst p0) t0 = snd p0 / area /\ density (fst dne) t1 = snd dne / area /\ fst dne = fst p0.
Proof.
  intros A. unfold Run_model.sample_args. cbn [given Bool.eqb andb]. destruct (Rlt_dec area 0); [lra|].
  unfold sample_start. destruct (validate_csfd p0); [|discriminate]. cbn [rbind].
  destruct (age_of (fst p0) (snd p0 / area)) as [t|] eqn:R1; [|discriminate]. cbn [rbind].
  destruct (sample_end csfd chron age_of tlo thi area t (fst p0) None (Some dne)) as [[u qq]|] eqn:E; [|discriminate]. cbn [rbind].
  intros [= <- <- <- <-]. apply age_root in R1 as [R1 _]. split; [exact R1|].
  unfold sample_end in E. destruct (validate_csfd dne); [|discriminate]. cbn [rbind] in E.
  destruct (Req_EM_T (fst dne) (fst p0)) as [e|]; [|discriminate]. cbn [rbind] in E.
  destruct (validate_csfd dne); [|discriminate]. cbn [rbind] in E.
  destruct (age_of (fst dne) (snd dne / area)) as [v|] eqn:R2; [|discriminate]. cbn [rbind] in E. apply age_root in R2 as [R2 _].
  destruct (validate_age tlo thi t v); [|discriminate]. cbn [rbind] in E. injection E as <- <-. auto.
Qed.
Lemma run_means cur ND NDe n t0 t1 : 0 < area -> 0 < Nconv ->
  run_period csfd chron age_of tlo thi Dconv Nconv area cur (run_by_density ND NDe n) = Ok (t0, t1) ->
  means csfd chron Dconv Nconv ND t0 /\ means csfd chron Dconv Nconv (match NDe with Some e => e | None => (fst ND, 0) end) t1.
Proof.
  intros PA PN. unfold run_period, validate_run_args, run_by_density, pick_args. cbn [a_age a_ts a_te a_ND a_NDe a_dn a_dne a_dt a_n given rbind orb].
  set (e := match NDe with Some e => e | None => (fst ND, 0) end).
  match goal with |- context [rbind (match n with Some _ => _ | None => _ end) _] => destruct (match n with Some k => if (k <? 1)%Z then Err ValueError else Ok (Some k) | None => Ok (Some 1%Z) end) as [nint|]; [|discriminate] end.
  cbn [rbind].
  destruct (sample_args None None (Some (fst ND * Dconv, area * snd ND / Nconv)) (Some (fst e * Dconv, area * snd e / Nconv))) as [[[[a b] p] q]|] eqn:E; [|discriminate].
  cbn [rbind p_ts p_te]. intros [= <- <-]. apply sample_number in E as (H1 & H2 & _); [|exact PA]. cbn [fst snd] in H1, H2.
  unfold means. split; [rewrite H1|rewrite H2]; field; lra.
Qed.

(** sample and an unreachable density *)
Lemma period_fails ND NDe : 0 <= fst ND * Dconv ->
  (forall t, match tlo with Some l => l | None => 0 end <= t <= match thi with Some h => h | None => 1000000 end -> density (fst ND * Dconv) t < snd ND * Nconv) ->
  match tlo with Some l => l | None => 0 end <= match thi with Some h => h | None => 1000000 end ->
  period (by_density ND NDe) = Err ValueError.
Proof.
  intros HD H B. unfold Nd_model.period, validate, by_density. cbn [q_age q_ts q_te q_ND q_NDe q_dn q_dne given]. destruct ND as [D N]. cbn [fst snd] in *.
  pose proof (FA (D * Dconv) (N * Nconv)) as F. unfold age_from_D_N in F.
  destruct (age_of (D * Dconv) (N * Nconv)) as [t|x] eqn:A.
  - exfalso. destruct (Rlt_dec (D * Dconv) 0); [lra|]. destruct (Rlt_dec (N * Nconv) 0); [discriminate|].
    inversion F as [|y _ I E]; subst. specialize (H t I). cbv beta in E. lra.
  - assert (x = ValueError) as ->; [|reflexivity].
    destruct (Rlt_dec (D * Dconv) 0); [now injection F|]. destruct (Rlt_dec (N * Nconv) 0); [now injection F|].
    now inversion F.
Qed.

Lemma conflicts a ND NDe ts te dn dne :
  period (mkRequest a (Some ts) te (Some ND) NDe dn dne) = Err ValueError /\
  period (mkRequest (Some ts) a te (Some ND) NDe dn dne) = Err ValueError.
Proof. split; destruct ND, a; reflexivity. Qed.
Lemma conflict_number ND NDe te d dne x : period (mkRequest None None te (Some ND) NDe (Some d) dne) = Ok x -> False.
Proof.
  unfold Nd_model.period, validate. cbn [q_age q_ts q_te q_ND q_NDe q_dn q_dne given]. destruct ND as [D N].
  destruct (age_of (D * Dconv) (N * Nconv)) as [t|]; [|discriminate]. cbn [rbind].
  match goal with |- rbind (rbind ?y _) _ = _ -> _ => destruct y; [|discriminate] end. cbn [rbind]. discriminate.
Qed.
Lemma conflict_end a ts ND e te dn dne x : period (mkRequest a ts (Some te) ND (Some e) dn dne) = Ok x -> False.
Proof.
  unfold Nd_model.period, validate. cbn [q_age q_ts q_te q_ND q_NDe q_dn q_dne given].
  match goal with |- rbind (rbind ?y _) _ = _ -> _ => destruct y; [|discriminate] end. cbn [rbind]. destruct e; discriminate.
Qed.
Lemma age_wins a ts te ND NDe dn dne : period (mkRequest (Some a) ts te ND NDe dn dne) = period (mkRequest None (Some a) te ND NDe dn dne).
Proof. reflexivity. Qed.
Lemma period_times ts te t0 t1 : period (mkRequest None (Some ts) te None None None None) = Ok (t0, t1) ->
  t0 = ts /\ t1 = match te with Some e => e | None => 0 end /\ t1 <= t0.
Proof.
  unfold Nd_model.period, validate. cbn [q_age q_ts q_te q_ND q_NDe q_dn q_dne given rbind].
  destruct (sample_args (Some ts) te None None) as [[[[a b] p] q]|] eqn:E; [|discriminate]. cbn [rbind]. intros [= <- <-].
  pose proof (sample_order _ _ _ _ _ _ _ _ E). apply sample_time in E as [-> E]. destruct te; auto.
Qed.
End Nd.

(** The default power law. *)
Lemma power_default p D t : new_powerlaw GCrater None None = Ok p -> 1 <= D -> 0 <= t <= 1000000 -> 0 <= pl_csfd p D * (t - 0) < 10000.
Proof.
  unfold new_powerlaw. destruct (Rlt_dec (7883 / 1000000) 0); [lra|]. destruct (Rlt_dec 0 (- (3328 / 1000))); [lra|].
  intros [= <-] HD Ht. unfold pl_csfd, pow. cbn [N1_coef slope].
  assert (P : 0 < Rpower D (- (3328 / 1000)) <= 1).
  { split; [apply exp_pos|]. rewrite <- (Rpower_O D) by lra. apply Rle_Rpower; lra. }
  set (x := Rpower D (- (3328 / 1000))) in *. clearbody x. rewrite Rminus_0_r.
  assert (0 <= x * t <= 1000000). { split; [apply Rmult_le_pos; lra|]. replace 1000000 with (1 * 1000000) by ring. apply Rmult_le_compat; lra. }
  split; [|lra]. replace (7883 / 1000000 * x * t) with (7883 / 1000000 * (x * t)) by ring. lra.
Qed.
Lemma default_fails p age_of area ND NDe : new_powerlaw GCrater None None = Ok p ->
  finds_ages (pl_csfd p) (fun t => t) None None age_of ->
  1 / 1000 <= fst ND -> / 100000000 <= snd ND ->
  period (pl_csfd p) (fun t => t) age_of None None 1000 1000000000000 area (by_density ND NDe) = Err ValueError.
Proof.
  intros P FA HD HN. apply period_fails; [exact FA|lra| |lra].
  intros t Ht. unfold density. pose proof (power_default p (fst ND * 1000) t P ltac:(lra) Ht). lra.
Qed.

(** A production function with an exact solver. *)
Definition many (D : R) : R := 1000000000.
Definition solve (D n : R) : result R :=
  if Rlt_dec D 0 then Err ValueError else if Rlt_dec n 0 then Err ValueError
  else if Rlt_dec 1000000 (n / 1000000000) then Err ValueError else Ok (n / 1000000000).
Lemma solve_ok : finds_ages many (fun t => t) None None solve.
Proof.
  intros D n. unfold age_from_D_N, solve, density, many. destruct (Rlt_dec D 0); [reflexivity|]. destruct (Rlt_dec n 0); [reflexivity|].
  destruct (Rlt_dec 1000000 (n / 1000000000)).
  - apply brentq_sign.
    replace ((1000000000 * (0 - 0) - n) * (1000000000 * (1000000 - 0) - n)) with (n * (n - 1000000000 * 1000000)) by ring.
    apply Rmult_lt_0_compat; lra.
  - apply brentq_root.
    + replace ((1000000000 * (0 - 0) - n) * (1000000000 * (1000000 - 0) - n)) with (- (n * (1000000000 * 1000000 - n))) by ring.
      assert (0 <= n * (1000000000 * 1000000 - n)) by (apply Rmult_le_pos; lra). lra.
    + lra.
    + field.
Qed.
Lemma solve_sample : period many (fun t => t) solve None None 1000 1000000 1 (by_density (1, 1) None) = Ok (/ 1000, 0).
Proof.
  unfold period, validate, by_density. cbn [q_age q_ts q_te q_ND q_NDe q_dn q_dne given]. unfold solve at 1.
  destruct (Rlt_dec (1 * 1000) 0); [lra|]. destruct (Rlt_dec (1 * 1000000) 0); [lra|]. destruct (Rlt_dec 1000000 (1 * 1000000 / 1000000000)); [lra|]. cbn [rbind].
  unfold sample_args. cbn [given Bool.eqb andb]. destruct (Rlt_dec 1 0); [lra|]. unfold sample_start, fn_chk, validate_age.
  destruct (Rlt_dec (1 * 1000000 / 1000000000) 0); [lra|]. cbn [rbind fst]. unfold sample_end, validate_csfd. cbn [fst snd]. unfold REF_DIAM.
  destruct (Rlt_dec 1000 0); [lra|]. destruct (Rlt_dec 0 0); [lra|]. cbn [rbind]. destruct (Req_EM_T 1000 1000) as [|XX]; [|now destruct XX]. cbn [rbind].
  unfold validate_age. destruct (Rlt_dec (1 * 1000000 / 1000000000) 0); [lra|]. cbn [rbind]. f_equal. f_equal. lra.
Qed.
Lemma solve_run : run_period many (fun t => t) solve None None 1000 1000000 1 None (run_by_density (1, 1) None None) = Ok (/ 1000000000000000, 0).
Proof.
  unfold run_period, validate_run_args, run_by_density, pick_args. cbn [a_age a_ts a_te a_ND a_NDe a_dn a_dne a_dt a_n given rbind orb fst snd].
  unfold sample_args, sample_start, sample_end, validate_csfd, solve, validate_age. cbn [given Bool.eqb andb fst snd].
  repeat match goal with
  | |- context [Rlt_dec ?a ?b] => first [destruct (Rlt_dec a b); [exfalso; lra|] | destruct (Rlt_dec a b); [|exfalso; lra]]; cbn [rbind fst snd]
  | |- context [Req_EM_T ?a ?b] => destruct (Req_EM_T a b) as [|XX]; [|exfalso; apply XX; lra]; cbn [rbind fst snd]
  end.
  cbn [p_ts p_te]. f_equal. f_equal; lra.
Qed.
Lemma sample_wrong : exists csfd chron age_of ND area t0 t1 s0 s1, finds_ages csfd chron None None age_of /\
  period csfd chron age_of None None 1000 1000000 area (by_density ND None) = Ok (t0, t1) /\
  run_period csfd chron age_of None None 1000 1000000 area None (run_by_density ND None None) = Ok (s0, s1) /\
  means csfd chron 1000 1000000 ND s0 /\ ~ means csfd chron 1000 1000000 ND t0 /\ t0 = s0 * 1000000000000.
Proof.
  exists many, (fun t => t), solve, (1, 1), 1, (/ 1000), 0, (/ 1000000000000000), 0.
  split; [exact solve_ok|]. split; [exact solve_sample|]. split; [exact solve_run|].
  unfold means, density, many. cbn [fst snd]. repeat split; lra.
Qed.
Lemma merged_in t0 t1 l t : In t (merged_times t0 t1 l) <-> In t l /\ t1 < t <= t0.
Proof.
  unfold merged_times. rewrite filter_In. destruct (Rle_dec t t0), (Rlt_dec t1 t); cbn; intuition (try discriminate; lra).
Qed.
Lemma merged_lost : exists t, In t (merged_times (/ 1000000000000000 * 1000000000000) 0 [t]) /\ ~ In t (merged_times (/ 1000000000000000) 0 [t]).
Proof. exists (/ 1000). rewrite !merged_in. cbn. split; [split; [auto|lra]|lra]. Qed.
