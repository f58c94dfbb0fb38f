From Coq Require Import Reals List Lra Lia.
From Verif Require Import Common Trig_model RSum Geo_proofs Fit_model Fit_spec.
Import ListNotations.
Open Scope R_scope.

Lemma weight_posw p : posw (snd p) = weight p.
Proof. unfold posw, weight. destruct (snd p) as [v |]; [| reflexivity]. unfold Rmax. destruct (Rlt_dec 0 v), (Rle_dec v 0); lra. Qed.
Lemma weight_sqrtw p : sqrtw (snd p) * sqrtw (snd p) = weight p.
Proof.
  unfold sqrtw, weight. destruct (snd p) as [v |]; [| ring]. unfold Rmax. destruct (Rlt_dec 0 v), (Rle_dec v 0); try lra; apply sqrt_sqrt; lra.
Qed.
Lemma weight_nonneg p : 0 <= weight p.
Proof. unfold weight. destruct (snd p); [apply Rmax_r | lra]. Qed.

Lemma total_ext f g pts : (forall p, In p pts -> counts p -> f p = g p) -> total f pts = total g pts.
Proof.
  intros H. unfold total. apply lsum_ext. intros p Hp. destruct (Rlt_dec 0 (weight p)) as [C | C].
  - rewrite (H p Hp C). reflexivity.
  - pose proof (weight_nonneg p). assert (weight p = 0) as -> by lra. ring.
Qed.
Lemma total_plus f g pts : total (fun p => f p + g p) pts = total f pts + total g pts.
Proof. unfold total. induction pts as [| p l IH]; [cbn; ring |]. rewrite !lsum_cons, IH. ring. Qed.
Lemma total_scal k f pts : total (fun p => k * f p) pts = k * total f pts.
Proof. unfold total. induction pts as [| p l IH]; [cbn; ring |]. rewrite !lsum_cons, IH. ring. Qed.
Lemma total_nonneg f pts : (forall p, In p pts -> 0 <= f p) -> 0 <= total f pts.
Proof.
  unfold total. induction pts as [| p l IH]; intros H; [cbn; lra |]. rewrite lsum_cons.
  pose proof (weight_nonneg p). pose proof (H p (or_introl eq_refl)). specialize (IH (fun q Hq => H q (or_intror Hq))). nra.
Qed.
Lemma total_le f g pts : (forall p, In p pts -> f p <= g p) -> total f pts <= total g pts.
Proof.
  intros H. assert (X : 0 <= total (fun p => g p + -1 * f p) pts) by (apply total_nonneg; intros p Hp; specialize (H p Hp); lra).
  rewrite (total_plus g (fun p => -1 * f p)), (total_scal (-1) f) in X. lra.
Qed.
Lemma total_zero f pts : (forall p, In p pts -> 0 <= f p) -> total f pts = 0 -> forall p, In p pts -> counts p -> f p = 0.
Proof.
  unfold total. induction pts as [| q l IH]; intros H E p Hp C; [destruct Hp |]. rewrite lsum_cons in E.
  pose proof (weight_nonneg q). pose proof (H q (or_introl eq_refl)).
  assert (N : 0 <= lsum (fun p => weight p * f p) l) by (apply (total_nonneg f l); intros r Hr; apply H; right; exact Hr).
  assert (0 <= weight q * f q) by nra. destruct Hp as [-> | Hp].
  - unfold counts in C. assert (weight p * f p = 0) as X by lra. apply Rmult_integral in X. destruct X; lra.
  - apply IH; auto; [intros r Hr; apply H; right; exact Hr | lra].
Qed.
Lemma gram_total f g pts : gram f g pts = total (fun p => f p * g p) pts.
Proof. unfold gram, total. apply lsum_ext. intros p _. rewrite <- (weight_sqrtw p). ring. Qed.
Lemma total_counts pts : 0 < total (fun _ => 1) pts <-> exists p, In p pts /\ counts p.
Proof.
  split.
  - unfold total. induction pts as [| q l IH]; [cbn; lra |]. rewrite lsum_cons. intros H.
    destruct (Rlt_dec 0 (weight q)) as [C | C]; [exists q; split; [left; reflexivity | exact C] |].
    destruct IH as (p & Hp & Cp); [pose proof (weight_nonneg q); lra |]. exists p. split; [right; exact Hp | exact Cp].
  - intros (p & Hp & C). pose proof (total_nonneg (fun _ => 1) pts ltac:(intros; lra)) as N.
    destruct N as [N | N]; [exact N |]. exfalso. pose proof (total_zero (fun _ => 1) pts ltac:(intros; lra) (eq_sym N) p Hp C). cbn in H. lra.
Qed.

(* ---------------------------- fixed centre ---------------------------- *)
Lemma dist_sqd x0 y0 p : dist x0 y0 p = sqrt (sqd x0 y0 p).
Proof. unfold dist, sqd. f_equal. ring. Qed.
Lemma lsum_total f pts : lsum (fun p => f p * posw (snd p)) pts = total f pts.
Proof. unfold total. apply lsum_ext. intros p _. rewrite weight_posw. ring. Qed.
Lemma wsum_total pts : lsum (fun p => posw (snd p)) pts = total (fun _ => 1) pts.
Proof. unfold total. apply lsum_ext. intros p _. rewrite weight_posw. ring. Qed.
Lemma fixed_total pts x0 y0 : (exists r w, fit_circle_fixed pts x0 y0 = Ok (r, w)) <-> exists p, In p pts /\ counts p.
Proof.
  rewrite <- total_counts. unfold fit_circle_fixed. rewrite wsum_total. pose proof (total_nonneg (fun _ => 1) pts ltac:(intros; lra)) as N.
  destruct (Req_EM_T (total (fun _ => 1) pts) 0) as [E | E]; split.
  - intros (r & w & X). discriminate X.
  - intros; lra.
  - intros _. lra.
  - intros _. eexists _, _. reflexivity.
Qed.
Lemma total_const k pts : total (fun _ => k) pts = k * total (fun _ => 1) pts.
Proof. rewrite <- total_scal. apply total_ext. intros; ring. Qed.
Lemma fixed_best pts x0 y0 r w : fit_circle_fixed pts x0 y0 = Ok (r, w) ->
  r * total (fun _ => 1) pts = total (fun p => sqrt (sqd x0 y0 p)) pts /\
  (forall r', radial_misfit pts x0 y0 r <= radial_misfit pts x0 y0 r') /\
  w ^ 2 * total (fun _ => 1) pts = radial_misfit pts x0 y0 r /\ 0 <= w /\
  (exists p, In p pts /\ counts p /\ sqrt (sqd x0 y0 p) <= r) /\ (exists p, In p pts /\ counts p /\ r <= sqrt (sqd x0 y0 p)).
Proof.
  intros E. unfold fit_circle_fixed in E. rewrite wsum_total in E. set (W := total (fun _ => 1) pts) in *.
  destruct (Req_EM_T W 0) as [Z | Z]; [discriminate E |].
  assert (PW : 0 < W) by (pose proof (total_nonneg (fun _ => 1) pts ltac:(intros; lra)); fold W in H; lra).
  assert (Er : r = total (fun p => sqrt (sqd x0 y0 p)) pts / W).
  { assert (X : lsum (fun p => dist x0 y0 p * posw (snd p)) pts = total (fun p => sqrt (sqd x0 y0 p)) pts).
    { rewrite (lsum_total (fun p => dist x0 y0 p)). apply total_ext. intros. apply dist_sqd. }
    rewrite X in E. congruence. }
  assert (Ew : w = sqrt (radial_misfit pts x0 y0 r / W)).
  { injection E as Hr Hw. rewrite Hr in Hw. rewrite <- Hw. f_equal. f_equal.
    rewrite (lsum_total (fun p => (dist x0 y0 p - r) * (dist x0 y0 p - r))). apply total_ext. intros. rewrite dist_sqd. ring. }
  clear E. set (D := total (fun p => sqrt (sqd x0 y0 p)) pts) in *.
  assert (RW : r * W = D) by (rewrite Er; field; lra).
  assert (Mis : forall s, radial_misfit pts x0 y0 s = total (fun p => sqrt (sqd x0 y0 p) ^ 2) pts - 2 * s * D + s ^ 2 * W).
  { intros s. unfold radial_misfit. rewrite (total_ext _ (fun p => sqrt (sqd x0 y0 p) ^ 2 + (-2 * s * sqrt (sqd x0 y0 p) + s ^ 2)));
      [| intros; ring]. rewrite (total_plus (fun p => sqrt (sqd x0 y0 p) ^ 2) (fun p => -2 * s * sqrt (sqd x0 y0 p) + s ^ 2)).
    rewrite (total_plus (fun p => -2 * s * sqrt (sqd x0 y0 p)) (fun _ => s ^ 2)), (total_scal (-2 * s) (fun p => sqrt (sqd x0 y0 p))), (total_const (s ^ 2)).
    unfold D, W. ring. }
  split; [exact RW |]. split.
  { intros s. rewrite !Mis, <- RW. assert (0 <= (s - r) * (s - r) * W) by (apply Rmult_le_pos; [apply Rle_0_sqr | lra]). lra. }
  assert (MN : 0 <= radial_misfit pts x0 y0 r) by (apply total_nonneg; intros; apply pow2_ge_0).
  split. { rewrite Ew. cbn [pow]. rewrite Rmult_1_r, sqrt_sqrt; [field; lra |]. apply Rmult_le_pos; [exact MN | left; apply Rinv_0_lt_compat; exact PW]. }
  split; [rewrite Ew; apply sqrt_pos |].
  assert (NZ : total (fun p => sqrt (sqd x0 y0 p) + - r) pts = 0).
  { rewrite (total_plus (fun p => sqrt (sqd x0 y0 p)) (fun _ => - r)), (total_const (- r)). fold D W. lra. }
  assert (EX : forall f, total f pts = 0 -> exists p, In p pts /\ counts p /\ f p <= 0).
  { intros f. fold W in PW. unfold W in PW. clear - PW. unfold total in *. induction pts as [| q l IH]; [cbn in PW; lra |]. rewrite !lsum_cons in *. intros F.
    destruct (Rlt_dec 0 (weight q)) as [C | C].
    - destruct (Rle_dec (f q) 0) as [L | L]; [exists q; split; [left; reflexivity | split; assumption] |].
      destruct (Rlt_dec 0 (lsum (fun p => weight p * 1) l)) as [PL | PL].
      + assert (N : lsum (fun p => weight p * f p) l < 0) by nra.
        clear IH. assert (G : exists p, In p l /\ counts p /\ f p <= 0).
        { clear - N. induction l as [| r l IH]; [cbn in N; lra |]. rewrite lsum_cons in N.
          destruct (Rlt_dec (lsum (fun p => weight p * f p) l) 0) as [X | X].
          - destruct (IH X) as (p & A & B). exists p. split; [right; exact A | exact B].
          - assert (Y : weight r * f r < 0) by lra. pose proof (weight_nonneg r) as Wr. exists r. split; [left; reflexivity |].
            split; [unfold counts; destruct Wr as [Wr | Wr]; [exact Wr | rewrite <- Wr in Y; lra] |]. nra. }
        destruct G as (p & A & B). exists p. split; [right; exact A | exact B].
      + exfalso. assert (N : lsum (fun p => weight p * f p) l = 0).
        { fold (total f l). pose proof (total_nonneg (fun _ => 1) l ltac:(intros; lra)) as T1. unfold total in T1.
          assert (T0 : total (fun _ => 1) l = 0) by (unfold total; lra).
          rewrite (total_ext f (fun _ => 0)); [unfold total; clear; induction l; [reflexivity | rewrite lsum_cons, IHl; ring] |].
          intros p Hp Cp. exfalso. pose proof (total_zero (fun _ => 1) l ltac:(intros; lra) T0 p Hp Cp) as X. cbn in X. lra. }
        rewrite N in F. nra.
    - pose proof (weight_nonneg q) as Wq. assert (Z : weight q = 0) by lra. rewrite Z in *. destruct IH as (p & A & B); [lra | lra |].
      exists p. split; [right; exact A | exact B]. }
  split.
  - destruct (EX _ NZ) as (p & A & C & L). exists p. split; [exact A |]. split; [exact C | lra].
  - assert (NZ' : total (fun p => -1 * (sqrt (sqd x0 y0 p) + - r)) pts = 0) by (rewrite (total_scal (-1) (fun p => sqrt (sqd x0 y0 p) + - r)), NZ; ring).
    destruct (EX _ NZ') as (p & A & C & L). exists p. split; [exact A |]. split; [exact C | lra].
Qed.
