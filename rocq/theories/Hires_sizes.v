(** Face sizes of a high resolution local surface. *)
From Coq Require Import Reals Lra Lia.
From Verif Require Import Common Hires_model Hires_spec.
Open Scope R_scope.

Lemma make_ok radius pix loc f h : make radius pix loc f = Ok h ->
  h = mk_h radius pix loc (Some f) None None /\ 0 < pix /\ pix <= loc <= PI * radius /\ 1 <= f.
Proof.
  unfold make, set_pix, set_local, set_factor, rbind. cbn. destruct (Rle_dec pix 0); [discriminate|]. cbn. destruct (Rle_dec loc 0); [discriminate|].
  destruct (Rlt_dec (PI * radius) loc); [discriminate|]. destruct (Rlt_dec loc pix); [discriminate|]. cbn. destruct (Rlt_dec f 1); [discriminate|].
  intros [= <-]. repeat split; lra.
Qed.
Lemma make_intro radius pix loc f : 0 < pix -> pix <= loc -> loc <= PI * radius -> 1 <= f -> make radius pix loc f = Ok (mk_h radius pix loc (Some f) None None).
Proof.
  intros. unfold make, set_pix, set_local, set_factor, rbind. cbn. destruct (Rle_dec pix 0); [lra|]. cbn. destruct (Rle_dec loc 0); [lra|].
  destruct (Rlt_dec (PI * radius) loc); [lra|]. destruct (Rlt_dec loc pix); [lra|]. cbn. destruct (Rlt_dec f 1); [lra|]. reflexivity.
Qed.
(** The linear size function. *)
Definition lin (radius pix loc f r : R) : R := if Rlt_dec r loc then pix else pix + pix * (f - 1) / (PI * radius - 2 * loc) * (r - loc).
Lemma ppow_1 x : 0 <= x -> ppow x 1 = x.
Proof. intros H. unfold ppow. destruct (Rle_dec x 0); [lra|]. apply Rpower_1. lra. Qed.
Lemma size_lin radius pix loc f v e r : PI * radius - 2 * loc <> 0 -> v = pix * (f - 1) / (PI * radius - 2 * loc) -> e = 1 ->
  forall x y z, size_of (mk_h radius pix loc x y z) v e r = lin radius pix loc f r.
Proof. intros N -> -> x y z. unfold size_of, lin. cbn. destruct (Rlt_dec r loc); [reflexivity|]. rewrite ppow_1 by lra. reflexivity. Qed.
Lemma slope_fresh radius pix loc f : PI * radius - 2 * loc <> 0 ->
  slope (mk_h radius pix loc (Some f) None None) = Ok (pix * (f - 1) / (PI * radius - 2 * loc), mk_h radius pix loc (Some f) (Some (pix * (f - 1) / (PI * radius - 2 * loc))) None).
Proof.
  intros N. unfold slope. cbn. destruct (Req_EM_T (PI * radius - loc - loc) 0) as [E|E]; [exfalso; apply N; lra|].
  replace ((pix * f - pix) / (PI * radius - loc - loc)) with (pix * (f - 1) / (PI * radius - 2 * loc)); [reflexivity|].
  replace (PI * radius - loc - loc) with (PI * radius - 2 * loc) by ring. unfold Rdiv. ring.
Qed.
Lemma sizes_fresh radius pix loc f r x : PI * radius - 2 * loc <> 0 -> has_size (mk_h radius pix loc (Some f) None None) r x <-> x = lin radius pix loc f r.
Proof.
  intros N. unfold has_size, superdomain_function. rewrite slope_fresh by exact N. unfold exponent. cbn [h_exp h_radius h_pix h_local h_factor h_slope].
  rewrite (size_lin radius pix loc f) by (try exact N; reflexivity). split; [intros (h' & [= <- _]); reflexivity|]. intros ->. eexists. reflexivity.
Qed.
Lemma lin_ge radius pix loc f r : 0 < pix -> 1 <= f -> 0 < PI * radius - 2 * loc -> pix <= lin radius pix loc f r.
Proof.
  intros P F D. unfold lin. destruct (Rlt_dec r loc); [lra|]. assert (0 <= pix * (f - 1) / (PI * radius - 2 * loc)).
  { apply Rmult_le_pos; [apply Rmult_le_pos; lra|]. apply Rlt_le, Rinv_0_lt_compat. exact D. }
  assert (0 <= pix * (f - 1) / (PI * radius - 2 * loc) * (r - loc)) by (apply Rmult_le_pos; lra). lra.
Qed.
Lemma lin_mono radius pix loc f r1 r2 : 0 < pix -> 1 <= f -> 0 < PI * radius - 2 * loc -> r1 <= r2 -> lin radius pix loc f r1 <= lin radius pix loc f r2.
Proof.
  intros P F D L. destruct (Rlt_dec r1 loc) as [A|A]; [replace (lin radius pix loc f r1) with pix; [apply lin_ge; assumption|unfold lin; destruct (Rlt_dec r1 loc); [reflexivity|lra]]|].
  unfold lin. destruct (Rlt_dec r1 loc); [lra|]. destruct (Rlt_dec r2 loc); [lra|]. assert (0 <= pix * (f - 1) / (PI * radius - 2 * loc)).
  { apply Rmult_le_pos; [apply Rmult_le_pos; lra|]. apply Rlt_le, Rinv_0_lt_compat. exact D. }
  apply Rplus_le_compat_l, Rmult_le_compat_l; lra.
Qed.
Lemma sizes radius pix loc f h : 0 < radius -> make radius pix loc f = Ok h -> 2 * loc < PI * radius ->
  (forall r, r <= loc -> has_size h r pix) /\ (forall r1 r2 x1 x2, r1 <= r2 -> has_size h r1 x1 -> has_size h r2 x2 -> pix <= x1 <= x2) /\ has_size h (PI * radius - loc) (pix * f) /\ forall r, exists x, has_size h r x.
Proof.
  intros P M D. apply make_ok in M as (-> & A & B & C). assert (N : PI * radius - 2 * loc <> 0) by lra. repeat split.
  - intros r L. apply sizes_fresh; [exact N|]. unfold lin. destruct (Rlt_dec r loc); [reflexivity|]. replace (r - loc) with 0 by lra. ring.
  - apply sizes_fresh in H0; [|exact N]. subst. apply lin_ge; lra.
  - apply sizes_fresh in H0, H1; try exact N. subst. apply lin_mono; lra.
  - apply sizes_fresh; [exact N|]. unfold lin. destruct (Rlt_dec (PI * radius - loc) loc); [lra|]. field. lra.
  - intros r. eexists. apply sizes_fresh; [exact N|reflexivity].
Qed.
Lemma antipode radius pix loc f h : 0 < radius -> make radius pix loc f = Ok h -> 2 * loc < PI * radius -> 1 < f ->
  exists x, has_size h (PI * radius) x /\ pix * f < x.
Proof.
  intros P M D F. apply make_ok in M as (-> & A & B & C). assert (N : PI * radius - 2 * loc <> 0) by lra. eexists. split; [apply sizes_fresh; [exact N|reflexivity]|].
  unfold lin. destruct (Rlt_dec (PI * radius) loc); [lra|].
  assert (E : pix + pix * (f - 1) / (PI * radius - 2 * loc) * (PI * radius - loc) = pix * f + pix * (f - 1) * loc / (PI * radius - 2 * loc)) by (field; lra). rewrite E.
  assert (0 < pix * (f - 1) * loc / (PI * radius - 2 * loc)); [|lra]. apply Rmult_lt_0_compat; [|apply Rinv_0_lt_compat; lra]. apply Rmult_lt_0_compat; [apply Rmult_lt_0_compat; lra|lra].
Qed.
Lemma wide radius pix loc f h : 0 < radius -> make radius pix loc f = Ok h -> PI * radius < 2 * loc -> 1 < f ->
  forall r, loc < r -> exists x, has_size h r x /\ x < pix.
Proof.
  intros P M D F r L. apply make_ok in M as (-> & A & B & C). assert (N : PI * radius - 2 * loc <> 0) by lra. eexists. split; [apply sizes_fresh; [exact N|reflexivity]|].
  unfold lin. destruct (Rlt_dec r loc); [lra|]. replace (pix * (f - 1) / (PI * radius - 2 * loc) * (r - loc)) with (- (pix * (f - 1) / (2 * loc - PI * radius) * (r - loc))) by (field; lra).
  assert (0 < pix * (f - 1) / (2 * loc - PI * radius) * (r - loc)); [|lra]. apply Rmult_lt_0_compat; [|lra]. apply Rmult_lt_0_compat; [apply Rmult_lt_0_compat; lra|apply Rinv_0_lt_compat; lra].
Qed.
Lemma half radius pix loc f h r : make radius pix loc f = Ok h -> 2 * loc = PI * radius -> superdomain_function r h = Err ZeroDivisionError.
Proof.
  intros M D. apply make_ok in M as (-> & _). unfold superdomain_function, slope. cbn. destruct (Req_EM_T _ 0); [reflexivity|lra].
Qed.
(** Once the function has been evaluated, a new factor is accepted but has no effect. *)
Lemma stale r0 h x0 h' f h2 : superdomain_function r0 h = Ok (x0, h') -> set_factor f h' = Ok h2 ->
  h_factor h2 = Some f /\ forall r x, has_size h2 r x <-> has_size h r x.
Proof.
  unfold superdomain_function at 1. destruct (slope h) as [[v h1]|] eqn:E; [|discriminate]. destruct (exponent h1) as [e h3] eqn:X. intros [= _ <-] F.
  unfold set_factor in F. destruct (Rlt_dec f 1); [discriminate|]. injection F as <-. split; [reflexivity|].
  assert (S1 : h_slope h1 = Some v /\ h_pix h1 = h_pix h /\ h_local h1 = h_local h).
  { unfold slope in E. destruct (h_slope h) eqn:Y; [injection E as <- <-; auto|]. destruct (h_factor h); [|discriminate]. destruct (Req_EM_T _ 0); [discriminate|]. injection E as <- <-. cbn. auto. }
  assert (S3 : h_exp h3 = Some e /\ h_slope h3 = h_slope h1 /\ h_pix h3 = h_pix h1 /\ h_local h3 = h_local h1).
  { unfold exponent in X. destruct (h_exp h1) eqn:Y; injection X as <- <-; cbn; auto. }
  destruct S1 as (A1 & A2 & A3), S3 as (B1 & B2 & B3 & B4). intros r x. unfold has_size, superdomain_function. rewrite E, X.
  unfold slope, exponent. cbn [h_slope h_exp h_pix h_local]. rewrite B2, A1. cbn [h_slope h_exp h_pix h_local]. rewrite B1. unfold size_of. cbn [h_pix h_local].
  split; intros (k & [= <- _]); eexists; reflexivity.
Qed.
(* ------------------------------ automatic sizes ------------------------------ *)
Section Auto.
Context (rmax : R -> R) (fit : list (R * R) -> option (R * R)).
Lemma candidates_ge lo radius d : 0 < lo -> lo <= radius * 2 -> In d (candidates lo radius) -> lo <= d <= radius * 2.
Proof.
  intros P L I. unfold candidates in I. apply in_map_iff in I as (i & <- & J). apply in_seq in J. set (q := radius * 2 / lo).
  assert (Q : 1 <= q) by (unfold q; apply Rmult_le_reg_r with lo; [exact P|]; unfold Rdiv; rewrite Rmult_assoc, Rinv_l by lra; lra).
  assert (A : 0 <= INR i / 999 <= 1).
  { assert (INR i <= 999) by (replace 999 with (INR 999) by (rewrite INR_IZR_INZ; reflexivity); apply le_INR; lia). pose proof (pos_INR i). split; [apply Rmult_le_pos; lra|]. apply Rmult_le_reg_r with 999; [lra|]. unfold Rdiv. rewrite Rmult_assoc, Rinv_l by lra. lra. }
  assert (B : Rpower q 0 <= Rpower q (INR i / 999) <= Rpower q 1).
  { unfold Rpower. assert (0 <= ln q) by (destruct (Req_dec q 1) as [->|]; [rewrite ln_1; lra|]; rewrite <- ln_1; apply Rlt_le, ln_increasing; lra).
    split; match goal with |- exp ?a <= exp ?b => destruct (Req_dec a b) as [->|]; [lra|]; apply Rlt_le, exp_increasing end; match goal with |- ?a < ?b => assert (a <= b); [apply Rmult_le_compat_r; lra|lra] end. }
  rewrite Rpower_O, Rpower_1 in B by lra. split.
  - rewrite <- (Rmult_1_r lo) at 1. apply Rmult_le_compat_l; lra.
  - apply Rle_trans with (lo * q); [apply Rmult_le_compat_l; lra|]. unfold q. right. field. lra.
Qed.
Lemma first_spec distance lo radius : 0 < lo -> lo <= radius * 2 -> let d := first_reaching rmax distance lo radius in
  lo <= d <= radius * 2 /\
  ((exists l1 l2, candidates lo radius = (l1 ++ d :: l2)%list /\ distance <= rmax d /\ forall c, In c l1 -> rmax c < distance) \/
   (d = lo /\ forall c, In c (candidates lo radius) -> rmax c < distance)).
Proof.
  intros P L. cbn zeta. unfold first_reaching.
  assert (G : forall l, match find (fun d => if Rle_dec distance (rmax d) then true else false) l with
    | Some d => exists l1 l2, l = (l1 ++ d :: l2)%list /\ distance <= rmax d /\ forall c, In c l1 -> rmax c < distance
    | None => forall c, In c l -> rmax c < distance end).
  { induction l as [|x l IH]; cbn; [intros _ []|]. destruct (Rle_dec distance (rmax x)) as [A|A]; [exists [], l; repeat split; [exact A|intros _ []]|].
    destruct (find _ l) as [d|]; [destruct IH as (l1 & l2 & -> & B & C); exists (x :: l1), l2; repeat split; [exact B|]|]; intros c [<-|I]; try lra; auto. }
  specialize (G (candidates lo radius)). destruct (find _ (candidates lo radius)) as [d|]; [|split; [lra|right; auto]].
  split; [|left; exact G]. destruct G as (l1 & l2 & E & _). apply candidates_ge; [exact P|exact L|]. rewrite E. apply in_elt.
Qed.
Lemma auto_ends radius n : forall distance size, 0.1 <= size -> size <= radius * 2 -> PI * radius - distance <= INR n * 0.1 ->
  exists l, auto_sizes rmax n radius distance size = Some l.
Proof.
  induction n as [|n IH]; intros distance size A B C.
  - cbn. destruct (Rlt_dec distance (PI * radius)); [cbn in C; lra|]. eexists. reflexivity.
  - cbn [auto_sizes]. destruct (Rlt_dec distance (PI * radius)); [|eexists; reflexivity].
    destruct (first_spec distance size radius ltac:(lra) B) as [F _]. rewrite S_INR in C.
    destruct (IH (distance + first_reaching rmax distance size radius) (first_reaching rmax distance size radius)) as [l ->]; [lra|lra|lra|]. eexists. reflexivity.
Qed.
Lemma auto_spec radius n : forall distance size l, 0 < size -> size <= radius * 2 -> auto_sizes rmax n radius distance size = Some l ->
  forall l1 d s l2, l = (l1 ++ (d, s) :: l2)%list -> let p := last (map snd l1) size in
  d < PI * radius /\ p <= s <= radius * 2 /\
  ((exists c1 c2, candidates p radius = (c1 ++ s :: c2)%list /\ d <= rmax s /\ forall c, In c c1 -> rmax c < d) \/ (s = p /\ forall c, In c (candidates p radius) -> rmax c < d)).
Proof.
  induction n as [|n IH]; intros distance size l A B; cbn [auto_sizes]; destruct (Rlt_dec distance (PI * radius)) as [L|L]; try discriminate; try (intros [= <-] [|? ?] ? ? ? [=]).
  destruct (first_spec distance size radius A B) as [F G]. set (f := first_reaching rmax distance size radius) in *.
  destruct (auto_sizes rmax n radius (distance + f) f) as [r|] eqn:E; [|discriminate]. cbn [option_map]. intros [= <-] l1 d s l2 X. destruct l1 as [|q l1]; cbn [app] in X.
  - injection X as <- <- <-. cbn [map last]. split; [exact L|]. split; [exact F|exact G].
  - injection X as <- X. cbn zeta. pose proof (IH (distance + f) f r ltac:(lra) ltac:(lra) E l1 d s l2 X) as H. cbn zeta in H. 
    replace (last (map snd ((distance, f) :: l1)) size) with (last (map snd l1) f); [exact H|].
    cbn [map snd]. destruct (map snd l1) as [|y t] eqn:Y; [reflexivity|]. cbn [last]. clear. revert y. induction t as [|z t IH]; intros y; cbn; [reflexivity|apply (IH z)].
Qed.
Lemma auto_factor fuel h h' a b l : auto_sizes rmax fuel (h_radius h) 1 (1 * 0.1) = Some l -> fit l = Some (a, b) -> set_superdomain rmax fit fuel h = Some h' ->
  h_factor h' = Some (size_of h a b (PI * h_radius h)) /\ has_size h' (PI * h_radius h) (size_of h a b (PI * h_radius h)).
Proof.
  intros A F. unfold set_superdomain. rewrite A, F. intros [= <-]. split; [reflexivity|]. unfold has_size, superdomain_function, slope, exponent. cbn. eexists. reflexivity.
Qed.
End Auto.
