(** The points of the local region. *)
From Coq Require Import Reals Lra Lia ZArith.
From Verif Require Import Common Hires_model Hires_spec Hires_sizes.
Open Scope R_scope.

Lemma ceil_IZR z : ceil (IZR z) = z.
Proof. unfold ceil. rewrite <- opp_IZR. destruct (base_Int_part (IZR (- z))) as [A B]. assert (Int_part (IZR (- z)) = - z)%Z; [|lia]. apply le_IZR in A. assert (- z - 1 < Int_part (IZR (- z)))%Z; [apply lt_IZR; rewrite minus_IZR; lra|lia]. Qed.
Lemma coords_n delta n : 0 < delta -> coords (INR n * delta) delta = map (fun i => IZR (Z.of_nat i - Z.of_nat n) * delta) (seq 0 (2 * n + 1)).
Proof.
  intros D. unfold coords. replace ((INR n * delta + delta - - (INR n * delta)) / delta) with (IZR (2 * Z.of_nat n + 1)).
  2: { rewrite plus_IZR, mult_IZR, <- INR_IZR_INZ. field. lra. }
  rewrite ceil_IZR. replace (Z.to_nat (2 * Z.of_nat n + 1)) with (2 * n + 1)%nat by lia. apply map_ext. intros i. rewrite minus_IZR, <- !INR_IZR_INZ. ring.
Qed.
Lemma NoDup_map_inj {A B} (f : A -> B) l : (forall x y, In x l -> In y l -> f x = f y -> x = y) -> NoDup l -> NoDup (map f l).
Proof.
  intros I N. induction N as [|x l Nx N IH]; [constructor|]. cbn. constructor.
  - intros H. apply in_map_iff in H as (y & E & Y). apply Nx. rewrite (I x y (or_introl eq_refl) (or_intror Y) (eq_sym E)). exact Y.
  - apply IH. intros a b Ha Hb. apply I; right; assumption.
Qed.
Lemma NoDup_app' {A} (l m : list A) : NoDup l -> NoDup m -> (forall x, In x l -> In x m -> False) -> NoDup (l ++ m)%list.
Proof.
  intros L M D. induction L as [|x l Nx N IH]; [exact M|]. cbn. constructor.
  - intros H. apply in_app_or in H as [H|H]; [contradiction|]. apply (D x (or_introl eq_refl) H).
  - apply IH. intros y Y. apply D. right. exact Y.
Qed.
Lemma in_product {A B} (l : list A) (m : list B) a b : In (a, b) (List.concat (map (fun a => map (fun b => (a, b)) m) l)) <-> In a l /\ In b m.
Proof.
  rewrite in_concat. split.
  - intros (s & I & J). apply in_map_iff in I as (x & <- & X). apply in_map_iff in J as (y & [= <- <-] & Y). auto.
  - intros [X Y]. exists (map (fun b => (a, b)) m). split; [apply in_map_iff; eauto|apply in_map_iff; eauto].
Qed.
Lemma NoDup_product {A B} (l : list A) (m : list B) : NoDup l -> NoDup m -> NoDup (List.concat (map (fun a => map (fun b => (a, b)) m) l)).
Proof.
  intros L M. induction L as [|x l Nx N IH]; [constructor|]. cbn. apply NoDup_app'.
  - apply NoDup_map_inj; [|exact M]. intros ? ? _ _ [= ?]. assumption.
  - exact IH.
  - intros [a b] H K. apply in_map_iff in H as (y & [= <- <-] & _). apply in_product in K. apply Nx, K.
Qed.
Lemma in_coords delta n x : 0 < delta -> In x (coords (INR n * delta) delta) <-> exists i : Z, (- Z.of_nat n <= i <= Z.of_nat n)%Z /\ x = IZR i * delta.
Proof.
  intros D. rewrite coords_n by exact D. rewrite in_map_iff. split.
  - intros (i & <- & I). apply in_seq in I. exists (Z.of_nat i - Z.of_nat n)%Z. split; [lia|reflexivity].
  - intros (i & I & ->). exists (Z.to_nat (i + Z.of_nat n)). split; [do 2 f_equal; lia|apply in_seq; lia].
Qed.
Lemma NoDup_coords delta n : 0 < delta -> NoDup (coords (INR n * delta) delta).
Proof.
  intros D. rewrite coords_n by exact D. apply NoDup_map_inj; [|apply seq_NoDup]. intros x y _ _ E. apply Rmult_eq_reg_r in E; [|lra]. apply eq_IZR in E. lia.
Qed.
(** One ring of squares. *)
Definition ring_of (delta : R) (n : nat) (p : R * R) : Prop :=
  exists i j : Z, p = (IZR i * delta, IZR j * delta) /\ ((Z.of_nat n - 1) * (Z.of_nat n - 1) <= i * i + j * j < Z.of_nat n * Z.of_nat n)%Z.
Lemma step_n radius pix n : 0 < radius -> 0 < pix -> (1 <= n)%nat -> INR n * pix + pix <= PI * radius -> let '(l, t) := interior_step radius pix (INR n * (pix / radius)) in
  NoDup l /\ (forall p, In p l <-> ring_of (pix / radius) n p) /\ t = INR (S n) * (pix / radius).
Proof.
  intros P X N L. assert (D : 0 < pix / radius) by (apply Rmult_lt_0_compat; [exact X|apply Rinv_0_lt_compat; exact P]). unfold interior_step.
  replace (radius * (INR n * (pix / radius))) with (INR n * pix) by (field; lra). assert (1 <= INR n) by (apply (le_INR 1); lia).
  destruct (Rlt_dec (INR n * pix) pix) as [A|_]; [exfalso; assert (1 * pix <= INR n * pix) by (apply Rmult_le_compat_r; lra); lra|]. destruct (Rlt_dec (PI * radius - INR n * pix) pix); [lra|].
  replace (INR n * pix / radius) with (INR n * (pix / radius)) by (field; lra). replace (INR n * pix / pix) with (INR n) by (field; lra).
  set (delta := pix / radius) in *. split; [apply NoDup_filter, NoDup_product; apply NoDup_coords; exact D|]. split; [|rewrite S_INR; ring].
  intros [a b]. rewrite filter_In, in_product, !in_coords by exact D. cbn [fst snd]. split.
  - intros [[(i & I & ->) (j & J & ->)] M]. exists i, j. split; [reflexivity|]. apply andb_prop in M as [M1 M2].
    replace (IZR j * delta / delta) with (IZR j) in * by (field; lra). replace (IZR i * delta / delta) with (IZR i) in * by (field; lra).
    destruct (Rle_dec _ _) as [Q1|]; [|discriminate]. destruct (Rlt_dec _ _) as [Q2|]; [|discriminate]. rewrite INR_IZR_INZ in Q1, Q2.
    split; [apply le_IZR|apply lt_IZR]; rewrite ?plus_IZR, ?mult_IZR, ?minus_IZR; cbn [pow] in *; lra.
  - intros (i & j & [= -> ->] & Q1 & Q2). split; [split; eexists; (split; [|reflexivity]); nia|].
    replace (IZR j * delta / delta) with (IZR j) in * by (field; lra). replace (IZR i * delta / delta) with (IZR i) in * by (field; lra).
    apply IZR_le in Q1. apply IZR_lt in Q2. rewrite ?plus_IZR, ?mult_IZR, ?minus_IZR in *. rewrite INR_IZR_INZ.
    destruct (Rle_dec _ _) as [_|X1]; [|exfalso; apply X1; cbn [pow]; lra]. destruct (Rlt_dec _ _) as [_|X2]; [reflexivity|]. exfalso; apply X2; cbn [pow]; lra.
Qed.
Lemma reached radius pix n loc : 0 < radius -> 0 < pix -> (INR n * (pix / radius) <= loc / radius <-> INR n * pix <= loc).
Proof.
  intros P X. replace (INR n * (pix / radius)) with (INR n * pix / radius) by (field; lra). split; intros H.
  - apply Rmult_le_reg_r with (/ radius); [apply Rinv_0_lt_compat; exact P|exact H].
  - apply Rmult_le_compat_r; [apply Rlt_le, Rinv_0_lt_compat; exact P|exact H].
Qed.
Lemma interior_n radius pix loc k : 0 < radius -> 0 < pix -> faces_across pix loc k -> loc + pix <= PI * radius -> forall fuel n, (1 <= n <= k + 1)%nat -> (k + 1 - n <= fuel)%nat ->
  exists l, interior fuel radius pix loc (INR n * (pix / radius)) = Some (l, INR (S k) * (pix / radius)) /\ NoDup l /\
    forall p, In p l <-> exists m, (n <= m <= k)%nat /\ ring_of (pix / radius) m p.
Proof.
  intros P X [K1 K2] L. assert (D : 0 < pix / radius) by (apply Rmult_lt_0_compat; [exact X|apply Rinv_0_lt_compat; exact P]).
  assert (G : forall n, INR n * pix <= loc <-> (n <= k)%nat).
  { intros n. split; intros H.
    - apply INR_le. assert (INR n < INR k + 1); [|rewrite <- S_INR in H0; apply INR_lt in H0; apply le_INR; lia]. apply Rmult_lt_reg_r with pix; [exact X|lra].
    - apply Rle_trans with (INR k * pix); [|exact K1]. apply Rmult_le_compat_r; [lra|apply le_INR; exact H]. }
  induction fuel as [|fuel IH]; intros n N F; cbn [interior]; destruct (Rle_dec (INR n * (pix / radius)) (loc / radius)) as [A|A].
  - apply reached in A; [|assumption..]. apply G in A. lia.
  - exists []. replace n with (S k); [|assert (~ (n <= k)%nat) by (intros H; apply A, reached; [assumption..|]; apply G, H); lia]. split; [reflexivity|]. split; [constructor|].
    intros p. split; [intros []|]. intros (m & M & _). lia.
  - apply reached in A; [|assumption..]. pose proof (proj1 (G n) A) as B. pose proof (step_n radius pix n P X (proj1 N) ltac:(lra)) as S0.
    destruct (interior_step radius pix (INR n * (pix / radius))) as [l t]. destruct S0 as (S1 & S2 & ->). destruct (IH (S n) ltac:(lia) ltac:(lia)) as (l' & -> & T1 & T2).
    cbn [option_map fst snd]. eexists. split; [reflexivity|]. split.
    + apply NoDup_app'; [exact S1|exact T1|]. intros p I J. apply S2 in I. apply T2 in J. destruct J as (m & M & (i & j & E & Q)), I as (i' & j' & E' & Q'). rewrite E in E'. injection E' as E1 E2.
      apply Rmult_eq_reg_r in E1, E2; try lra. apply eq_IZR in E1, E2. subst. nia.
    + intros p. rewrite in_app_iff, S2, T2. split.
      * intros [I|(m & M & I)]; [exists n; split; [lia|exact I]|exists m; split; [lia|exact I]].
      * intros (m & M & I). destruct (Nat.eq_dec m n) as [->|]; [left; exact I|right; exists m; split; [lia|exact I]].
  - exists []. replace n with (S k); [|assert (~ (n <= k)%nat) by (intros H; apply A, reached; [assumption..|]; apply G, H); lia]. split; [reflexivity|]. split; [constructor|].
    intros p. split; [intros []|]. intros (m & M & _). lia.
Qed.
Lemma square_ring : forall s : Z, (0 <= s)%Z -> exists n : nat, (1 <= n)%nat /\ ((Z.of_nat n - 1) * (Z.of_nat n - 1) <= s < Z.of_nat n * Z.of_nat n)%Z.
Proof.
  intros s P. pose proof (Z.sqrt_spec s P). pose proof (Z.sqrt_nonneg s). exists (S (Z.to_nat (Z.sqrt s))). split; [lia|]. rewrite Nat2Z.inj_succ, Z2Nat.id by lia. cbn zeta in H. replace (Z.succ (Z.sqrt s) - 1)%Z with (Z.sqrt s) by lia. exact H.
Qed.
Lemma interior_all radius pix loc k : 0 < radius -> 0 < pix -> pix <= loc -> faces_across pix loc k -> loc + pix <= PI * radius -> forall fuel, (k + 1 <= fuel)%nat ->
  exists l, interior fuel radius pix loc 0 = Some (l, INR (S k) * (pix / radius)) /\ NoDup l /\ forall p, In p l <-> lattice (pix / radius) k p.
Proof.
  intros P X O K L fuel F. destruct fuel as [|fuel]; [lia|]. cbn [interior].
  destruct (Rle_dec 0 (loc / radius)) as [_|A]; [|exfalso; apply A, Rmult_le_pos; [lra|apply Rlt_le, Rinv_0_lt_compat; exact P]].
  unfold interior_step at 1. rewrite Rmult_0_r. destruct (Rlt_dec 0 pix); [|lra]. rewrite Rplus_0_l.
  destruct (interior_n radius pix loc k P X K L fuel 1 ltac:(lia) ltac:(lia)) as (l & E & N & I). replace (INR 1 * (pix / radius)) with (pix / radius) in E by (cbn; ring). rewrite E. cbn [option_map fst snd app]. exists l. split; [reflexivity|]. split; [exact N|].
  intros [a b]. rewrite I. unfold lattice, ring_of. cbn [fst snd]. split.
  - intros (m & M & (i & j & [= -> ->] & Q)). exists i, j. repeat split. nia.
  - intros (i & j & -> & -> & Q). destruct (square_ring (i * i + j * j) ltac:(nia)) as (m & M & S). exists m. split; [nia|]. exists i, j. split; [reflexivity|exact S].
Qed.
Lemma faces_exist pix loc : 0 < pix -> 0 <= loc -> exists k, faces_across pix loc k.
Proof.
  intros X L. set (q := loc / pix). assert (Q : 0 <= q) by (apply Rmult_le_pos; [exact L|apply Rlt_le, Rinv_0_lt_compat; exact X]).
  destruct (base_Int_part q) as [A B]. assert (0 <= Int_part q)%Z by (apply Z.lt_succ_r, lt_IZR; rewrite succ_IZR; lra).
  exists (Z.to_nat (Int_part q)). unfold faces_across. rewrite INR_IZR_INZ, Z2Nat.id by assumption. assert (E : loc = q * pix) by (unfold q; field; lra). rewrite E.
  split; [apply Rmult_le_compat_r; lra|]. apply Rmult_lt_compat_r; lra.
Qed.
