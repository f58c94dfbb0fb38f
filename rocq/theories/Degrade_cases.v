(** Particular histories of degradation. *)
From Coq Require Import Reals Lra Lia.
From Verif Require Import Common RSum Degrade_model Degrade_spec Degrade_func Degrade_proofs.
Open Scope R_scope.

Definition w_quad (f : R -> R) (a b : R) : R := f (Rmax a 1) * (b - a).
Definition w_number (d t v : R) : R := t - v.
Lemma w_integral : integral w_quad.
Proof.
  split.
  - intros f g h a b H. unfold w_quad. rewrite (H (Rmax a 1)) by apply Rmax_l. ring.
  - intros f a b c H A B. unfold w_quad. pose proof (H (Rmax a 1) (Rmax_l a 1)) as F. split; [apply Rmult_le_pos; lra|]. apply Rmult_le_compat_l; lra.
Qed.
Lemma w_produces : produces w_number.
Proof. split; intros; unfold w_number; lra. Qed.
Definition w_amount : R := amount w_quad w_number 2 1 1.
Lemma w_amount_pos : 0 < w_amount.
Proof.
  unfold w_amount, amount, w_quad, subpixel, w_number. rewrite Rmax_right by lra. pose proof (deg_pos 1 100 ltac:(lra)). pose proof PI_RGT_0.
  apply Rmult_lt_0_compat; [|lra]. apply Rmult_lt_0_compat; [lra|]. apply Rmult_lt_0_compat; [|lra]. apply Rmult_lt_0_compat; lra.
Qed.
(** One face, with room for the amount; and two such faces. *)
Definition w_surf : surf := mk_surf [1 + w_amount] [([0%nat], 1)].
Definition w_surf2 : surf := mk_surf [1 + w_amount; 1 + w_amount] [([0%nat; 1%nat], 1)].
Lemma w_mesh : mesh_ok w_surf.
Proof.
  pose proof w_amount_pos. split; [discriminate|]. split; [intros a [<-|[]]; lra|]. split; [intros idx d i [[= <- <-]|[]] [<-|[]]; cbn; lia|].
  split; [intros idx d [[= <- <-]|[]]; lra|]. intros i Li. assert (i = 0%nat) as -> by (cbn in Li; lia). exists [], [0%nat], 1, []. split; [reflexivity|]. split; [left; reflexivity|intros ? ? []].
Qed.
Lemma w_bin : bin_size w_surf 0 1.
Proof. exists [0%nat]. split; left; reflexivity. Qed.
Lemma w_one v : run w_quad w_number v [Compute 2 1] (fresh w_surf) = mk_d w_surf (Some [0 + w_amount]) [].
Proof.
  pose proof w_amount_pos. unfold run. cbn [fold_left step]. unfold compute. destruct (Rle_dec 2 1); [lra|].
  assert (A : add_bins w_quad w_number 2 1 (s_bins (d_surf (fresh w_surf))) (match d_kdiff (fresh w_surf) with Some k => k | None => zeros (d_surf (fresh w_surf)) end) = ([0 + w_amount], None)) by reflexivity.
  rewrite A. change (s_area (d_surf (fresh w_surf))) with [1 + w_amount]. cbn [List.length Nat.eqb negb].
  assert (E : exceeds [0 + w_amount] [1 + w_amount] = false).
  { unfold exceeds. cbn [combine existsb fst snd]. destruct (Rlt_dec 1 ((0 + w_amount) / (1 + w_amount))) as [X|]; [|reflexivity].
    assert ((0 + w_amount) / (1 + w_amount) < 1); [|lra]. apply div_lt; lra. }
  rewrite E. reflexivity.
Qed.
Lemma w_reset v : v <= w_amount -> applied (run w_quad w_number v [Compute 2 1; Reset; Apply] (fresh w_surf)) 0 = w_amount /\
  applied (run w_quad w_number v [Reset; Apply] (fresh w_surf)) 0 = 0.
Proof.
  intros L. pose proof w_amount_pos. split.
  - change [Compute 2 1; Reset; Apply] with ([Compute 2 1] ++ [Reset; Apply])%list. unfold run. rewrite fold_left_app. fold (run w_quad w_number v [Compute 2 1] (fresh w_surf)). rewrite w_one.
    cbn [fold_left step fst reset d_surf d_kdiff]. unfold apply. cbn [d_kdiff]. unfold diffuse. cbn [List.length d_surf w_surf s_area Nat.eqb negb existsb].
    destruct (Rlt_dec (0 + w_amount) 0); [lra|]. cbn [orb max_list]. destruct (Rlt_dec (Rabs (0 + w_amount)) v) as [X|]; [rewrite Rabs_right in X by lra; lra|].
    unfold applied. cbn [fst d_diffused]. rewrite lsum_cons. unfold lsum. cbn. lra.
  - reflexivity.
Qed.
(** A pending amount for a mesh of another size. *)
Definition stuck (s : dstate) : Prop := exists k, d_kdiff s = Some k /\ List.length k <> List.length (s_area (d_surf s)).
Lemma add_bins_length quad number t v bins : forall k, List.length (fst (add_bins quad number t v bins k)) = List.length k.
Proof.
  induction bins as [|[idx d] r IH]; intros k; cbn [add_bins]; [reflexivity|]. unfold add_to_bin. destruct (forallb _ idx); [|reflexivity]. rewrite IH. apply mapi_length.
Qed.
Lemma stuck_step quad number vsmall o s : stuck s -> match o with Compute _ _ | Apply => True | _ => False end ->
  snd (step quad number vsmall o s) <> None /\ stuck (fst (step quad number vsmall o s)) /\ d_diffused (fst (step quad number vsmall o s)) = d_diffused s.
Proof.
  intros (k & K & N) O. destruct o as [a b| | |]; try contradiction; cbn [step].
  - unfold compute. destruct (Rle_dec a b) as [L|L]; [cbn; repeat split; [discriminate|exists k; split; assumption]|]. rewrite K.
    destruct (add_bins quad number a b (s_bins (d_surf s)) k) as [k' e] eqn:E. assert (Lk : List.length k' = List.length k) by (rewrite <- (add_bins_length quad number a b (s_bins (d_surf s)) k), E; reflexivity).
    assert (S' : stuck (mk_d (d_surf s) (Some k') (d_diffused s))) by (exists k'; cbn; split; [reflexivity|congruence]).
    destruct e as [e|]; [cbn [fst snd]; split; [discriminate|]; split; [exact S'|reflexivity]|].
    destruct (Nat.eqb (List.length k') _) eqn:X; cbn [negb]; [exfalso; apply Nat.eqb_eq in X; congruence|]. cbn [fst snd]; split; [discriminate|]; split; [exact S'|reflexivity].
  - unfold apply. rewrite K. unfold diffuse. destruct (Nat.eqb (List.length k) _) eqn:X; cbn [negb]; [exfalso; apply Nat.eqb_eq in X; congruence|].
    cbn [fst snd]. split; [discriminate|]. split; [exists k; split; assumption|reflexivity].
Qed.
Lemma stuck_run quad number vsmall l : only_degrades l -> forall s, stuck s -> stuck (run quad number vsmall l s) /\ d_diffused (run quad number vsmall l s) = d_diffused s.
Proof.
  induction l as [|o r IH]; intros O s S; [split; [exact S|reflexivity]|]. change (run quad number vsmall (o :: r) s) with (run quad number vsmall r (fst (step quad number vsmall o s))).
  destruct (stuck_step quad number vsmall o s S (O o (or_introl eq_refl))) as (_ & S' & D). destruct (IH (fun x I => O x (or_intror I)) _ S') as [A B]. split; [exact A|congruence].
Qed.
Lemma w_stuck v l o : only_degrades (l ++ [o]) -> let s := run w_quad w_number v l (run w_quad w_number v [Compute 2 1; SetSurface w_surf2] (fresh w_surf)) in
  snd (step w_quad w_number v o s) <> None /\ (forall i, applied s i = 0).
Proof.
  intros O. cbn zeta. change [Compute 2 1; SetSurface w_surf2] with ([Compute 2 1] ++ [SetSurface w_surf2])%list. unfold run at 2 4. rewrite fold_left_app. fold (run w_quad w_number v [Compute 2 1] (fresh w_surf)). rewrite w_one.
  cbn [fold_left step fst set_surface d_surf d_kdiff]. set (s0 := mk_d w_surf2 _ _).
  assert (S0 : stuck s0) by (exists [0 + w_amount]; split; [reflexivity|cbn; lia]).
  destruct (stuck_run w_quad w_number v l ltac:(intros x I; apply O, in_or_app; left; exact I) s0 S0) as [A B]. split.
  - apply stuck_step; [exact A|]. apply O, in_or_app. right. left. reflexivity.
  - intros i. unfold applied. rewrite B. reflexivity.
Qed.
