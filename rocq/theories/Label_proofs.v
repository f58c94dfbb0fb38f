(** Proofs about labels and stepping through intervals (C108). *)
From Coq Require Import Reals List ZArith Lra Lia Sorted.
From Verif Require Import Common Format_model Format_spec Format_proofs Run_model Label_model Label_spec.
Import ListNotations.
Open Scope string_scope.
Open Scope R_scope.

Lemma fixed0_near x : nearly (fixed 0 x) x.
Proof.
  unfold nearly, fixed. replace (powerRZ 10 (- 0)) with 1 by reflexivity. split.
  - exists (half_even (x / 1)). unfold on_grid. ring.
  - pose proof (grid_near 1 x). lra.
Qed.
Lemma fixed0_int n : fixed 0 (IZR n) = IZR n. Proof. apply fixed_int. lia. Qed.
Lemma sig_near x : Rabs (significant x - x) <= Rabs x * (5 / 10000).
Proof.
  destruct (Req_EM_T x 0) as [-> | N].
  - rewrite sig_zero. unfold Rminus. rewrite Rplus_opp_r, Rabs_R0. lra.
  - rewrite sig_grid by auto. pose proof (grid_near (powerRZ 10 (decade x - 3)) x (p10_pos _)).
    pose proof (decade_in x N) as [A _].
    replace (decade x) with ((decade x - 3) + 3)%Z in A by lia. rewrite powerRZ_add in A by lra.
    replace (powerRZ 10 3) with 1000 in A by (simpl; ring). lra.
Qed.

Section Label.
Variables (csfd chron : R -> R) (Dconv Nconv : R).
Notation label_of := (label_of csfd Dconv Nconv).
Notation labelmaker := (labelmaker csfd Dconv Nconv).


Lemma label_parts w s i tv : let parts := snd (label_of w s i tv) in
  (forall j, In (Interval j) parts <-> w_interval w = true /\ j = i) /\
  ((exists x, In (Time x) parts) <-> w_time w = true /\ tv <> None) /\
  ((exists x, In (Age x) parts) <-> w_age w = true /\ tv <> None) /\
  ((exists D N u, In (Number D N u) parts) <-> w_N w = true /\ tv <> None) /\
  (forall x, In (Time x) parts -> exists t, tv = Some t /\ nearly x (t_time t)) /\
  (forall x, In (Age x) parts -> exists t, tv = Some t /\ nearly x (t_elapsed t)).
Proof.
  unfold Label_model.label_of. cbn [snd].
  destruct tv as [t|]; destruct (w_interval w), (w_time w), (w_age w), (w_N w); cbn [app In];
    (repeat split; intros;
     repeat match goal with
       | H : exists _, _ |- _ => destruct H
       | H : _ /\ _ |- _ => destruct H
       | H : _ \/ _ |- _ => destruct H
       | H : False |- _ => destruct H
       | H : false = true |- _ => discriminate H
       | H : None <> None |- _ => now destruct H
       | H : Interval _ = _ |- _ => try discriminate H; injection H as H; subst
       | H : Time _ = _ |- _ => try discriminate H; injection H as H; subst
       | H : Age _ = _ |- _ => try discriminate H; injection H as H; subst
       | H : Number _ _ _ = _ |- _ => try discriminate H; clear H
       end; try discriminate; eauto 8; try (exists t; split; [reflexivity|apply fixed0_near]);
       try (eexists; tauto); try (do 3 eexists; tauto); try (left; congruence)).
Qed.
Lemma label_order w s i tv : StronglySorted (fun a b => (rank a < rank b)%nat) (snd (label_of w s i tv)).
Proof.
  unfold Label_model.label_of. cbn [snd].
  destruct tv as [t|]; destruct (w_interval w), (w_time w), (w_age w), (w_N w); cbn [app];
    repeat (constructor; cbn [rank]; try lia).
Qed.
Lemma label_separator w s i tv : fst (label_of w s i tv) = NewLine <-> w_compact w = true.
Proof. unfold Label_model.label_of; cbn. destruct (w_compact w); split; congruence. Qed.

Lemma file_put k i x d : file k (put i x d) = if (k =? i)%nat then Some (i, x) else file k d.
Proof.
  induction d as [|[j y] d IH]; cbn [put file].
  - reflexivity.
  - destruct (i <? j)%nat eqn:L; cbn [file].
    + reflexivity.
    + destruct (i =? j)%nat eqn:E; cbn [file].
      * apply Nat.eqb_eq in E as <-. now destruct (k =? i)%nat.
      * rewrite IH. destruct (k =? j)%nat eqn:K; [|reflexivity].
        apply Nat.eqb_eq in K as ->. rewrite Nat.eqb_sym in E. now rewrite E.
Qed.
Lemma file_num i d j y : file i d = Some (j, y) -> j = i.
Proof. induction d as [|[k z] d IH]; cbn; [discriminate|]. destruct (i =? k)%nat eqn:E; [|auto]. intros [= <- <-]. now apply Nat.eqb_eq in E. Qed.
Lemma read_nat i d : read (Z.of_nat i) d = Ok (file i d).
Proof. destruct d; [reflexivity|]. unfold read. replace (Z.of_nat i <? 0)%Z with false by (symmetry; apply Z.ltb_ge; lia). now rewrite Nat2Z.id. Qed.
Lemma vars_nat i d : time_variables (Z.of_nat i) d = Ok (match file i d with Some (_, y) => y | None => None end).
Proof.
  unfold time_variables. rewrite read_nat. cbn. destruct (file i d) as [[j y]|] eqn:E; [|reflexivity].
  apply file_num in E as ->. now rewrite Z.eqb_refl.
Qed.

Lemma session_app a b s : session (a ++ b) s = fold_left step b (session a s).
Proof. unfold session. apply fold_left_app. Qed.
Lemma session_snoc a o s : session (a ++ [o]) s = step (session a s) o.
Proof. now rewrite session_app. Qed.

(** What is on disk for interval [i]. *)
Lemma session_file ops s i :
  (never_saved ops s i /\ file i (snd (session ops s)) = None) \/
  (exists s', last_saved ops s i s' /\ file i (snd (session ops s)) = Some (i, s_times s')).
Proof.
  induction ops as [|o ops IH] using rev_ind.
  - left. split; [|reflexivity]. intros b a H. destruct b; discriminate.
  - rewrite session_snoc. destruct o as [s1|]; cbn [step snd].
    + destruct IH as [[N F]|(s' & (b & a & E & S1 & I & L) & F)].
      * left. split; [|exact F]. intros b a H.
        destruct a as [|o a _] using rev_ind.
        -- apply app_inj_tail in H as [_ H]. discriminate.
        -- rewrite app_comm_cons, app_assoc in H. apply app_inj_tail in H as [H _]. now apply (N b a).
      * right. exists s'. split; [|exact F]. exists b, (a ++ [Change s1])%list. subst ops. rewrite <- app_assoc. repeat split; auto.
        intros b' a' H. destruct a' as [|o a' _] using rev_ind.
        -- apply app_inj_tail in H as [_ H]. discriminate.
        -- rewrite app_comm_cons, app_assoc in H. apply app_inj_tail in H as [H _]. now apply (L b' a').
    + unfold save. rewrite file_put. destruct (i =? s_interval (fst (session ops s)))%nat eqn:K.
      * apply Nat.eqb_eq in K. right. exists (fst (session ops s)). split; [|now rewrite <- K].
        exists ops, []. repeat split; auto. intros b' a' H. destruct b'; discriminate.
      * apply Nat.eqb_neq in K. destruct IH as [[N F]|(s' & (b & a & E & S1 & I & L) & F)].
        -- left. split; [|exact F]. intros b a H.
           destruct a as [|o a _] using rev_ind.
           ++ apply app_inj_tail in H as [<- _]. congruence.
           ++ rewrite app_comm_cons, app_assoc in H. apply app_inj_tail in H as [H _]. now apply (N b a).
        -- right. exists s'. split; [|exact F]. exists b, (a ++ [Save])%list. rewrite E, <- app_assoc. repeat split; auto.
           intros b' a' H. destruct a' as [|o a' _] using rev_ind.
           ++ apply app_inj_tail in H as [<- _]. rewrite <- E. congruence.
           ++ rewrite app_comm_cons, app_assoc in H. apply app_inj_tail in H as [H _]. now apply (L b' a').
Qed.

Lemma never_not_last ops s i s' : never_saved ops s i -> last_saved ops s i s' -> False.
Proof. intros N (b & a & E & -> & I & _). exact (N b a E I). Qed.
Lemma split_save (b a b' a' : list op) : (b ++ Save :: a)%list = (b' ++ Save :: a')%list ->
  (b = b' /\ a = a') \/ (exists c, b' = (b ++ Save :: c)%list /\ a = (c ++ Save :: a')%list) \/
  (exists c, b = (b' ++ Save :: c)%list /\ a' = (c ++ Save :: a)%list).
Proof.
  revert b'. induction b as [|x b IH]; intros [|y b'] H; cbn in H.
  - injection H as ->. auto.
  - injection H as <- ->. right; left. exists b'. auto.
  - injection H as -> <-. right; right. exists b. auto.
  - injection H as <- H. destruct (IH b' H) as [[-> ->]|[(c & -> & ->)|(c & -> & ->)]]; [auto|right; left; exists c|right; right; exists c]; auto.
Qed.
Lemma last_once ops s i s1 s2 : last_saved ops s i s1 -> last_saved ops s i s2 -> s1 = s2.
Proof.
  intros (b & a & E & S1 & I1 & L1) (b' & a' & E' & S2 & I2 & L2). subst ops.
  destruct (split_save _ _ _ _ E') as [[-> ->]|[(c & -> & ->)|(c & -> & ->)]].
  - congruence.
  - exfalso. apply (L1 c a' eq_refl). congruence.
  - exfalso. apply (L2 c a eq_refl). congruence.
Qed.

Lemma same_D w s s' : s_smallest s = s_smallest s' \/ w_D w <> None -> N_diam_val w s = N_diam_val w s'.
Proof. unfold N_diam_val. intros [H|H]; destruct (w_D w); auto; [now rewrite H|congruence]. Qed.
Lemma label_saved w ops s i s' d : last_saved ops s i s' ->
  s_smallest (fst (session ops s)) = s_smallest s' \/ w_D w <> None ->
  labelmaker w (Some (Z.of_nat i)) (fst (session ops s)) (snd (session ops s)) = labelmaker w None s' d.
Proof.
  intros L HD. destruct (session_file ops s i) as [[N _]|(s1 & L1 & F)]; [destruct (never_not_last _ _ _ _ N L)|].
  rewrite (last_once _ _ _ _ _ L1 L) in F. unfold Label_model.labelmaker. rewrite vars_nat, F. cbn [rbind].
  destruct L as (b & a & _ & _ & I & _). rewrite I. unfold Label_model.label_of. now rewrite (same_D w _ _ HD).
Qed.
Lemma label_unsaved w ops s i : never_saved ops s i ->
  labelmaker w (Some (Z.of_nat i)) (fst (session ops s)) (snd (session ops s)) =
  Ok (if w_compact w then NewLine else ThreeSpaces, if w_interval w then [Interval (Z.of_nat i)] else []).
Proof.
  intros N. destruct (session_file ops s i) as [[_ F]|(s1 & L1 & F)]; [|destruct (never_not_last _ _ _ _ N L1)].
  unfold Label_model.labelmaker. rewrite vars_nat, F. cbn [rbind]. unfold Label_model.label_of. now rewrite app_nil_r.
Qed.
Lemma label_negative w i s d r : (i < 0)%Z -> labelmaker w (Some i) s d = Ok r ->
  snd r = if w_interval w then [Interval i] else [].
Proof.
  intros I. unfold Label_model.labelmaker, time_variables. destruct (read i d) as [f|]; [|discriminate]. cbn [rbind].
  intros H. assert (E : match f with Some (j, y) => if (Z.of_nat j =? i)%Z then y else None | None => None end = None).
  { destruct f as [[j y]|]; [|reflexivity]. replace (Z.of_nat j =? i)%Z with false; [reflexivity|]. symmetry. apply Z.eqb_neq. lia. }
  rewrite E in H. injection H as <-. unfold Label_model.label_of. cbn [snd]. now rewrite app_nil_r.
Qed.

(** The number of craters. *)
Lemma n1_formed periods : elapsed_n1 csfd chron Nconv periods = formed csfd chron DSTD periods * Nconv.
Proof.
  unfold elapsed_n1.
  assert (H : forall l n, fold_left (fun n p => n + fn csfd chron DSTD (fst p) (snd p) * Nconv) l n = n + formed csfd chron DSTD l * Nconv).
  { induction l as [|p l IH]; intros n; cbn; [lra|]. rewrite IH. unfold fn, formed. lra. }
  rewrite H. lra.
Qed.
Lemma formed_scale D periods : formed csfd chron D periods = csfd D * formed (fun _ => 1) chron D periods.
Proof. induction periods as [|p l IH]; cbn; [lra|]. fold (formed csfd chron D l) (formed (fun _ => 1) chron D l). rewrite IH. lra. Qed.
Lemma formed_const D E periods : formed (fun _ => 1) chron D periods = formed (fun _ => 1) chron E periods.
Proof. reflexivity. Qed.
Lemma number_exact D periods : csfd DSTD <> 0 ->
  elapsed_n1 csfd chron Nconv periods * (csfd D / csfd DSTD) = formed csfd chron D periods * Nconv.
Proof.
  intros H. rewrite n1_formed, (formed_scale DSTD), (formed_scale D), (formed_const DSTD D). field. exact H.
Qed.
Lemma unit_ok : Nconv = 1 \/ Nconv = 1000000 \/ Nconv = 1000000000000 -> unit_area (N_unit Nconv) = Some Nconv.
Proof.
  unfold N_unit. intros [H|[H|H]]; rewrite H;
    repeat match goal with |- context [Req_EM_T ?a ?b] => let E := fresh in destruct (Req_EM_T a b) as [E|E]; [try (exfalso; lra)|try (exfalso; apply E; lra)] end;
    lazymatch goal with
    | |- unit_area "per m²" = _ => change (unit_area "per m²") with (Some 1)
    | |- unit_area "per km²" = _ => change (unit_area "per km²") with (Some (1000 * 1000))
    | |- unit_area _ = _ => change (unit_area "per 10$^6$ km²") with (Some (1000000 * (1000 * 1000)))
    end; f_equal; lra.
Qed.
Lemma label_number w s i t D periods :
  w_N w = true -> w_D w = Some D -> csfd DSTD <> 0 ->
  Nconv = 1 \/ Nconv = 1000000 \/ Nconv = 1000000000000 ->
  t_n1 t = elapsed_n1 csfd chron Nconv periods ->
  exists D' N u area, In (Number D' N u) (snd (label_of w s i (Some t))) /\ nearly D' D /\
    ((exists n, D = IZR n) -> D' = D) /\ unit_area u = Some area /\
    Rabs (N - formed csfd chron (D * Dconv) periods * area) <= Rabs (formed csfd chron (D * Dconv) periods * area) * (5 / 10000).
Proof.
  intros W WD C U T. exists (fixed 0 D), (significant (t_n1 t * (csfd (D * Dconv) / csfd DSTD))), (N_unit Nconv), Nconv.
  repeat split.
  - unfold Label_model.label_of, N_diam_val. rewrite W, WD. cbn [snd]. rewrite !in_app_iff. right. right. right. now left.
  - apply fixed0_near.
  - apply fixed0_near.
  - intros (n & ->). apply fixed0_int.
  - now apply unit_ok.
  - rewrite T, number_exact by exact C. apply sig_near.
Qed.
Lemma label_only_number w s i t D N u : In (Number D N u) (snd (label_of w s i (Some t))) ->
  D = fixed 0 (N_diam_val w s) /\ N = significant (t_n1 t * (csfd (N_diam_val w s * Dconv) / csfd DSTD)).
Proof.
  unfold Label_model.label_of. cbn [snd]. rewrite !in_app_iff.
  intros [H|[H|[H|H]]].
  - destruct (w_interval w); [destruct H as [H|[]]; discriminate|destruct H].
  - destruct (w_time w); [destruct H as [H|[]]; discriminate|destruct H].
  - destruct (w_age w); [destruct H as [H|[]]; discriminate|destruct H].
  - destruct (w_N w); [destruct H as [H|[]]|destruct H]. injection H as <- <- _. auto.
Qed.
End Label.

(** The viewer. *)
Lemma key_pos cur v k : v_pos (key cur v k) = moved (v_max v) (v_pos v) k \/ ~ (0 <= v_pos v <= v_max v)%Z.
Proof.
  unfold key, update, moved; cbn. destruct (Z_le_dec 0 (v_pos v)); [|right; lia]. destruct (Z_le_dec (v_pos v) (v_max v)); [|right; lia]. left.
  destruct k.
  - destruct (v_max v <? v_pos v + 1)%Z eqn:E; [apply Z.ltb_lt in E|apply Z.ltb_ge in E]; lia.
  - destruct (v_pos v - 1 <? 0)%Z eqn:E; [apply Z.ltb_lt in E|apply Z.ltb_ge in E]; lia.
Qed.
Lemma moved_in m p k : (0 <= p <= m)%Z -> (0 <= moved m p k <= m)%Z.
Proof. unfold moved. destruct k; lia. Qed.
Lemma position_in m l : forall p, (0 <= p <= m)%Z -> (0 <= position m p l <= m)%Z.
Proof. induction l as [|k l IH]; intros p H; cbn; [exact H|]. apply IH. now apply moved_in. Qed.
Lemma keys_pos cur l : forall v, (0 <= v_pos v <= v_max v)%Z ->
  v_pos (keys cur l v) = position (v_max v) (v_pos v) l /\ v_max (keys cur l v) = v_max v.
Proof.
  induction l as [|k l IH]; intros v H; [auto|].
  change (keys cur (k :: l) v) with (keys cur l (key cur v k)).
  destruct (key_pos cur v k) as [K|K]; [|tauto].
  assert (V : v_max (key cur v k) = v_max v) by reflexivity.
  destruct (IH (key cur v k)) as [A B]. { rewrite K, V. now apply moved_in. }
  rewrite A, B, K, V. auto.
Qed.
Lemma keys_snoc cur l k v : keys cur (l ++ [k]) v = key cur (keys cur l v) k.
Proof. unfold keys. now rewrite fold_left_app. Qed.
Lemma viewer_walk cur i c l : (0 <= i <= Z.of_nat cur)%Z ->
  v_pos (keys cur l (open_viewer cur (Some i) c)) = position (Z.of_nat cur) i l /\
  (0 <= position (Z.of_nat cur) i l <= Z.of_nat cur)%Z.
Proof. intros H. destruct (keys_pos cur l (open_viewer cur (Some i) c)) as [A _]; [exact H|]. split; [exact A|now apply position_in]. Qed.
Lemma viewer_shown cur i c l k : (0 <= i <= Z.of_nat cur)%Z ->
  let v := keys cur (l ++ [k]) (open_viewer cur (Some i) c) in
  (v_shown v = position (Z.of_nat cur) i (l ++ [k]) <-> ~ (k = false /\ position (Z.of_nat cur) i l = 0 /\ cur <> 0%nat)%Z) /\
  (k = false -> position (Z.of_nat cur) i l = 0%Z -> v_shown v = Z.of_nat cur).
Proof.
  intros H. cbv zeta. rewrite keys_snoc. destruct (keys_pos cur l (open_viewer cur (Some i) c)) as [A B]; [exact H|].
  cbn [open_viewer v_pos v_max] in A, B. pose proof (position_in (Z.of_nat cur) l i H) as P.
  unfold position at 1. rewrite fold_left_app. fold (position (Z.of_nat cur) i l). cbn [fold_left].
  unfold key. cbn [v_shown]. rewrite A, B. set (p := position (Z.of_nat cur) i l) in *. clearbody p. clear A B.
  unfold update, moved. destruct k.
  - destruct (Z.of_nat cur <? p + 1)%Z eqn:E; [apply Z.ltb_lt in E|apply Z.ltb_ge in E]; (split; [split; [intros _ [X _]; discriminate|intros _; lia]|discriminate]).
  - destruct (p - 1 <? 0)%Z eqn:E; [apply Z.ltb_lt in E|apply Z.ltb_ge in E].
    + split; [|reflexivity]. split; [intros X (_ & Y & Z); lia|]. intros N.
      destruct cur; [lia|]. exfalso. apply N. repeat split; lia.
    + split; [|lia]. split; [intros _ (_ & Y & _); lia|lia].
Qed.
Lemma viewer_caption cur l k v : v_caption (keys cur (l ++ [k]) v) = Default true.
Proof. now rewrite keys_snoc. Qed.

(** Counter-examples. *)
Definition one_over (D : R) : R := / D.
Definition all_wishes (D : R) : wishes := mkWishes true true true true (Some D) false.
Definition two : state := mkState 2 (Some (mkTimes 1000 2900 3)) 50.

Lemma end_label csfd Dconv Nconv : exists ops s w, read (-1) (snd (session ops s)) = Ok (Some (s_interval s, s_times s)) /\
  (exists x, match labelmaker csfd Dconv Nconv w None s (snd (session ops s)) with Ok r => In (Age x) (snd r) | Err _ => False end) /\
  (exists sep, labelmaker csfd Dconv Nconv w (Some (-1)%Z) s (snd (session ops s)) = Ok (sep, [])).
Proof.
  exists [Save], two, (mkWishes false false true false None false). repeat split.
  - exists (fixed 0 2900). cbn. auto.
  - exists ThreeSpaces. reflexivity.
Qed.
Lemma same_heading : exists n m,
  match labelmaker one_over 1000 1000000000000 (all_wishes (3 / 2)) None two [] with Ok r => In (Number 2 n "per 10$^6$ km²") (snd r) | Err _ => False end /\
  match labelmaker one_over 1000 1000000000000 (all_wishes 2) None two [] with Ok r => In (Number 2 m "per 10$^6$ km²") (snd r) | Err _ => False end /\
  n <> m.
Proof.
  assert (F1 : fixed 0 (3 / 2) = 2).
  { unfold fixed, on_grid. replace (powerRZ 10 (- 0)) with 1 by reflexivity. replace (3 / 2 / 1) with (3 / 2) by field.
    rewrite (half_even_unique (3 / 2) 2); [lra| |reflexivity]. replace (3 / 2 - IZR 2) with (- (1 / 2)) by lra. rewrite Rabs_Ropp, Rabs_pos_eq; lra. }
  assert (F2 : fixed 0 2 = 2) by apply (fixed0_int 2).
  assert (U : N_unit 1000000000000 = "per 10$^6$ km²").
  { unfold N_unit. repeat match goal with |- context [Req_EM_T ?a ?b] => let E := fresh in destruct (Req_EM_T a b) as [E|E]; [try (exfalso; lra)|try (exfalso; apply E; lra)] end. reflexivity. }
  exists (significant (3 * (one_over (3 / 2 * 1000) / one_over DSTD))), (significant (3 * (one_over (2 * 1000) / one_over DSTD))).
  split; [|split].
  - cbn -[significant fixed N_unit]. rewrite F1, U. auto 8.
  - cbn -[significant fixed N_unit]. rewrite F2, U. auto 8.
  - unfold one_over, DSTD.
    replace (3 * (/ (3 / 2 * 1000) / / 1000)) with 2 by field. replace (3 * (/ (2 * 1000) / / 1000)) with (3 / 2) by field.
    pose proof (sig_near 2) as A. pose proof (sig_near (3 / 2)) as B.
    rewrite (Rabs_pos_eq 2) in A by lra. rewrite (Rabs_pos_eq (3 / 2)) in B by lra. apply abs_in in A, B. lra.
Qed.
Lemma metres_label : exists t periods D N, t_n1 t = elapsed_n1 one_over (fun t => t) 1000000000000 periods /\
  match labelmaker one_over 1 1000000000000 (all_wishes 20) None (mkState 1 (Some t) 50) [] with Ok r => In (Number D N "per 10$^6$ km²") (snd r) | Err _ => False end /\
  D = 20 /\ N > 100 * (formed one_over (fun t => t) (20 * 1000) periods * (1000000 * (1000 * 1000))).
Proof.
  exists (mkTimes 0 1 (elapsed_n1 one_over (fun t => t) 1000000000000 [(1, 0)])), [(1, 0)], (fixed 0 20),
    (significant (elapsed_n1 one_over (fun t => t) 1000000000000 [(1, 0)] * (one_over (20 * 1) / one_over DSTD))).
  repeat split.
  - cbn -[significant fixed N_unit elapsed_n1].
    assert (U : N_unit 1000000000000 = "per 10$^6$ km²").
    { unfold N_unit. repeat match goal with |- context [Req_EM_T ?a ?b] => let E := fresh in destruct (Req_EM_T a b) as [E|E]; [try (exfalso; lra)|try (exfalso; apply E; lra)] end. reflexivity. }
    rewrite U. auto 8.
  - apply (fixed0_int 20).
  - rewrite number_exact by (unfold one_over, DSTD; apply Rinv_neq_0_compat; lra).
    unfold formed, one_over, DSTD. cbn [fold_right fst snd].
    pose proof (sig_near ((/ (20 * 1) * (1 - 0) + 0) * 1000000000000)) as A.
    replace ((/ (20 * 1) * (1 - 0) + 0) * 1000000000000) with 50000000000 in A |- * by field.
    rewrite (Rabs_pos_eq 50000000000) in A by lra. apply abs_in in A.
    replace (100 * ((/ (20 * 1000) * (1 - 0) + 0) * (1000000 * (1000 * 1000)))) with 5000000000 by field. lra.
Qed.
Lemma summary_right csfd chron periods tm el : forall v u, printed_n1 (mkTimes tm el (elapsed_n1 csfd chron 1000000000000 periods)) = (v, u) ->
  exists a, unit_area u = Some a /\ v = formed csfd chron 1000 periods * a.
Proof.
  unfold printed_n1. cbn [t_n1]. intros v u [= <- <-]. exists (1000000 * (1000 * 1000)). split; [reflexivity|]. rewrite n1_formed. unfold DSTD. lra.
Qed.
Lemma summary_wrong : exists Nconv periods, (Nconv = 1 \/ Nconv = 1000000) /\ exists v u a,
  printed_n1 (mkTimes 0 1 (elapsed_n1 one_over (fun t => t) Nconv periods)) = (v, u) /\ unit_area u = Some a /\
  v * 1000000 = formed one_over (fun t => t) 1000 periods * a /\ v <> formed one_over (fun t => t) 1000 periods * a.
Proof.
  exists 1000000, [(1, 0)]. split; [auto|]. do 2 eexists. exists (1000000 * (1000 * 1000)). split; [reflexivity|]. split; [reflexivity|].
  cbn [t_n1]. rewrite n1_formed. unfold DSTD, formed, one_over. cbn [fold_right fst snd].
  split; [field|]. replace (/ 1000 * (1 - 0) + 0) with (1 / 1000) by field. lra.
Qed.
Lemma viewer_first : exists l, v_pos (keys 2 l (open_viewer 2 (Some 1%Z) NoCaption)) = 0%Z /\
  v_shown (keys 2 l (open_viewer 2 (Some 1%Z) NoCaption)) = 2%Z.
Proof. exists [false; false]. split; reflexivity. Qed.
Lemma viewer_end (cur : nat) c : v_shown (keys cur [true] (open_viewer cur (Some (-1)%Z) c)) = 0%Z.
Proof. unfold keys. cbn [fold_left]. unfold key, update, open_viewer. cbn. now replace (Z.of_nat cur <? 0)%Z with false by (symmetry; apply Z.ltb_ge; lia). Qed.
Lemma read_last ops s : read (-1) (snd (session ops s)) = Ok None \/ exists i t, read (-1) (snd (session ops s)) = Ok (Some (i, t)).
Proof.
  destruct (snd (session ops s)) as [|e d] eqn:E; [now left|]. right. unfold read. cbn [Z.ltb Z.compare].
  replace (Z.to_nat (- (-1) - 1)) with O by reflexivity.
  destruct (rev (e :: d)) as [|[i t] r] eqn:F; [apply (f_equal (@List.length _)) in F; rewrite rev_length in F; discriminate|].
  exists i, t. reflexivity.
Qed.

(* --- the files, counted from the end --- *)
Lemma numbers_put i x d n : In n (map fst (put i x d)) <-> n = i \/ In n (map fst d).
Proof.
  induction d as [|[j y] d IH]; cbn [put]; [cbn; intuition|].
  destruct (i <? j)%nat eqn:E1; [|destruct (i =? j)%nat eqn:E2]; cbn [map fst In].
  - intuition.
  - apply Nat.eqb_eq in E2. subst j. intuition.
  - rewrite IH. intuition.
Qed.
Lemma ordered_put i x d : StronglySorted lt (map fst d) -> StronglySorted lt (map fst (put i x d)).
Proof.
  induction d as [|[j y] d IH]; intros H; cbn [put]; [cbn; repeat constructor|].
  cbn [map fst] in H. inversion H as [|? ? H1 H2]; subst.
  destruct (i <? j)%nat eqn:E1; [|destruct (i =? j)%nat eqn:E2]; cbn [map fst].
  - apply Nat.ltb_lt in E1. constructor; [exact H|]. constructor; [exact E1|].
    eapply Forall_impl; [|exact H2]. intros a Ha. lia.
  - apply Nat.eqb_eq in E2. subst. now constructor.
  - apply Nat.ltb_ge in E1. apply Nat.eqb_neq in E2. constructor; [now apply IH|].
    apply Forall_forall. intros n Hn. apply numbers_put in Hn.
    destruct Hn as [-> | Hn]; [lia|]. rewrite Forall_forall in H2. now apply H2.
Qed.
Lemma session_ordered ops s : StronglySorted lt (map fst (snd (session ops s))).
Proof.
  induction ops as [|o ops IH] using rev_ind; [constructor|].
  rewrite session_snoc. destruct o; cbn [step snd]; [exact IH|]. apply ordered_put. exact IH.
Qed.
Lemma session_numbers ops s i : In i (map fst (snd (session ops s))) <-> ~ never_saved ops s i.
Proof.
  induction ops as [|o ops IH] using rev_ind.
  - cbn. split; [intros []|]. intros H. apply H. intros b a E. destruct b; discriminate.
  - rewrite session_snoc.
    assert (P : never_saved (ops ++ [o]) s i <-> never_saved ops s i /\ (o = Save -> s_interval (fst (session ops s)) <> i)).
    { split.
      - intros N. split.
        + intros b a E. apply (N b (a ++ [o])%list). rewrite E, <- app_assoc. reflexivity.
        + intros ->. now apply (N ops []).
      - intros (N & L) b a E. destruct a as [|x a] using rev_ind.
        + apply app_inj_tail in E. destruct E as (-> & E2). auto.
        + clear IHa. change (b ++ Save :: a ++ [x])%list with (b ++ (Save :: a) ++ [x])%list in E.
          rewrite app_assoc in E. apply app_inj_tail in E. destruct E as (E & _). now apply (N b a). }
    rewrite P. destruct o; cbn [step snd fst].
    + rewrite IH. split; [tauto|]. intros H N. apply H. split; [exact N|discriminate].
    + unfold save. rewrite numbers_put, IH. split.
      * intros [E|E] (N & L); [|auto]. now apply (L eq_refl).
      * intros H. destruct (Nat.eq_dec i (s_interval (fst (session ops s)))) as [E|E]; [auto|].
        right. intros N. apply H. split; [exact N|]. congruence.
Qed.
Lemma read_far ops s k : snd (session ops s) <> [] ->
  read (- Z.of_nat k - 1) (snd (session ops s)) =
  match nth_error (rev (snd (session ops s))) k with Some f => Ok (Some f) | None => Err IndexError end.
Proof.
  intros N. unfold read. destruct (snd (session ops s)) as [|p r]; [contradiction|].
  assert ((- Z.of_nat k - 1 <? 0)%Z = true) as -> by (apply Z.ltb_lt; lia).
  replace (Z.to_nat (- (- Z.of_nat k - 1) - 1)) with k by lia. reflexivity.
Qed.
Lemma read_none ops s k : (List.length (snd (session ops s)) <= k)%nat -> snd (session ops s) <> [] ->
  read (- Z.of_nat k - 1) (snd (session ops s)) = Err IndexError.
Proof.
  intros L N. rewrite (read_far ops s k N). rewrite <- rev_length in L. apply nth_error_None in L. now rewrite L.
Qed.
Lemma read_back ops s k i t : nth_error (rev (snd (session ops s))) k = Some (i, t) ->
  read (- Z.of_nat k - 1) (snd (session ops s)) = Ok (Some (i, t)).
Proof.
  intros E. rewrite read_far; [now rewrite E|]. intros H. rewrite H in E. destruct k; discriminate.
Qed.
(* --- the default diameter, and the viewer when it opens --- *)
Lemma default_diameter csfd Dconv Nconv w s t d : w_D w = None -> w_N w = true -> s_times s = Some t ->
  exists r N u, labelmaker csfd Dconv Nconv w None s d = Ok r /\
    In (Number (if Rlt_dec (s_smallest s) 100 then 1 else if Rlt_dec (s_smallest s) 10000 then 20 else 64) N u) (snd r).
Proof.
  intros HD HN HT.
  assert (F : forall n, fixed 0 (IZR n) = IZR n) by apply fixed0_int.
  destruct (Rlt_dec (s_smallest s) 100) as [A|A]; [|destruct (Rlt_dec (s_smallest s) 10000) as [B|B]];
    (eexists; eexists; eexists; split; [reflexivity|];
     unfold label_of, N_diam_val; rewrite HD, HN, HT; cbn [snd];
     apply in_or_app; right; apply in_or_app; right; apply in_or_app; right; left).
  - destruct (Rlt_dec (s_smallest s) 100); [|contradiction]. rewrite F. reflexivity.
  - destruct (Rlt_dec (s_smallest s) 100); [contradiction|]. destruct (Rlt_dec (s_smallest s) 10000); [|contradiction]. rewrite F. reflexivity.
  - destruct (Rlt_dec (s_smallest s) 100); [contradiction|]. destruct (Rlt_dec (s_smallest s) 10000); [contradiction|]. rewrite F. reflexivity.
Qed.
Lemma viewer_open (cur : nat) (i : Z) (c : caption) :
  (v_shown (open_viewer cur (Some i) c) = i /\ v_pos (open_viewer cur (Some i) c) = i) /\
  (v_shown (open_viewer cur None c) = Z.of_nat cur /\ v_pos (open_viewer cur None c) = Z.of_nat cur) /\
  v_caption (open_viewer cur (Some i) c) = c /\ v_caption (open_viewer cur None c) = c.
Proof. repeat split. Qed.
