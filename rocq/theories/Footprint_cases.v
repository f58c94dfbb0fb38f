(** Samples and counterexamples for Footprint_model. *)
From Coq Require Import Reals Lra Lia.
From Verif Require Import Common Region_model Region_spec Region_proofs Region_cases Footprint_model Footprint_spec Footprint_proofs.
From Verif Require Queue_model.
Import ListNotations.
Open Scope R_scope.

Lemma row_in k n i x : In (Some x) (row k n i) -> (i <= n)%nat -> (0 < n)%nat -> (x < n)%nat.
Proof.
  unfold row. intros [H | [H | []]] Le Pn.
  - destruct (Nat.leb 1 i) eqn:E; [| discriminate]. apply Nat.leb_le in E. injection H as <-. lia.
  - destruct (Nat.ltb (i + k) n) eqn:E; [| discriminate]. apply Nat.ltb_lt in E. injection H as <-. lia.
Qed.
Lemma long_sound : sound long_strip.
Proof.
  split; [| split].
  - intros f x H. cbn [long_strip m_nface m_nnode m_nedge face_faces face_nodes face_edges] in *. split; [| split].
    + intros A. apply (row_in 1 10 f x A); lia.
    + cbn. intros [A | [A | []]]; injection A as <-; lia.
    + cbn. intros [A | [A | []]]; injection A as <-; lia.
  - intros n x H A. cbn [long_strip m_nface m_nnode m_nedge node_faces_of] in *. apply (row_in 0 10 n x A); lia.
  - intros n x H A. cbn [long_strip m_nface m_nnode m_nedge edge_faces] in *. apply (row_in 0 10 n x A); lia.
Qed.
Lemma strip_tree b t a : tree_like (strip_world b t a).
Proof.
  split; cbn [strip_world w_query w_mesh long_strip m_nface].
  - intros p x f H. unfold strip_faces in H. apply filter_In in H as [H _]. apply in_seq in H. lia.
  - intros p x y Le f H. unfold strip_faces in *. apply filter_In in H as [H1 H2]. apply filter_In. split; [exact H1 |].
    destruct (Rle_dec (INR f) (p + x)); [| discriminate]. destruct (Rle_dec (p - x) (INR f)); [| discriminate].
    destruct (Rle_dec (INR f) (p + y)); [| lra]. destruct (Rle_dec (p - y) (INR f)); [reflexivity | lra].
Qed.
Lemma strip_radius_pos : 0 < strip_radius.
Proof. unfold strip_radius. apply Rdiv_lt_0_compat; [lra | apply PI_RGT_0]. Qed.

Lemma keep_face p a f l : p - a <= INR f <= p + a ->
  filter (fun f => if Rle_dec (INR f) (p + a) then if Rle_dec (p - a) (INR f) then true else false else false) (f :: l) =
  f :: filter (fun f => if Rle_dec (INR f) (p + a) then if Rle_dec (p - a) (INR f) then true else false else false) l.
Proof. intros H. cbn [filter]. destruct (Rle_dec (INR f) (p + a)); [| lra]. destruct (Rle_dec (p - a) (INR f)); [reflexivity | lra]. Qed.
Lemma skip_face p a f l : INR f < p - a \/ p + a < INR f ->
  filter (fun f => if Rle_dec (INR f) (p + a) then if Rle_dec (p - a) (INR f) then true else false else false) (f :: l) =
  filter (fun f => if Rle_dec (INR f) (p + a) then if Rle_dec (p - a) (INR f) then true else false else false) l.
Proof. intros H. cbn [filter]. destruct (Rle_dec (INR f) (p + a)); [| reflexivity]. destruct (Rle_dec (p - a) (INR f)); [lra | reflexivity]. Qed.
Ltac number := rewrite INR_IZR_INZ; cbn [Z.of_nat Pos.of_succ_nat Pos.succ]; lra.
Ltac faces_of := unfold strip_faces; cbn [seq];
  repeat (first [rewrite keep_face by number; f_equal | rewrite skip_face by number]); reflexivity.
Lemma q_a : strip_faces 0 3 = [0; 1; 2; 3]%nat. Proof. faces_of. Qed.
Lemma q_b : strip_faces 8 3 = [5; 6; 7; 8; 9]%nat. Proof. faces_of. Qed.
Lemma q_c : strip_faces 0 2 = [0; 1; 2]%nat. Proof. faces_of. Qed.
Lemma q_d : strip_faces 8 2 = [6; 7; 8; 9]%nat. Proof. faces_of. Qed.
Lemma q_e : strip_faces 2.4 0.45 = [2]%nat. Proof. faces_of. Qed.
Lemma q_f : strip_faces 2.4 0.3 = []. Proof. faces_of. Qed.
Lemma q_g : strip_faces 0 0.735 = [0]%nat. Proof. faces_of. Qed.
Lemma q_h : strip_faces 4 1.5 = [3; 4; 5]%nat. Proof. faces_of. Qed.

Lemma around_some b t area c r core f n : r < 180 -> strip_faces (c_at c) r = core -> core <> [] ->
  with_buffer long_strip core (unique (valid (ravel (face_nodes long_strip) core))) (unique (valid (ravel (face_edges long_strip) core))) = f ->
  unique (valid (ravel (face_nodes long_strip) f)) = n ->
  exists e, around (strip_world b t area) c r = Some (mkView f n e r).
Proof.
  intros Lt Q Ne F N. unfold around, extract_region. cbn [strip_world w_mesh w_radius w_query w_nearest]. rewrite strip_angle.
  destruct (Rlt_dec r 180); [| lra]. rewrite Q. destruct core; [contradiction |]. rewrite F, N. eauto.
Qed.
Lemma around_none b t area c r : r < 180 -> strip_faces (c_at c) r = [] -> around (strip_world b t area) c r = None.
Proof.
  intros Lt Q. unfold around, extract_region. cbn [strip_world w_mesh w_radius w_query w_nearest]. rewrite strip_angle.
  destruct (Rlt_dec r 180); [| lra]. rewrite Q. reflexivity.
Qed.

(** Two craters of radius 2, at either end. *)
Definition two (i : nat) : fixed R := match i with O => mk_fixed 0 2 | _ => mk_fixed 8 2 end.
Lemma two_resolved t : exists ea eb, around (strip_world true t 0.5) (two 0) (1.5 * 2) = Some (mkView [0; 1; 2; 3; 4] [0; 1; 2; 3; 4; 5] ea 3)%nat /\
  around (strip_world true t 0.5) (two 1) (1.5 * 2) = Some (mkView [4; 5; 6; 7; 8; 9] [4; 5; 6; 7; 8; 9; 10] eb 3)%nat.
Proof.
  replace (1.5 * 2) with 3 by lra.
  destruct (around_some true t 0.5 (two 0) 3 _ _ _ ltac:(lra) q_a ltac:(discriminate) eq_refl eq_refl) as [ea Ea].
  destruct (around_some true t 0.5 (two 1) 3 _ _ _ ltac:(lra) q_b ltac:(discriminate) eq_refl eq_refl) as [eb Eb].
  exists ea, eb. auto.
Qed.
Lemma two_extent : exists ea eb, around (strip_world true 1 0.5) (two 0) (1 * 2) = Some (mkView [0; 1; 2; 3] [0; 1; 2; 3; 4] ea 2)%nat /\
  around (strip_world true 1 0.5) (two 1) (1 * 2) = Some (mkView [5; 6; 7; 8; 9] [5; 6; 7; 8; 9; 10] eb 2)%nat.
Proof.
  replace (1 * 2) with 2 by lra.
  destruct (around_some true 1 0.5 (two 0) 2 _ _ _ ltac:(lra) q_c ltac:(discriminate) eq_refl eq_refl) as [ea Ea].
  destruct (around_some true 1 0.5 (two 1) 2 _ _ _ ltac:(lra) q_d ltac:(discriminate) eq_refl eq_refl) as [eb Eb].
  exists ea, eb. auto.
Qed.
Lemma shared : exists va vb, Queue_model.peek_next_batch (geometry_of (strip_world true 1 0.5) two (fun _ => None)) [0; 1]%nat = [0; 1]%nat /\
  around (strip_world true 1 0.5) (two 0) (1.5 * 2) = Some va /\ around (strip_world true 1 0.5) (two 1) (1.5 * 2) = Some vb /\
  In 4%nat (v_faces va) /\ In 4%nat (v_faces vb) /\ Forall2 (right (strip_world true 1 0.5) (two 0)) [Form] (snd (session (two 0) [Form] (strip_world true 1 0.5, fresh))).
Proof.
  destruct (two_resolved 1) as (ea & eb & A & B). destruct two_extent as (fa & fb & A2 & B2).
  exists (mkView [0; 1; 2; 3; 4] [0; 1; 2; 3; 4; 5] ea 3)%nat, (mkView [4; 5; 6; 7; 8; 9] [4; 5; 6; 7; 8; 9; 10] eb 3)%nat.
  split; [| split; [exact A |]; split; [exact B |]; split; [cbn; tauto |]; split; [cbn; tauto |]].
  - destruct (geometry_faces (strip_world true 1 0.5) two (fun _ => None) 0 _ eq_refl A) as [F0 N0].
    destruct (geometry_faces (strip_world true 1 0.5) two (fun _ => None) 1 _ eq_refl B) as [F1 N1].
    change (w_extent (strip_world true 1 0.5) (two 0)) with (1 * 2) in *. change (w_extent (strip_world true 1 0.5) (two 1)) with (1 * 2) in *.
    rewrite A2 in F0, N0. rewrite B2 in F1, N1. cbn [fset nset v_faces v_nodes] in *.
    unfold Queue_model.peek_next_batch. cbn [Queue_model.peek_loop]. rewrite F0, N0, F1, N1. reflexivity.
  - destruct (session_right (strip_world true 1 0.5) (two 0) eq_refl [Form] fresh) as (v & _ & _ & H); [repeat constructor | apply known_fresh | exact H].
Qed.

(** A crater between the centres of faces. *)
Definition between : fixed R := mk_fixed 2.4 0.3.
Lemma between_fails : snd (session between [Emplaceable; EjectaRegion; Form] (strip_world true 1 0.5, fresh)) =
  [Ok (AFlag (Some true)); Ok (ARegion None); Err AttributeError].
Proof.
  assert (I : exists e, around (strip_world true 1 0.5) between (1.5 * 0.3) = Some (mkView [1; 2; 3] [1; 2; 3; 4] e 0.45)%nat).
  { replace (1.5 * 0.3) with 0.45 by lra. exact (around_some true 1 0.5 between 0.45 _ _ _ ltac:(lra) q_e ltac:(discriminate) eq_refl eq_refl). }
  assert (O : around (strip_world true 1 0.5) between (1 * 0.3) = None).
  { replace (1 * 0.3) with 0.3 by lra. apply around_none; [lra | exact q_f]. }
  assert (Rs : resolved (strip_world true 1 0.5) between) by (destruct I as [e I]; unfold resolved; cbn [between c_radius]; rewrite I; discriminate).
  destruct (session_right (strip_world true 1 0.5) between eq_refl [Emplaceable; EjectaRegion; Form] fresh) as (v & _ & _ & H); [repeat constructor | apply known_fresh |].
  destruct (session between _ _) as [s l]. cbn [snd] in *. inversion H as [| ? ? ? ? H1 H2]; subst. inversion H2 as [| ? ? ? ? H3 H4]; subst. inversion H4 as [| ? ? ? ? H5 H6]; subst. inversion H6; subst.
  destruct H1 as (b & -> & Hb). apply Hb in Rs as Eb. subst b. destruct H3 as [H3 _]. rewrite (H3 Rs).
  destruct H5 as (_ & _ & H5). rewrite H5; auto.
  - cbn [strip_world w_extent between c_radius]. f_equal. f_equal. f_equal. f_equal. exact O.
  - cbn [strip_world w_area between c_radius]. assert (P := PI_RGT_0). assert (P2 : 3 < PI) by (pose proof PI2_3_2; unfold Rdiv in *; lra). nra.
Qed.

(** A crater of half the size of a face. *)
Definition little : fixed R := mk_fixed 0 0.49.
Lemma little_formed : exists a, PI * c_radius little ^ 2 < 1 /\
  snd (session little [Form] (strip_world true 3 1, fresh)) = [Ok (ADigging (Digs a))] /\ In 0%nat (v_faces a).
Proof.
  destruct (around_some true 3 1 little 0.735 _ _ _ ltac:(lra) q_g ltac:(discriminate) eq_refl eq_refl) as [e I].
  assert (I2 : around (strip_world true 3 1) little (1.5 * c_radius little) = Some (mkView [0; 1] [0; 1; 2] e 0.735)%nat) by (cbn [little c_radius]; replace (1.5 * 0.49) with 0.735 by lra; exact I).
  assert (Le : 1.5 * c_radius little <= w_extent (strip_world true 3 1) little) by (cbn; lra).
  destruct (around_grows (strip_world true 3 1) little long_sound (strip_tree true 3 1) strip_radius_pos _ _ _ Le I2) as (u & Eu & Iu & _).
  exists u. assert (P3 : 3 < PI) by (pose proof PI2_3_2; unfold Rdiv in *; lra). assert (P4 := PI_4). split; [cbn [little c_radius]; nra |].
  split; [| apply Iu; cbn; tauto].
  destruct (session_right (strip_world true 3 1) little eq_refl [Form] fresh) as (v & _ & _ & H); [repeat constructor | apply known_fresh |].
  destruct (session little _ _) as [s l]. cbn [snd] in *. inversion H as [| ? ? ? ? H1 H2]; subst. inversion H2; subst.
  destruct H1 as (_ & H1 & _). rewrite (H1 ltac:(unfold resolved; rewrite I2; discriminate) ltac:(cbn; nra) u Eu). reflexivity.
Qed.

(** Another surface. *)
Section Stale.
Context {L : Type} (c : fixed L) (w1 w2 : world L).
Hypotheses (R1 : w_ready w1 = true) (R2 : w_ready w2 = true).
Lemma stale_face : snd (session c [FaceIndex; EjectaRmax; Surface w2; Drop; FaceIndex; EjectaRmax] (w1, fresh)) =
  [Ok (AnIndex (Some (w_nearest w1 (c_at c)))); Ok (ALength (Some (w_extent w1 c))); Ok Nothing; Ok Nothing;
   Ok (AnIndex (Some (w_nearest w1 (c_at c)))); Ok (ALength (Some (w_extent w1 c)))].
Proof.
  cbn [session step]. unfold face_index at 1. cbn [fresh x_face]. rewrite R1. cbn. unfold ejecta_rmax. cbn. rewrite R1. reflexivity.
Qed.
Lemma after_em : emplaceable w1 c fresh = (mk_var None None (around w1 c (1.5 * c_radius c)) None None None (Some (has (around w1 c (1.5 * c_radius c)))), Some (has (around w1 c (1.5 * c_radius c)))).
Proof. unfold emplaceable, crater_region. cbn [fresh x_emplaceable x_crater]. rewrite R1. cbn. rewrite inner_extract. destruct (around w1 c (1.5 * c_radius c)); reflexivity. Qed.
Lemma stale_lost : resolved w1 c -> ~ resolved w2 c ->
  snd (session c [Emplaceable; Surface w2; Drop; Emplaceable; CraterRegion; Form] (w1, fresh)) =
  [Ok (AFlag (Some true)); Ok Nothing; Ok Nothing; Ok (AFlag (Some true)); Ok (ARegion None); Err AttributeError].
Proof.
  intros A B. apply (resolved_has w1 c) in A. apply (unresolved_has w2 c) in B. cbn [session step]. rewrite after_em, A.
  destruct (around w2 c (1.5 * c_radius c)) eqn:E; [discriminate B |].
  assert (C : crater_region w2 c (mk_var None None None None None None (Some true)) = (mk_var None None None None None None (Some true), None)).
  { unfold crater_region. cbn [x_crater]. rewrite R2, inner_extract, E. reflexivity. }
  change (mk_var None None None None None None (Some true)) with (remove_complex_data (mk_var None None (around w1 c (1.5 * c_radius c)) None None None (Some true))) in C at 1.
  cbn -[crater_region around]. rewrite C. cbn -[crater_region around]. unfold remove_complex_data in C. cbn [x_face x_extent x_emplaceable] in C. rewrite C. reflexivity.
Qed.
Lemma stale_kept : ~ resolved w1 c -> resolved w2 c ->
  snd (session c [Emplaceable; Surface w2; Drop; Emplaceable; Form] (w1, fresh)) =
  [Ok (AFlag (Some false)); Ok Nothing; Ok Nothing; Ok (AFlag (Some false)); Ok (ADigging Skipped)].
Proof.
  intros A B. apply (unresolved_has w1 c) in A. cbn [session step]. rewrite after_em, A. reflexivity.
Qed.
End Stale.

(** A crater that one strip resolves and another, with a face every ten, does not. *)
Definition coarse : world R := mk_world true long_strip strip_radius (fun p a => strip_faces (p / 10) (a / 10)) (fun _ => O) (fun _ => 50) (fun c => 3 * c_radius c).
Definition middle : fixed R := mk_fixed 4 1.
Lemma q_i : strip_faces (4 / 10) (1.5 / 10) = []. Proof. faces_of. Qed.
Lemma middle_two : resolved (strip_world true 3 0.5) middle /\ ~ resolved coarse middle.
Proof.
  unfold resolved. cbn [middle c_radius]. replace (1.5 * 1) with 1.5 by lra. split.
  - destruct (around_some true 3 0.5 middle 1.5 _ _ _ ltac:(lra) q_h ltac:(discriminate) eq_refl eq_refl) as [e E]. rewrite E. discriminate.
  - unfold around, extract_region. cbn [coarse w_mesh w_radius w_query w_nearest middle c_at]. rewrite strip_angle, q_i. destruct (Rlt_dec 1.5 180); [tauto | lra].
Qed.
Lemma middle_covered : 1.5 * c_radius middle <= w_extent (strip_world true 3 0.5) middle /\ resolved (strip_world true 3 0.5) middle.
Proof. split; [cbn; lra | exact (proj1 middle_two)]. Qed.
