(** The samples of Region_spec. *)
From Coq Require Import Reals List Arith Lia Lra ZArith Permutation.
From Verif Require Import Common RSum Sorting Mesh_model Region_model Region_spec Region_proofs Region_more.
Import ListNotations.
Open Scope R_scope.

Lemma border_interior m areas v s F N new ow : fits m v s F N -> List.length (v_nodes v) <> List.length (v_faces v) ->
  List.length new = List.length (v_faces v) -> List.length new <> 1%nat ->
  (forall n, In n (v_nodes v) -> 0 < lsum (fun f => nth f areas 0) (faces_around m v n)) ->
  exists s' F' N', update_elevation m areas v s new ow = (s', Ok tt) /\ s' "face_elevation"%string = Some F' /\ s' "node_elevation"%string = Some N' /\ updated F F' (v_faces v) new ow /\
  (forall n, In n (v_nodes v) -> (forall f, In (Some f) (node_faces_of m n) -> In f (v_faces v)) -> nth_error N' n = Some (mean_over (valid (node_faces_of m n)) F' areas)) /\
  (forall n, In n (v_nodes v) -> nth_error N' n = Some (mean_over (faces_around m v n) F' areas)).
Proof.
  intros Fit Dif L L1 P. destruct (update_faces m areas v s F N ow Fit Dif new L L1 P) as (s' & F' & N' & A & (_ & _ & _ & _ & E1 & E2 & _) & _ & U & (_ & V & _)).
  exists s', F', N'. split; [exact A |]. split; [exact E1 |]. split; [exact E2 |]. split; [exact U |].
  assert (G : forall n, In n (v_nodes v) -> nth_error N' n = Some (mean_over (faces_around m v n) F' areas)).
  { intros n Hn. apply In_nth_error in Hn. destruct Hn as [k Hk]. apply (V k n); [exact Hk |]. exact (map_nth_error (fun n => mean_over (faces_around m v n) F' areas) k _ Hk). }
  split; [| exact G]. intros n Hn H. rewrite (G n Hn). f_equal. f_equal. unfold faces_around.
  assert (Q : forall f, In f (valid (node_faces_of m n)) -> In f (v_faces v)) by (intros f Hf; apply H; apply valid_in; exact Hf).
  revert Q. generalize (valid (node_faces_of m n)). induction l as [| x l IH]; intros Q; [reflexivity |]. cbn [filter].
  assert (existsb (Nat.eqb x) (v_faces v) = true) as -> by (apply existsb_exists; exists x; split; [apply Q; left; reflexivity | apply Nat.eqb_refl]).
  f_equal. apply IH. intros f Hf. apply Q. right. exact Hf.
Qed.
Lemma strip_fits F N : List.length F = 4%nat -> List.length N = 5%nat -> fits strip strip_end (strip_data F N) F N.
Proof.
  intros A B. unfold fits. cbn [v_faces v_nodes strip_end m_nface m_nnode strip].
  split; [repeat constructor; cbn; intuition lia |]. split; [repeat constructor; cbn; intuition lia |].
  split; [intros f [<- | [<- | []]]; lia |]. split; [intros f [<- | [<- | [<- | []]]]; lia |]. repeat split; assumption.
Qed.
Lemma strip_areas n : In n (v_nodes strip_end) -> 0 < lsum (fun f => nth f [1; 1; 1; 1] 0) (faces_around strip strip_end n).
Proof. intros [<- | [<- | [<- | []]]]; cbn; lra. Qed.
Lemma border_refuted : exists s' N', update_elevation strip [1; 1; 1; 1] strip_end (strip_data [0; 0; 4; 0] [0; 0; 2; 2; 0]) [0; 0] false = (s', Ok tt) /\
  s' "face_elevation"%string = Some [0; 0; 4; 0] /\ s' "node_elevation"%string = Some N' /\
  mean_over (valid (node_faces_of strip 2)) [0; 0; 4; 0] [1; 1; 1; 1] = 2 /\ nth 2 N' 0 = 0.
Proof.
  destruct (border_interior strip [1; 1; 1; 1] strip_end _ _ _ [0; 0] false (strip_fits [0; 0; 4; 0] [0; 0; 2; 2; 0] eq_refl eq_refl) ltac:(discriminate) eq_refl ltac:(discriminate) strip_areas)
    as (s' & F' & N' & A & B & C & (U1 & U2 & U3) & _ & G).
  assert (F' = [0; 0; 4; 0]).
  { pose proof (U2 0%nat 0%nat 0 eq_refl eq_refl) as X0. pose proof (U2 1%nat 1%nat 0 eq_refl eq_refl) as X1. pose proof (U3 2%nat) as X2. pose proof (U3 3%nat) as X3.
    specialize (X2 ltac:(cbn; intuition lia)). specialize (X3 ltac:(cbn; intuition lia)).
    destruct F' as [| a [| b [| c [| d [| e F']]]]]; try discriminate U1. cbn in X0, X1, X2, X3. rewrite Rplus_0_r in X0, X1. congruence. }
  subst F'. exists s', N'. split; [exact A |]. split; [exact B |]. split; [exact C |]. split; [unfold mean_over; cbn; field |].
  specialize (G 2%nat ltac:(cbn; tauto)). rewrite (nth_error_nth _ _ _ G). unfold mean_over. cbn. field.
Qed.

(** Equal numbers of faces and nodes. *)
Lemma square_refuted : exists s' N', update_elevation strip [1; 1; 1; 1] square (strip_data [0; 0; 0; 0] [0; 0; 0; 0; 0]) [10; 20] false = (s', Ok tt) /\
  s' "node_elevation"%string = Some N' /\ ~ In 0%nat (v_nodes square) /\ nth 0 N' 0 = 15 /\ In 2%nat (v_nodes square) /\ nth 2 N' 0 = 0.
Proof.
  unfold update_elevation. cbn [v_faces v_nodes square List.length Nat.eqb]. set (s := strip_data _ _).
  destruct (add_data_ok strip square s "face_elevation" [10; 20] true false 0 [0; 0; 0; 0] [0; 1]%nat eq_refl) as (F' & s1 & A & B & (C1 & C2 & C3) & D).
  { repeat constructor; cbn; intuition lia. } { intros i [<- | [<- | []]]; cbn; lia. } { left. split; reflexivity. }
  rewrite A. cbn [sbind]. unfold interpolate_nodes. rewrite B.
  destruct F' as [| a [| b [| c [| d [| e F']]]]]; try discriminate C1.
  pose proof (C2 0%nat 0%nat 10 eq_refl eq_refl) as X0. pose proof (C2 1%nat 1%nat 20 eq_refl eq_refl) as X1. cbn in X0, X1.
  assert (a = 10) by (assert (a = 0 + 10) by congruence; lra). assert (b = 20) by (assert (b = 0 + 20) by congruence; lra). subst a b.
  assert (E : map (interpolate_row (take [10; 20; c; d] (v_faces square)) (take [1; 1; 1; 1] (v_faces square))) (remap (node_faces_of strip) (v_nodes square) (v_faces square)) = [15; 20]).
  { cbn. unfold interpolate_row. cbn. f_equal; [| f_equal].
    - destruct (Rlt_dec 0 (0 + 1 + 1)); [field | lra].
    - destruct (Rlt_dec 0 (0 + 1)); [field | lra]. }
  rewrite E. destruct (add_data_ok strip square s1 "node_elevation" [15; 20] true true 0 [0; 0; 0; 0; 0] [0; 1]%nat) as (N' & s2 & A2 & B2 & (G1 & G2 & G3) & D2).
  { rewrite D by discriminate. reflexivity. } { repeat constructor; cbn; intuition lia. } { intros i [<- | [<- | []]]; cbn; lia. } { left. split; reflexivity. }
  rewrite A2. exists s2, N'. split; [reflexivity |]. split; [exact B2 |]. split; [cbn; intuition lia |].
  split; [rewrite (nth_error_nth _ _ _ (G2 0%nat 0%nat 15 eq_refl eq_refl)); reflexivity |]. split; [cbn; tauto |].
  assert (X := G3 2%nat ltac:(cbn; intuition lia)). rewrite (nth_error_nth _ _ _ X). reflexivity.
Qed.

(** Subregions. *)
Lemma strip_angle r : r / strip_radius * 180 / PI = r.
Proof. unfold strip_radius. field. apply PI_neq0. Qed.
Lemma strip_within r : lists_within strip INR r (strip_query (r / strip_radius * 180 / PI)).
Proof.
  rewrite strip_angle. intros f. unfold strip_query. rewrite filter_In, in_seq. cbn [m_nface strip]. destruct (Rle_dec (INR f) r); split; intros [A B]; split; try assumption; try lia; try discriminate; try contradiction; lra.
Qed.
Lemma strip_sound : sound strip.
Proof.
  split; [| split].
  - intros f x H. cbn [strip m_nface m_nnode m_nedge face_faces face_nodes face_edges] in *. repeat split.
    + destruct f as [| [| [| [| f]]]]; try lia; cbn; intros [A | [A | []]]; try discriminate A; injection A as <-; lia.
    + intros [A | [A | []]]; injection A as <-; lia.
    + intros [A | [A | []]]; injection A as <-; lia.
  - intros n x H. cbn [strip m_nface m_nnode node_faces_of] in *. destruct n as [| [| [| [| [| n]]]]]; try lia; cbn; intros [A | [A | []]]; try discriminate A; injection A as <-; lia.
  - intros n x H. cbn [strip m_nface m_nedge edge_faces] in *. destruct n as [| [| [| [| [| n]]]]]; try lia; cbn; intros [A | [A | []]]; try discriminate A; injection A as <-; lia.
Qed.
Lemma q2 : strip_query 2 = [0; 1; 2]%nat.
Proof.
  unfold strip_query. cbn [seq filter]. rewrite !S_INR. change (INR 0) with 0.
  destruct (Rle_dec 0 2); [| lra]. destruct (Rle_dec (0 + 1) 2); [| lra]. destruct (Rle_dec (0 + 1 + 1) 2); [| lra]. destruct (Rle_dec (0 + 1 + 1 + 1) 2); [lra | reflexivity].
Qed.
Lemma q0 : strip_query 0 = [0]%nat.
Proof.
  unfold strip_query. cbn [seq filter]. rewrite !S_INR. change (INR 0) with 0.
  destruct (Rle_dec 0 0); [| lra]. destruct (Rle_dec (0 + 1) 0); [lra |]. destruct (Rle_dec (0 + 1 + 1) 0); [lra |]. destruct (Rle_dec (0 + 1 + 1 + 1) 0); [lra | reflexivity].
Qed.
Lemma strip_r2 : extract_region strip strip_radius strip_query 0 2 false = Some (mkView [0; 1; 2; 3] [0; 1; 2; 3; 4] [0; 1; 2; 3] 2)%nat.
Proof. unfold extract_region. rewrite strip_angle, q2. destruct (Rlt_dec 2 180); [| lra]. reflexivity. Qed.
Lemma strip_r0 : extract_region strip strip_radius strip_query 0 0 false = Some (mkView [0; 1] [0; 1; 2] [0; 1] 0)%nat.
Proof. unfold extract_region. rewrite strip_angle, q0. destruct (Rlt_dec 0 180); [| lra]. reflexivity. Qed.
Lemma strip_sub : extract_subregion strip INR (mkView [0; 1; 2; 3] [0; 1; 2; 3; 4] [0; 1; 2; 3] 2)%nat 0 = Some (mkView [0; 1] [0; 1] [0; 1] 0)%nat.
Proof.
  unfold extract_subregion. cbn [v_radius v_faces]. destruct (Rlt_dec 0 2); [| lra]. assert (E : filter (fun f => if Rle_dec (INR f) 0 then true else false) [0; 1; 2; 3]%nat = [0]%nat) by exact q0. rewrite E. reflexivity.
Qed.
Lemma sub_refuted : exists v v1 v2, extract_region strip strip_radius strip_query 0 2 false = Some v /\ extract_subregion strip INR v 0 = Some v2 /\
  extract_region strip strip_radius strip_query 0 0 false = Some v1 /\ In 1%nat (v_faces v2) /\ In (Some 2%nat) (face_nodes strip 1) /\ ~ In 2%nat (v_nodes v2) /\ In 2%nat (v_nodes v1).
Proof.
  eexists. eexists. eexists. split; [exact strip_r2 |]. split; [exact strip_sub |]. split; [exact strip_r0 |]. cbn. intuition lia.
Qed.

(** Face bins. *)
Lemma three_small : smallest [1; 1.5; 3] 1 /\ largest [1; 1.5; 3] 3 /\ forall k : nat, 3 <> 1 * 2 ^ k.
Proof.
  split; [split; [cbn; tauto | intros y [<- | [<- | [<- | []]]]; lra] |]. split; [split; [cbn; tauto | intros y [<- | [<- | [<- | []]]]; lra] |].
  intros [| [| k]] E; [cbn in E; lra | cbn in E; lra |]. assert (1 <= 2 ^ k) by (apply pow_R1_Rle; lra). cbn [pow] in E. lra.
Qed.
Lemma equal_areas a n : 0 < a -> face_bins (repeat a (S n)) = Err IndexError.
Proof.
  intros H. apply (bins_err _ a 0); [| | exact H].
  - split; [left; reflexivity |]. intros y Hy. apply repeat_spec in Hy. lra.
  - split; [left; cbn; ring |]. intros y Hy. apply repeat_spec in Hy. cbn. lra.
Qed.

(** Amplitude. *)
Lemma moon_noise simplex n : (forall i, -1 <= simplex i <= 1) -> Rabs (raw_noise simplex n 1000 1737400) < 0.001.
Proof. intros H. pose proof (turbulence_bound simplex n (1000 / 1737400) H ltac:(lra)). unfold raw_noise. lra. Qed.
Lemma noise_samples : (forall i : nat, -1 <= 1 <= 1) /\ raw_noise (fun _ => 1) 1 1000 1737400 = 1000 / 1737400.
Proof. split; [intros; lra |]. unfold raw_noise, turbulence. cbn. field. Qed.
Lemma noise_amplitude m areas v s F N (simplex : nat -> nat -> R) octs H radius : fits m v s F N -> List.length (v_nodes v) <> List.length (v_faces v) -> v_faces v <> [] -> v_nodes v <> [] ->
  (forall f, In f (v_faces v) -> 0 < nth f areas 0) -> 0 < H -> 0 < radius -> (forall p i, -1 <= simplex p i <= 1) ->
  let noise := map (fun p => raw_noise (simplex p) octs H radius) (seq 0 (List.length (v_faces v) + List.length (v_nodes v))) in
  exists s' F' N', apply_noise m areas v s noise = (s', Ok tt) /\ s' "face_elevation"%string = Some F' /\ s' "node_elevation"%string = Some N' /\
    (forall i, Rabs (nth i F' 0 - nth i F 0) <= 8 / 3 * (H / radius)) /\ (forall i, Rabs (nth i N' 0 - nth i N 0) <= 8 / 3 * (H / radius)).
Proof.
  intros Fit Dif N1 N2 PA PH PR Hs. cbv zeta. assert (Q : 0 < H / radius) by (apply Rdiv_lt_0_compat; assumption).
  destruct (noise_small m areas v s F N (map (fun p => raw_noise (simplex p) octs H radius) (seq 0 (List.length (v_faces v) + List.length (v_nodes v)))) (4 / 3 * (H / radius)) Fit Dif N1 N2) as (s' & F' & N' & A & (_ & _ & _ & _ & B & C & _) & D & E).
  - rewrite map_length, seq_length. reflexivity.
  - intros f. destruct (in_dec Nat.eq_dec f (v_faces v)); [left; apply PA; assumption | right; assumption].
  - intros x Hx. apply in_map_iff in Hx. destruct Hx as (p & <- & _). apply turbulence_bound; [apply Hs | lra].
  - exists s', F', N'. split; [exact A |]. split; [exact B |]. split; [exact C |]. split; intros i; [specialize (D i) | specialize (E i)]; lra.
Qed.
