(** Proofs about Footprint_model. *)
From Coq Require Import Reals Lra Lia.
From Verif Require Import Common Region_model Region_spec Region_proofs Footprint_model Footprint_spec.
From Verif Require Queue_model Queue_spec Queue_proofs.
Import ListNotations.
Open Scope R_scope.

Section Proofs.
Context {L : Type} (w : world L) (c : fixed L).
Notation inner := (around w c (1.5 * c_radius c)).
Notation outer := (around w c (w_extent w c)).
Definition has {A} (o : option A) : bool := match o with Some _ => true | None => false end.
Definition fset (o : option view) : list nat := match o with Some r => v_faces r | None => [] end.
Definition nset (o : option view) : list nat := match o with Some r => v_nodes r | None => [] end.
Definition outer' : option view := if has inner then outer else None.
Definition only {A} (o : option A) (x : A) : Prop := o = None \/ o = Some x.
Record known (v : var) : Prop := {
  k_face : only (x_face v) (w_nearest w (c_at c)); k_ext : only (x_extent v) (w_extent w c);
  k_cr : x_crater v = None \/ x_crater v = inner; k_ej : x_ejecta v = None \/ x_ejecta v = outer';
  k_fs : x_faces v = None \/ (has inner = true /\ x_faces v = Some (fset outer));
  k_ns : x_nodes v = None \/ (has inner = true /\ x_nodes v = Some (nset outer));
  k_em : only (x_emplaceable v) (has inner) }.
Lemma known_fresh : known fresh. Proof. split; cbn; try (left; reflexivity). Qed.
Lemma known_drop v : known v -> known (remove_complex_data v).
Proof. intros []; split; cbn; try assumption; left; reflexivity. Qed.

Hypothesis ready : w_ready w = true.
Ltac keep K := destruct K; split; cbn; try assumption.
Lemma r_face v : known v -> known (fst (face_index w c v)) /\ snd (face_index w c v) = Some (w_nearest w (c_at c)).
Proof.
  intros K. unfold face_index. destruct (k_face v K) as [E | E]; rewrite E.
  - rewrite ready. cbn. split; [keep K; right; reflexivity | reflexivity].
  - cbn. auto.
Qed.
Lemma r_ext v : known v -> known (fst (ejecta_rmax w c v)) /\ snd (ejecta_rmax w c v) = Some (w_extent w c).
Proof.
  intros K. unfold ejecta_rmax. destruct (k_ext v K) as [E | E]; rewrite E.
  - rewrite ready. cbn. split; [keep K; right; reflexivity | reflexivity].
  - cbn. auto.
Qed.
Lemma inner_extract : extract w (c_at c) (rim_buffer * c_radius c) = inner. Proof. reflexivity. Qed.
Lemma r_cr v : known v -> known (fst (crater_region w c v)) /\ snd (crater_region w c v) = inner.
Proof.
  intros K. unfold crater_region. destruct (x_crater v) as [r |] eqn:E.
  - destruct (k_cr v K) as [F | F]; rewrite E in F; [discriminate | cbn; auto].
  - rewrite ready, inner_extract. cbn. split; [keep K; right; reflexivity | reflexivity].
Qed.
Lemma r_ej v : known v -> known (fst (ejecta_region w c v)) /\ snd (ejecta_region w c v) = Ok outer'.
Proof.
  intros K. unfold ejecta_region. destruct (x_ejecta v) as [r |] eqn:E.
  - destruct (k_ej v K) as [F | F]; rewrite E in F; [discriminate | cbn; rewrite F; auto].
  - destruct (r_cr v K) as [K1 A]. destruct (crater_region w c v) as [v1 cr]. cbn in K1, A. subst cr. unfold outer'.
    destruct inner as [r |] eqn:I; cbn [has]; [| cbn; auto].
    destruct (r_ext v1 K1) as [K2 A]. destruct (ejecta_rmax w c v1) as [v2 e]. cbn in K2, A. subst e.
    change (extract w (c_at c) (w_extent w c)) with outer. cbn. split; [| reflexivity].
    keep K2. right. unfold outer'. rewrite I. reflexivity.
Qed.
Lemma r_em v : known v -> known (fst (emplaceable w c v)) /\ snd (emplaceable w c v) = Some (has inner).
Proof.
  intros K. unfold emplaceable. destruct (k_em v K) as [E | E]; rewrite E; [| cbn; auto]. rewrite ready.
  destruct (r_cr v K) as [K1 A]. destruct (crater_region w c v) as [v1 cr]. cbn in K1, A. subst cr. cbn.
  split; [| destruct inner; reflexivity]. keep K1. right. destruct inner; reflexivity.
Qed.
Lemma r_fs v : known v -> known (fst (affected_faces w c v)) /\ snd (affected_faces w c v) = Ok (if has inner then Some (fset outer) else None).
Proof.
  intros K. unfold affected_faces. destruct (x_faces v) as [s |] eqn:E.
  - destruct (k_fs v K) as [F | [H F]]; rewrite E in F; [discriminate | cbn; rewrite H, F; auto].
  - rewrite ready. destruct (r_em v K) as [K1 A]. destruct (emplaceable w c v) as [v1 b]. cbn in K1, A. subst b.
    destruct (has inner) eqn:H; [| cbn; auto].
    destruct (r_ej v1 K1) as [K2 A]. destruct (ejecta_region w c v1) as [v2 r]. cbn in K2, A. subst r. unfold outer'. rewrite H. cbn.
    split; [| reflexivity]. keep K2. right. auto.
Qed.
Lemma r_ns v : known v -> known (fst (affected_nodes w c v)) /\ snd (affected_nodes w c v) = Ok (if has inner then Some (nset outer) else None).
Proof.
  intros K. unfold affected_nodes. destruct (x_nodes v) as [s |] eqn:E.
  - destruct (k_ns v K) as [F | [H F]]; rewrite E in F; [discriminate | cbn; rewrite H, F; auto].
  - rewrite ready. destruct (r_em v K) as [K1 A]. destruct (emplaceable w c v) as [v1 b]. cbn in K1, A. subst b.
    destruct (has inner) eqn:H; [| cbn; auto].
    destruct (r_ej v1 K1) as [K2 A]. destruct (ejecta_region w c v1) as [v2 r]. cbn in K2, A. subst r. unfold outer'. rewrite H. cbn.
    split; [| reflexivity]. keep K2. right. auto.
Qed.
Lemma r_ov v : known v -> known (fst (overlap_function w c v)) /\
  snd (overlap_function w c v) = Ok (if has inner then (nset outer, fset outer) else ([], [])).
Proof.
  intros K. unfold overlap_function. destruct (r_em v K) as [K1 A]. destruct (emplaceable w c v) as [v1 b]. cbn in K1, A. subst b.
  destruct (has inner) eqn:H; [| cbn; auto].
  destruct (r_ns v1 K1) as [K2 A]. destruct (affected_nodes w c v1) as [v2 n]. cbn in K2, A. subst n. rewrite H.
  destruct (r_fs v2 K2) as [K3 A]. destruct (affected_faces w c v2) as [v3 f]. cbn in K3, A. subst f. rewrite H. cbn. auto.
Qed.
Lemma inner_radius r : inner = Some r -> v_radius r = 1.5 * c_radius c.
Proof.
  unfold around, extract_region. destruct (Rlt_dec _ 180).
  - destruct (w_query w (c_at c) _); [discriminate |]. intros [= <-]. reflexivity.
  - intros [= <-]. reflexivity.
Qed.
Lemma r_form v : known v -> known (fst (form_crater w c v)) /\
  snd (form_crater w c v) =
    (if has inner then
       if Rlt_dec (w_area w (w_nearest w (c_at c))) (PI * (1.5 * c_radius c) ^ 2)
       then match outer with Some r => Ok (Digs r) | None => Err AttributeError end else Ok Skipped
     else Ok Skipped).
Proof.
  intros K. unfold form_crater. destruct (r_em v K) as [K1 A]. destruct (emplaceable w c v) as [v1 b]. cbn in K1, A. subst b.
  destruct (has inner) eqn:H; [| cbn; auto].
  destruct (r_cr v1 K1) as [K2 A]. destruct (crater_region w c v1) as [v2 cr]. cbn in K2, A. subst cr.
  pose proof inner_radius as IR. destruct inner as [cr |] eqn:I; [| discriminate H]. rewrite (IR cr eq_refl).
  destruct (r_face v2 K2) as [K3 A]. destruct (face_index w c v2) as [v3 i]. cbn in K3, A. subst i.
  destruct (Rlt_dec _ _); [| cbn; auto].
  destruct (r_ej v3 K3) as [K4 A]. destruct (ejecta_region w c v3) as [v4 ej]. cbn in K4, A. subst ej. unfold outer'. rewrite I. cbn [has].
  destruct outer; cbn; auto.
Qed.

Lemma resolved_has : resolved w c <-> has inner = true.
Proof. unfold resolved. destruct inner; cbn; intuition congruence. Qed.
Lemma unresolved_has : ~ resolved w c <-> has inner = false.
Proof. unfold resolved. destruct inner; cbn; intuition congruence. Qed.

Lemma split_res : (has inner = true /\ resolved w c) \/ (has inner = false /\ ~ resolved w c).
Proof. unfold resolved. destruct inner; cbn; [left | right]; split; auto; discriminate. Qed.
Lemma step_right o v : stays o -> known v ->
  exists v', fst (step c o (w, v)) = (w, v') /\ known v' /\ right w c o (snd (step c o (w, v))).
Proof.
  intros St K. destruct o; cbn [step]; try contradiction St.
  - destruct (r_face v K) as [K1 A]. destruct (face_index w c v) as [v1 i]. cbn in *. subst i. eauto.
  - destruct (r_ext v K) as [K1 A]. destruct (ejecta_rmax w c v) as [v1 i]. cbn in *. subst i. eauto.
  - destruct (r_cr v K) as [K1 A]. destruct (crater_region w c v) as [v1 i]. cbn [fst snd] in *. subst i. exists v1. repeat split; auto; apply K1.
  - destruct (r_ej v K) as [K1 A]. destruct (ejecta_region w c v) as [v1 i]. cbn [fst snd] in *. subst i. exists v1.
    split; [reflexivity |]. split; [exact K1 |]. cbn [right rmap]. unfold outer'. destruct split_res as [[H N] | [H N]]; rewrite H; split; intros; try contradiction; reflexivity.
  - destruct (r_fs v K) as [K1 A]. destruct (affected_faces w c v) as [v1 i]. cbn [fst snd] in *. subst i. exists v1.
    split; [reflexivity |]. split; [exact K1 |]. cbn [right rmap]. destruct split_res as [[H N] | [H N]]; rewrite H; (split; [| split]); intros; try contradiction; try reflexivity.
    + rewrite H1. reflexivity.
    + rewrite H1. reflexivity.
  - destruct (r_ns v K) as [K1 A]. destruct (affected_nodes w c v) as [v1 i]. cbn [fst snd] in *. subst i. exists v1.
    split; [reflexivity |]. split; [exact K1 |]. cbn [right rmap]. destruct split_res as [[H N] | [H N]]; rewrite H; (split; [| split]); intros; try contradiction; try reflexivity.
    + rewrite H1. reflexivity.
    + rewrite H1. reflexivity.
  - destruct (r_em v K) as [K1 A]. destruct (emplaceable w c v) as [v1 i]. cbn [fst snd] in *. subst i. exists v1.
    split; [reflexivity |]. split; [exact K1 |]. cbn [right]. eexists. split; [reflexivity |]. rewrite resolved_has. reflexivity.
  - destruct (r_ov v K) as [K1 A]. destruct (overlap_function w c v) as [v1 i]. cbn [fst snd] in *. subst i. exists v1.
    split; [reflexivity |]. split; [exact K1 |]. cbn [right rmap]. destruct split_res as [[H N] | [H N]]; rewrite H; cbn [fst snd]; split; intros; try contradiction; try reflexivity.
    + rewrite H1. reflexivity.
    + destruct H0 as [B | B]; [contradiction | rewrite B; reflexivity].
  - destruct (r_form v K) as [K1 A]. destruct (form_crater w c v) as [v1 i]. cbn [fst snd] in *. subst i. exists v1.
    split; [reflexivity |]. split; [exact K1 |]. cbn [right rmap]. destruct split_res as [[H N] | [H N]]; rewrite H; [destruct (Rlt_dec _ _) |]; (split; [| split]); intros; try contradiction; try reflexivity.
    + destruct H0 as [B | B]; contradiction.
    + rewrite H2. reflexivity.
    + rewrite H2. reflexivity.
  - exists (remove_complex_data v). cbn. split; [reflexivity |]. split; [apply known_drop; exact K | reflexivity].
Qed.

Lemma session_right os : forall v, Forall stays os -> known v ->
  exists v', fst (session c os (w, v)) = (w, v') /\ known v' /\ Forall2 (right w c) os (snd (session c os (w, v))).
Proof.
  induction os as [| o os IH]; intros v St K; cbn [session].
  - exists v. cbn. auto.
  - apply Forall_cons_iff in St as [So St]. destruct (step_right o v So K) as (v1 & E1 & K1 & R1).
    destruct (step c o (w, v)) as [s1 a1]. cbn [fst snd] in E1, R1. subst s1.
    destruct (IH v1 St K1) as (v2 & E2 & K2 & R2). destruct (session c os (w, v1)) as [s2 l2]. cbn [fst snd] in *.
    exists v2. auto.
Qed.
End Proofs.

Section Waiting.
Context {L : Type} (c : fixed L).
Lemma step_unknown o (w : world L) : w_ready w = false -> waits o ->
  exists w', fst (step c o (w, fresh)) = (w', fresh) /\ w_ready w' = false /\ unknown o (snd (step c o (w, fresh))).
Proof.
  intros N W. destruct o; cbn [step]; unfold overlap_function, form_crater, affected_nodes, affected_faces, ejecta_region, emplaceable, crater_region, ejecta_rmax, face_index;
    cbn [fresh x_face x_extent x_crater x_ejecta x_faces x_nodes x_emplaceable]; rewrite ?N; cbn; eauto.
Qed.
Lemma session_app os1 : forall os2 (s : world L * var), session c (os1 ++ os2)%list s =
  (fst (session c os2 (fst (session c os1 s))), (snd (session c os1 s) ++ snd (session c os2 (fst (session c os1 s))))%list).
Proof.
  induction os1 as [| o os1 IH]; intros os2 s; cbn [session app].
  - cbn. destruct (session c os2 s); reflexivity.
  - destruct (step c o s) as [s1 a]. rewrite IH. destruct (session c os1 s1) as [s2 l]. reflexivity.
Qed.
Lemma session_unknown os : forall w : world L, w_ready w = false -> Forall waits os ->
  exists w', fst (session c os (w, fresh)) = (w', fresh) /\ w_ready w' = false /\ Forall2 unknown os (snd (session c os (w, fresh))).
Proof.
  induction os as [| o os IH]; intros w N W; cbn [session].
  - exists w. cbn. auto.
  - apply Forall_cons_iff in W as [Wo W]. destruct (step_unknown o w N Wo) as (w1 & E1 & N1 & U1).
    destruct (step c o (w, fresh)) as [s1 a1]. cbn [fst snd] in *. subst s1.
    destruct (IH w1 N1 W) as (w2 & E2 & N2 & U2). destruct (session c os (w1, fresh)) as [s2 l2]. cbn [fst snd] in *.
    exists w2. auto.
Qed.
Lemma before_and_after (w0 w : world L) os1 os2 : w_ready w0 = false -> w_ready w = true -> Forall waits os1 -> Forall stays os2 ->
  exists a1 a2, snd (session c (os1 ++ Surface w :: os2)%list (w0, fresh)) = (a1 ++ Ok Nothing :: a2)%list /\
    Forall2 unknown os1 a1 /\ Forall2 (right w c) os2 a2.
Proof.
  intros N Rd W St. rewrite session_app. destruct (session_unknown os1 w0 N W) as (w1 & E1 & _ & U1). rewrite E1.
  cbn [session step]. destruct (session_right w c Rd os2 fresh St (known_fresh w c)) as (v2 & E2 & _ & R2).
  destruct (session c os2 (w, fresh)) as [s2 l2]. cbn [fst snd] in *. eauto.
Qed.
End Waiting.

(** Regions grow with the radius. *)
Section Growing.
Context {L : Type} (w : world L) (c : fixed L).
Hypothesis sound_mesh : sound (w_mesh w).
Hypothesis tree : tree_like w.
Hypothesis positive : 0 < w_radius w.
Lemma angle_le a b : a <= b -> a / w_radius w * 180 / PI <= b / w_radius w * 180 / PI.
Proof.
  intros H. unfold Rdiv. apply Rmult_le_compat_r; [apply Rlt_le, Rinv_0_lt_compat, PI_RGT_0 |].
  apply Rmult_le_compat_r; [lra |]. apply Rmult_le_compat_r; [apply Rlt_le, Rinv_0_lt_compat, positive | exact H].
Qed.
Lemma attached_range faces n : (forall f, In f faces -> (f < m_nface (w_mesh w))%nat) -> attached (face_nodes (w_mesh w)) faces n -> (n < m_nnode (w_mesh w))%nat.
Proof. intros H (f & A & B). apply (proj1 sound_mesh f n (H f A)), B. Qed.
Lemma touches_mono core1 core2 f : incl core1 core2 -> touches (w_mesh w) core1 f -> touches (w_mesh w) core2 f.
Proof.
  intros I [H | (x & A & B)]; [left; apply I, H | right; exists x; split; [apply I, A | exact B]].
Qed.
Lemma around_grows a b v : a <= b -> around w c a = Some v ->
  exists u, around w c b = Some u /\ incl (v_faces v) (v_faces u) /\ incl (v_nodes v) (v_nodes u).
Proof.
  intros Le E. unfold around in *. pose proof (angle_le a b Le) as LA. destruct tree as [T1 T2].
  destruct (Rlt_dec (a / w_radius w * 180 / PI) 180) as [Sa | Sa].
  - destruct (region_contents _ _ _ _ _ _ _ E Sa) as (core & C & Cn & Fa & Na & _).
    assert (Cq : core = w_query w (c_at c) (a / w_radius w * 180 / PI)) by (destruct C as [C | (_ & Bad & _)]; [exact C | discriminate]).
    assert (Rg : forall f, In f core -> (f < m_nface (w_mesh w))%nat) by (intros f H; rewrite Cq in H; exact (T1 _ _ _ H)).
    destruct (Rlt_dec (b / w_radius w * 180 / PI) 180) as [Sb | Sb].
    + destruct (extract_region (w_mesh w) (w_radius w) (w_query w (c_at c)) (w_nearest w (c_at c)) b false) as [u |] eqn:Eb.
      * exists u. split; [reflexivity |]. destruct (region_contents _ _ _ _ _ _ _ Eb Sb) as (core2 & C2 & _ & Fb & Nb & _).
        assert (Cq2 : core2 = w_query w (c_at c) (b / w_radius w * 180 / PI)) by (destruct C2 as [C2 | (_ & Bad & _)]; [exact C2 | discriminate]).
        assert (I : incl core core2) by (rewrite Cq, Cq2; apply T2, LA).
        assert (If : incl (v_faces v) (v_faces u)) by (intros f H; apply Fb, (touches_mono core _ _ I), Fa, H).
        split; [exact If |]. intros n H. apply Nb. apply Na in H. destruct H as (f & A & B). exists f. split; [apply If, A | exact B].
      * exfalso. apply region_none in Eb as (_ & Q & _). destruct core as [| x core]; [contradiction |].
        assert (In x (w_query w (c_at c) (b / w_radius w * 180 / PI))) by (apply (T2 _ _ _ LA); rewrite <- Cq; left; reflexivity).
        rewrite Q in H. destruct H.
    + destruct (region_whole (w_mesh w) (w_radius w) (w_query w (c_at c)) (w_nearest w (c_at c)) b false) as (u & Eu & Fu & Nu & _); [lra |].
      exists u. split; [exact Eu |].
      assert (If : incl (v_faces v) (v_faces u)) by (intros f H; apply Fu; apply Fa in H; exact (touches_range _ _ _ sound_mesh Rg H)).
      split; [exact If |]. intros n H. apply Nu. apply Na in H. apply (attached_range (v_faces v)); [| exact H].
      intros f Hf. apply Fu, If, Hf.
  - destruct (region_whole (w_mesh w) (w_radius w) (w_query w (c_at c)) (w_nearest w (c_at c)) a false) as (v0 & E0 & F0 & N0 & _); [lra |].
    rewrite E in E0. injection E0 as <-.
    destruct (region_whole (w_mesh w) (w_radius w) (w_query w (c_at c)) (w_nearest w (c_at c)) b false) as (u & Eu & Fu & Nu & _); [lra |].
    exists u. split; [exact Eu |]. split; intros x H; [apply Fu, F0, H | apply Nu, N0, H].
Qed.
End Growing.

Section Batches.
Context {L : Type} (w : world L) (cs : nat -> fixed L) (time : nat -> option QArith_base.Q).
Lemma geometry_faces i v : w_ready w = true -> around w (cs i) (1.5 * c_radius (cs i)) = Some v ->
  Queue_model.faces (geometry_of w cs time) i = fset (around w (cs i) (w_extent w (cs i))) /\
  Queue_model.nodes (geometry_of w cs time) i = nset (around w (cs i) (w_extent w (cs i))).
Proof.
  intros Rd E. unfold geometry_of. cbn. destruct (r_ov w (cs i) Rd fresh (known_fresh w (cs i))) as [_ A]. rewrite A, E. cbn. auto.
Qed.
Lemma batch_apart queue i j a b va vb : w_ready w = true -> sound (w_mesh w) -> tree_like w -> 0 < w_radius w ->
  (i < j)%nat -> nth_error (Queue_model.peek_next_batch (geometry_of w cs time) queue) i = Some a ->
  nth_error (Queue_model.peek_next_batch (geometry_of w cs time) queue) j = Some b ->
  1.5 * c_radius (cs a) <= w_extent w (cs a) -> 1.5 * c_radius (cs b) <= w_extent w (cs b) ->
  around w (cs a) (1.5 * c_radius (cs a)) = Some va -> around w (cs b) (1.5 * c_radius (cs b)) = Some vb ->
  (forall f, In f (v_faces va) -> ~ In f (v_faces vb)) /\ (forall n, In n (v_nodes va) -> ~ In n (v_nodes vb)).
Proof.
  intros Rd Sm T P Lt A B La Lb Ea Eb. pose proof (Queue_proofs.peek_pairwise (geometry_of w cs time) queue [] [] i j a b Lt A B) as D.
  destruct (geometry_faces a va Rd Ea) as [Fa Na]. destruct (geometry_faces b vb Rd Eb) as [Fb Nb].
  destruct (around_grows w (cs a) Sm T P _ _ va La Ea) as (ua & Ua & Ia & Ja). destruct (around_grows w (cs b) Sm T P _ _ vb Lb Eb) as (ub & Ub & Ib & Jb).
  rewrite Ua in Fa, Na. rewrite Ub in Fb, Nb. cbn [fset nset] in Fa, Na, Fb, Nb.
  split; intros x H1 H2; apply D.
  - right. exists x. rewrite Fa, Fb. auto.
  - left. exists x. rewrite Na, Nb. auto.
Qed.
Lemma queue_view i : w_ready w = true ->
  (Queue_model.emplaceable (geometry_of w cs time) i = true <-> resolved w (cs i)) /\
  (~ resolved w (cs i) -> Queue_model.nodes (geometry_of w cs time) i = [] /\ Queue_model.faces (geometry_of w cs time) i = []) /\
  (forall r, resolved w (cs i) -> around w (cs i) (w_extent w (cs i)) = Some r ->
     Queue_model.nodes (geometry_of w cs time) i = v_nodes r /\ Queue_model.faces (geometry_of w cs time) i = v_faces r) /\
  Queue_model.time (geometry_of w cs time) i = time i.
Proof.
  intros Rd. unfold geometry_of. cbn [Queue_model.emplaceable Queue_model.nodes Queue_model.faces Queue_model.time]. destruct (r_ov w (cs i) Rd fresh (known_fresh w (cs i))) as [_ A]. destruct (r_em w (cs i) Rd fresh (known_fresh w (cs i))) as [_ B].
  rewrite A, B. split; [symmetry; apply resolved_has |]. split; [| split; [| reflexivity]].
  - intros N. rewrite (proj1 (unresolved_has w (cs i)) N). auto.
  - intros r Y E. rewrite (proj1 (resolved_has w (cs i)) Y), E. auto.
Qed.
End Batches.
