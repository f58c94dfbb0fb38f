(** Proofs for C115. *)
From Coq Require Import List Bool Arith Lia.
From Verif Require Import Common Parts_model Parts_spec.
Import ListNotations.

Lemma upd_same {A} (f : ref -> A) r x : upd f r x r = x.
Proof. unfold upd. now rewrite Nat.eqb_refl. Qed.
Lemma upd_other {A} (f : ref -> A) r x q : q <> r -> upd f r x q = f q.
Proof. unfold upd. intro N. apply Nat.eqb_neq in N. now rewrite N. Qed.

Lemma mk_target b a h h' t : make_target b a h = (h', t) ->
  projectile_target h' = projectile_target h /\ scalings h' = scalings h /\ surface_target h' = surface_target h /\
  countings h' = countings h /\ morphologies h' = morphologies h /\ production_crater h' = production_crater h /\
  (forall r, a = Given r -> t = r) /\ (not_given a -> target_body h' t = b).
Proof.
  destruct a; cbn; intro E; injection E as <- <-; repeat split; try reflexivity; try (intros q Q; discriminate Q).
  - intros _. apply upd_same.
  - intros _. apply upd_same.
  - intros q Q. now injection Q.
  - intros [].
Qed.
Lemma mk_production a t h h' p : make_production a t h = (h', p) ->
  target_body h' = target_body h /\
  projectile_target h' = projectile_target h /\ scalings h' = scalings h /\ surface_target h' = surface_target h /\
  countings h' = countings h /\ morphologies h' = morphologies h /\
  production_crater h' p = match a with Given r => production_crater h r | _ => None end /\
  (forall r, a = Given r -> p = r).
Proof.
  destruct a; cbn; intro E; injection E as <- <-; repeat split; try reflexivity; try (intros q Q; discriminate Q);
  try (apply upd_same). intros q Q. now injection Q.
Qed.
Lemma mk_projectile a t h h' p : make_projectile a t h = (h', p) ->
  target_body h' = target_body h /\
  scalings h' = scalings h /\ surface_target h' = surface_target h /\
  countings h' = countings h /\ morphologies h' = morphologies h /\ production_crater h' = production_crater h /\
  projectile_target h' p = match a with Given r => projectile_target h r | _ => t end /\
  (forall r, a = Given r -> p = r).
Proof.
  destruct a; cbn; intro E; injection E as <- <-; repeat split; try reflexivity; try (intros q Q; discriminate Q);
  try (apply upd_same). intros q Q. now injection Q.
Qed.
Lemma mk_scaling a t p h h' s : make_scaling a t p h = (h', s) ->
  target_body h' = target_body h /\
  projectile_target h' = projectile_target h /\ surface_target h' = surface_target h /\
  countings h' = countings h /\ morphologies h' = morphologies h /\ production_crater h' = production_crater h /\
  scalings h' s = mkScaling t p (match a with Given r => s_for (scalings h r) | _ => t end) /\
  (forall r, a = Given r -> s = r).
Proof.
  destruct a; cbn; intro E; injection E as <- <-; repeat split; try reflexivity; try (intros q Q; discriminate Q);
  try (apply upd_same). intros q Q. now injection Q.
Qed.
Lemma mk_surface a t h h' s : make_surface a t h = (h', s) ->
  target_body h' = target_body h /\
  projectile_target h' = projectile_target h /\ scalings h' = scalings h /\
  countings h' = countings h /\ morphologies h' = morphologies h /\ production_crater h' = production_crater h /\
  surface_target h' s = match a with Given r => surface_target h r | _ => t end /\
  (forall r, a = Given r -> s = r).
Proof.
  destruct a; cbn; intro E; injection E as <- <-; repeat split; try reflexivity; try (intros q Q; discriminate Q);
  try (apply upd_same). intros q Q. now injection Q.
Qed.
Lemma mk_counting a s h h' c : make_counting a s h = (h', c) ->
  target_body h' = target_body h /\
  projectile_target h' = projectile_target h /\ scalings h' = scalings h /\ surface_target h' = surface_target h /\
  morphologies h' = morphologies h /\ production_crater h' = production_crater h /\
  countings h' c = match a with Given r => countings h r | _ => mkCounting s None end /\
  (forall r, a = Given r -> c = r).
Proof.
  destruct a; cbn; intro E; injection E as <- <-; repeat split; try reflexivity; try (intros q Q; discriminate Q);
  try (apply upd_same). intros q Q. now injection Q.
Qed.
Lemma mk_morphology a s c sc p d h h' m : make_morphology a s c sc p d h = (h', m) ->
  target_body h' = target_body h /\
  projectile_target h' = projectile_target h /\ scalings h' = scalings h /\ surface_target h' = surface_target h /\
  production_crater h' = production_crater h /\
  morphologies h' m = match a with Given r => morphologies h r
                      | _ => mkMorphology s (Some c) sc p (match d with Some b => b | None => true end) end /\
  countings h' c = match a with Given r => countings h c | _ => mkCounting (c_surface (countings h c)) (Some m) end /\
  (forall r, a = Given r -> m = r).
Proof.
  destruct a; cbn [make_morphology]; intro E; injection E as <- <-.
  3: { repeat split. intros q Q. now injection Q. }
  all: destruct d as [b|]; cbn; rewrite ?upd_same; repeat split; try (intros q Q; discriminate Q).
Qed.

Record shape (a : args) (h h' : heap) (s : sim) : Prop := mkShape {
  f1 : projectile_target h' (projectile_ s) = match a_projectile a with Given r => projectile_target h r | _ => target_ s end;
  f2 : scalings h' (scaling_ s) =
       mkScaling (target_ s) (projectile_ s) (match a_scaling a with Given r => s_for (scalings h r) | _ => target_ s end);
  f3 : surface_target h' (surface_ s) = match a_surface a with Given r => surface_target h r | _ => target_ s end;
  f4 : c_surface (countings h' (counting_ s)) = match a_counting a with Given r => c_surface (countings h r) | _ => surface_ s end;
  f5 : c_morphology (countings h' (counting_ s)) =
       match a_morphology a with
       | Given _ => match a_counting a with Given r => c_morphology (countings h r) | _ => None end
       | _ => Some (morphology_ s) end;
  f6 : morphologies h' (morphology_ s) =
       match a_morphology a with
       | Given r => morphologies h r
       | _ => mkMorphology (surface_ s) (Some (counting_ s)) (scaling_ s) (production_ s)
                (match a_do a with Some b => b | None => true end) end;
  f7 : production_crater h' (production_ s) =
       match (match a_production a with Given r => production_crater h r | _ => None end) with
       | None => Some (morphology_ s) | Some m => Some m end;
  g1 : forall r, a_target a = Given r -> target_ s = r;
  g2 : forall r, a_production a = Given r -> production_ s = r;
  g3 : forall r, a_projectile a = Given r -> projectile_ s = r;
  g4 : forall r, a_scaling a = Given r -> scaling_ s = r;
  g5 : forall r, a_surface a = Given r -> surface_ s = r;
  g6 : forall r, a_counting a = Given r -> counting_ s = r;
  g7 : forall r, a_morphology a = Given r -> morphology_ s = r;
  g0 : not_given (a_target a) -> target_body h' (target_ s) = a_body a }.

Lemma build a h h' s : simulation a h = (h', s) -> shape a h h' s.
Proof.
  unfold simulation. destruct (make_target (a_body a) (a_target a) h) as [h1 t] eqn:E1.
  destruct (make_production (a_production a) t h1) as [h2 p] eqn:E2.
  destruct (make_projectile (a_projectile a) t h2) as [h3 pj] eqn:E3.
  destruct (make_scaling (a_scaling a) t pj h3) as [h4 sc] eqn:E4.
  destruct (make_surface (a_surface a) t h4) as [h5 su] eqn:E5.
  destruct (make_counting (a_counting a) su h5) as [h6 c] eqn:E6.
  destruct (make_morphology (a_morphology a) su c sc p (a_do a) h6) as [h7 m] eqn:E7.
  apply mk_target in E1. apply mk_production in E2. apply mk_projectile in E3. apply mk_scaling in E4.
  apply mk_surface in E5. apply mk_counting in E6. apply mk_morphology in E7.
  destruct E1 as (A1 & A2 & A3 & A4 & A5 & A6 & A7 & A8). destruct E2 as (B0 & B1 & B2 & B3 & B4 & B5 & B6 & B7).
  destruct E3 as (C0 & C1 & C2 & C3 & C4 & C5 & C6 & C7). destruct E4 as (D0 & D1 & D2 & D3 & D4 & D5 & D6 & D7).
  destruct E5 as (F0 & F1 & F2 & F3 & F4 & F5 & F6 & F7). destruct E6 as (G0 & G1 & G2 & G3 & G4 & G5 & G6 & G7).
  destruct E7 as (H0 & H1 & H2 & H3 & H4 & H5 & H6 & H7).
  assert (P : production_crater h7 p = match a_production a with Given r => production_crater h r | _ => None end).
  { rewrite H4, G5, F5, D5, C5, B6. destruct (a_production a); rewrite ?A6; reflexivity. }
  set (h8 := match production_crater h7 p with
            | None => put_production p (Some m) (production_target h7 p) h7
            | Some _ => h7
            end).
  assert (S8 : projectile_target h8 = projectile_target h7 /\ scalings h8 = scalings h7 /\ surface_target h8 = surface_target h7 /\
     countings h8 = countings h7 /\ morphologies h8 = morphologies h7 /\ target_body h8 = target_body h7).
  { subst h8. destruct (production_crater h7 p); repeat split. }
  assert (P8 : production_crater h8 p = match production_crater h7 p with None => Some m | Some q => Some q end).
  { subst h8. destruct (production_crater h7 p) eqn:Q; [exact Q | apply upd_same]. }
  clearbody h8. destruct S8 as (I1 & I2 & I3 & I4 & I5 & I6). intro E. injection E as <- <-.
  constructor; cbn [projectile_ scaling_ surface_ counting_ morphology_ production_ target_]; try assumption.
  - rewrite I1, H1, G1, F1, D1, C6. destruct (a_projectile a); rewrite ?B1, ?A1; reflexivity.
  - rewrite I2, H2, G2, F2, D6. destruct (a_scaling a); rewrite ?C1, ?B2, ?A2; reflexivity.
  - rewrite I3, H3, G3, F6. destruct (a_surface a); rewrite ?D2, ?C2, ?B3, ?A3; reflexivity.
  - rewrite I4, H6. assert (c_surface (countings h6 c) = match a_counting a with Given r => c_surface (countings h r) | _ => su end) as <-.
    { rewrite G6. destruct (a_counting a); rewrite ?F3, ?D3, ?C3, ?B4, ?A4; reflexivity. }
    destruct (a_morphology a); reflexivity.
  - rewrite I4, H6. assert (c_morphology (countings h6 c) = match a_counting a with Given r => c_morphology (countings h r) | _ => None end) as <-.
    { rewrite G6. destruct (a_counting a); rewrite ?F3, ?D3, ?C3, ?B4, ?A4; reflexivity. }
    destruct (a_morphology a); reflexivity.
  - rewrite I5, H5. destruct (a_morphology a); rewrite ?G4, ?F4, ?D4, ?C4, ?B5, ?A5; reflexivity.
  - rewrite P8, P. reflexivity.
  - intro N. rewrite I6, H0, G0, F0, D0, C0, B0. apply A8, N.
Qed.

Lemma exact a h : let '(h', s) := simulation a h in together h' s <-> agree h a s.
Proof.
  destruct (simulation a h) as [h' s] eqn:E. apply build in E. destruct E as [F1 F2 F3 F4 F5 F6 F7 G1 G2 G3 G4 G5 G6 G7 _].
  split.
  - intros [T1 T2 T3 T4 T5 T6 T7 T8 T9 T10 T11 T12]. unfold agree. repeat split.
    all: intros; try (rewrite H in *; clear H).
    + rewrite F1 in T1. exact T1.
    + rewrite F2 in T4. cbn in T4. exact T4.
    + rewrite F3 in T5. exact T5.
    + rewrite F4 in T6. exact T6.
    + rewrite F7 in T12. destruct (production_crater h r); auto.
    + rewrite F6 in T8. exact T8.
    + rewrite F6 in T9. exact T9.
    + rewrite F6 in T10. exact T10.
    + rewrite F6 in T11. exact T11.
    + rewrite T7 in F5. destruct (a_counting a) as [| |q] eqn:C; try discriminate F5. rewrite (G6 q eq_refl). reflexivity.
    + rewrite T7 in F5. destruct (a_counting a) as [| |q] eqn:C; try discriminate F5. rewrite (G6 q eq_refl), <- F5, (G7 r eq_refl). reflexivity.
  - intros (A1 & A2 & A3 & A4 & A5 & A6). constructor.
    + rewrite F1. destruct (a_projectile a); auto.
    + rewrite F2. reflexivity.
    + rewrite F2. reflexivity.
    + rewrite F2. cbn. destruct (a_scaling a); auto.
    + rewrite F3. destruct (a_surface a); auto.
    + rewrite F4. destruct (a_counting a); auto.
    + rewrite F5. destruct (a_morphology a) as [| |r]; auto. destruct (A6 r eq_refl) as (_ & _ & _ & _ & C & D).
      rewrite C, D. f_equal. symmetry. apply G7; reflexivity.
    + rewrite F6. destruct (a_morphology a) as [| |r]; auto. apply (A6 r eq_refl).
    + rewrite F6. destruct (a_morphology a) as [| |r]; auto. apply (A6 r eq_refl).
    + rewrite F6. destruct (a_morphology a) as [| |r]; auto. apply (A6 r eq_refl).
    + rewrite F6. destruct (a_morphology a) as [| |r]; auto. apply (A6 r eq_refl).
    + rewrite F7. destruct (a_production a) as [| |r]; auto. destruct (A5 r eq_refl) as [Q | Q]; rewrite Q; reflexivity.
Qed.

Lemma all_new a h : not_given (a_production a) -> not_given (a_projectile a) -> not_given (a_scaling a) ->
  not_given (a_surface a) -> not_given (a_counting a) -> not_given (a_morphology a) ->
  let '(h', s) := simulation a h in together h' s.
Proof.
  intros N1 N2 N3 N4 N5 N6. pose proof (exact a h) as X. destruct (simulation a h) as [h' s].
  apply X. unfold agree. repeat split; intros; exfalso;
  match goal with H : _ = Given _ |- _ => rewrite H in * end; contradiction.
Qed.

(** Frames *)
Definition keeps (n : nat) (h h' : heap) : Prop := forall r, r < n ->
  target_body h' r = target_body h r /\ projectile_target h' r = projectile_target h r /\
  scalings h' r = scalings h r /\ surface_target h' r = surface_target h r /\ countings h' r = countings h r /\
  morphologies h' r = morphologies h r /\ production_crater h' r = production_crater h r.
Lemma keeps_trans n a b c : keeps n a b -> keeps n b c -> keeps n a c.
Proof.
  intros X Y r L. destruct (X r L) as (A & B & C & D & E & F & G). destruct (Y r L) as (A' & B' & C' & D' & E' & F' & G').
  repeat split; congruence.
Qed.
Ltac fresh_put := let q := fresh "q" in let K := fresh "K" in intros q K; cbn; unfold upd;
  repeat (match goal with |- context [?x =? ?y] => replace (x =? y) with false by (symmetry; apply Nat.eqb_neq; lia) end);
  repeat split; reflexivity.
Lemma k_target n b a h : n <= next h -> let '(h', r) := make_target b a h in
  keeps n h h' /\ n <= next h' /\ (not_given a -> n <= r).
Proof. intro L. destruct a; cbn [make_target]; (split; [fresh_put | split; [cbn; lia | intros []; cbn; lia]]). Qed.
Lemma k_production n a t h : n <= next h -> not_given a -> let '(h', r) := make_production a t h in
  keeps n h h' /\ n <= next h' /\ n <= r.
Proof. intros L N. destruct a; [| |destruct N]; cbn [make_production]; (split; [fresh_put | cbn; lia]). Qed.
Lemma k_projectile n a t h : n <= next h -> not_given a -> let '(h', r) := make_projectile a t h in
  keeps n h h' /\ n <= next h' /\ n <= r.
Proof. intros L N. destruct a; [| |destruct N]; cbn [make_projectile]; (split; [fresh_put | cbn; lia]). Qed.
Lemma k_scaling n a t p h : n <= next h -> not_given a -> let '(h', r) := make_scaling a t p h in
  keeps n h h' /\ n <= next h' /\ n <= r.
Proof. intros L N. destruct a; [| |destruct N]; cbn [make_scaling]; (split; [fresh_put | cbn; lia]). Qed.
Lemma k_surface n a t h : n <= next h -> not_given a -> let '(h', r) := make_surface a t h in
  keeps n h h' /\ n <= next h' /\ n <= r.
Proof. intros L N. destruct a; [| |destruct N]; cbn [make_surface]; (split; [fresh_put | cbn; lia]). Qed.
Lemma k_counting n a s h : n <= next h -> not_given a -> let '(h', r) := make_counting a s h in
  keeps n h h' /\ n <= next h' /\ n <= r.
Proof. intros L N. destruct a; [| |destruct N]; cbn [make_counting]; (split; [fresh_put | cbn; lia]). Qed.
Lemma k_morphology n a s c sc p d h : n <= next h -> not_given a -> n <= c -> let '(h', r) := make_morphology a s c sc p d h in
  keeps n h h' /\ n <= next h' /\ n <= r.
Proof. intros L N C. destruct a; [| |destruct N]; destruct d; cbn [make_morphology]; (split; [fresh_put | cbn; lia]). Qed.

Lemma separate a h : not_given (a_production a) -> not_given (a_projectile a) -> not_given (a_scaling a) ->
  not_given (a_surface a) -> not_given (a_counting a) -> not_given (a_morphology a) ->
  untouched h (fst (simulation a h)).
Proof.
  intros N1 N2 N3 N4 N5 N6. change (keeps (next h) h (fst (simulation a h))). unfold simulation.
  pose proof (k_target (next h) (a_body a) (a_target a) h (le_n _)) as X.
  destruct (make_target (a_body a) (a_target a) h) as [h1 t]. destruct X as (K1 & L1 & _).
  pose proof (k_production (next h) (a_production a) t h1 L1 N1) as X.
  destruct (make_production (a_production a) t h1) as [h2 p]. destruct X as (K2 & L2 & M2).
  pose proof (k_projectile (next h) (a_projectile a) t h2 L2 N2) as X.
  destruct (make_projectile (a_projectile a) t h2) as [h3 pj]. destruct X as (K3 & L3 & M3).
  pose proof (k_scaling (next h) (a_scaling a) t pj h3 L3 N3) as X.
  destruct (make_scaling (a_scaling a) t pj h3) as [h4 sc]. destruct X as (K4 & L4 & M4).
  pose proof (k_surface (next h) (a_surface a) t h4 L4 N4) as X.
  destruct (make_surface (a_surface a) t h4) as [h5 su]. destruct X as (K5 & L5 & M5).
  pose proof (k_counting (next h) (a_counting a) su h5 L5 N5) as X.
  destruct (make_counting (a_counting a) su h5) as [h6 c]. destruct X as (K6 & L6 & M6).
  pose proof (k_morphology (next h) (a_morphology a) su c sc p (a_do a) h6 L6 N6 M6) as X.
  destruct (make_morphology (a_morphology a) su c sc p (a_do a) h6) as [h7 m]. destruct X as (K7 & L7 & M7).
  cbn [fst].
  apply (keeps_trans _ _ h1); [exact K1|]. apply (keeps_trans _ _ h2); [exact K2|]. apply (keeps_trans _ _ h3); [exact K3|].
  apply (keeps_trans _ _ h4); [exact K4|]. apply (keeps_trans _ _ h5); [exact K5|]. apply (keeps_trans _ _ h6); [exact K6|].
  apply (keeps_trans _ _ h7); [exact K7|]. destruct (production_crater h7 p); fresh_put.
Qed.

(** Assignment *)
Lemma assigned k r s h : together h s -> r <> get k s -> ~ together h (assign k r s).
Proof.
  intros [T1 T2 T3 T4 T5 T6 T7 T8 T9 T10 T11 T12] N [U1 U2 U3 U4 U5 U6 U7 U8 U9 U10 U11 U12].
  destruct s as [t p pj sc su c m]. destruct k; cbn in *; congruence.
Qed.
Lemma effects h s : together h s ->
  formed_on h s = saved_surface s /\ listed_in h s = Ok (saved_counts s) /\ sized_for h s = target_ s /\
  (recorded_in h s = Some (saved_counts s) \/ recorded_in h s = None).
Proof.
  intros [T1 T2 T3 T4 T5 T6 T7 T8 T9 T10 T11 T12]. unfold formed_on, listed_in, sized_for, recorded_in, saved_surface, saved_counts.
  rewrite T8, T9, T10, T2. repeat split. destruct (m_do_counting _); auto.
Qed.
Lemma replaced h s r : together h s ->
  (r <> surface_ s -> formed_on h (assign PSurface r s) <> saved_surface (assign PSurface r s)) /\
  (r <> counting_ s -> listed_in h (assign PCounting r s) <> Ok (saved_counts (assign PCounting r s))) /\
  (r <> target_ s -> sized_for h (assign PTarget r s) <> target_ (assign PTarget r s)) /\
  (sized_for h (assign PScaling r s) = sized_for h s).
Proof.
  intros [T1 T2 T3 T4 T5 T6 T7 T8 T9 T10 T11 T12]. destruct s as [t p pj sc su c m].
  unfold formed_on, listed_in, sized_for, recorded_in, saved_surface, saved_counts. cbn in *.
  rewrite T8, T9, T10, T2. repeat split; congruence.
Qed.

(** Given objects *)
Lemma taken_scaling a h r : a_scaling a = Given r -> let '(h', s) := simulation a h in
  s_target (scalings h' r) = target_ s /\ s_projectile (scalings h' r) = projectile_ s /\
  s_for (scalings h' r) = s_for (scalings h r).
Proof.
  intro G. destruct (simulation a h) as [h' s] eqn:E. apply build in E. pose proof (f2 _ _ _ _ E) as F.
  rewrite (g4 _ _ _ _ E r G), G in F. rewrite F. auto.
Qed.
Lemma taken_counting a h r : a_counting a = Given r -> not_given (a_morphology a) ->
  let '(h', s) := simulation a h in
  c_morphology (countings h' r) = Some (morphology_ s) /\ c_surface (countings h' r) = c_surface (countings h r).
Proof.
  intros G N. destruct (simulation a h) as [h' s] eqn:E. apply build in E. pose proof (f4 _ _ _ _ E) as F.
  pose proof (f5 _ _ _ _ E) as F'. rewrite (g6 _ _ _ _ E r G), G in F. rewrite (g6 _ _ _ _ E r G) in F'.
  split; [|exact F]. destruct (a_morphology a); [exact F' | exact F' | destruct N].
Qed.
Lemma kept_production a h r m : a_production a = Given r -> production_crater h r = Some m ->
  production_crater (fst (simulation a h)) r = Some m.
Proof.
  intros G C. destruct (simulation a h) as [h' s] eqn:E. apply build in E. pose proof (f7 _ _ _ _ E) as F.
  rewrite (g2 _ _ _ _ E r G), G, C in F. exact F.
Qed.
Lemma counts a h : not_given (a_morphology a) -> let '(h', s) := simulation a h in
  recorded_in h' s = match a_do a with Some false => None | _ => Some (counting_ s) end /\
  listed_in h' s = Ok (counting_ s).
Proof.
  intro N. destruct (simulation a h) as [h' s] eqn:E. apply build in E. pose proof (f6 _ _ _ _ E) as F.
  unfold recorded_in, listed_in. rewrite F.
  destruct (a_morphology a); [| |destruct N]; cbn; destruct (a_do a) as [[]|]; auto.
Qed.

(** A counting assigned to a morphology *)
Lemma switched m c h :
  m_do_counting (morphologies (set_m_counting m (Some c) h) m) = true /\
  m_counting (morphologies (set_m_counting m (Some c) h) m) = Some c /\
  c_morphology (countings (set_m_counting m (Some c) h) c) = Some m /\
  m_do_counting (morphologies (set_m_counting m None h) m) = false /\
  (forall s, morphology_ s = m -> listed_in (set_m_counting m None h) s = Err AttributeError).
Proof.
  unfold listed_in. cbn. rewrite !upd_same. cbn. repeat split. intros s ->. rewrite upd_same. reflexivity.
Qed.

(** A morphology made alone *)
Lemma alone su c d h : exists_in h su -> exists_in h c ->
  (forall r, c = Given r -> c_surface (countings h r) < next h) ->
  (forall r, r < next h -> surface_target h r < next h) ->
  let '(h', m) := morphology_alone su c d h in
  let x := morphologies h' m in
  target_body h' (s_target (scalings h' (m_scaling x))) = TheMoon /\
  s_target (scalings h' (m_scaling x)) >= next h /\
  m_do_counting x = (match d with Some b => b | None => true end) /\
  (exists q, m_counting x = Some q /\ c_morphology (countings h' q) = Some m) /\
  (forall s, su = Given s -> m_surface x = s /\ surface_target h' s = surface_target h s /\ surface_target h s < next h) /\
  (forall r, su = New -> c = Given r -> m_surface x = c_surface (countings h r)) /\
  (forall r, c = Given r -> m_counting x = Some r /\ c_surface (countings h' r) = c_surface (countings h r)).
Proof.
  intros X Y Z W. unfold morphology_alone.
  set (first := match su with
                | New => match c with Given c0 => (h, c_surface (countings h c0)) | _ => let '(h1, t) := make_target TheMoon New h in make_surface New t h1 end
                | Named => let '(h1, t) := make_target TheMoon New h in make_surface New t h1
                | Given s => (h, s) end).
  assert (P1 : countings (fst first) = countings h /\ next h <= next (fst first) /\ keeps (next h) h (fst first) /\
    (forall s, su = Given s -> snd first = s) /\ (forall r, su = New -> c = Given r -> snd first = c_surface (countings h r))).
  { subst first. destruct su as [| |s]; [destruct c as [| |r]| |];
      (split; [reflexivity|]; split; [cbn; lia|]; split; [fresh_put|]; split;
       [intros q Q; first [discriminate Q | injection Q as <-; reflexivity]
       |intros q Q Q'; first [discriminate Q | discriminate Q' | injection Q' as <-; reflexivity]]). }
  replace (match su with New => match c with Given c0 => _ | _ => _ end | _ => _ end) with first by (destruct su, c; reflexivity).
  clearbody first. destruct first as [h1 s]. cbn [fst snd] in P1. destruct P1 as (P1 & P2 & P3 & P4 & P5).
  destruct (make_counting c s h1) as [h2 q] eqn:E2.
  pose proof (mk_counting _ _ _ _ _ E2) as (A0 & A1 & A2 & A3 & A4 & A5 & A6 & A7).
  assert (N2 : next h1 <= next h2).
  { destruct c; cbn in E2; injection E2 as <- _; cbn; lia. }
  cbn [make_target make_projectile make_scaling make_production make_morphology set_m_counting set_c_morphology].
  assert (M : forall d h0 x y z p, let '(h', m) := make_morphology New x y z p d h0 in
     morphologies h' m = mkMorphology x (Some y) z p (match d with Some b => b | None => true end) /\
     countings h' y = mkCounting (c_surface (countings h0 y)) (Some m) /\ scalings h' = scalings h0 /\
     target_body h' = target_body h0 /\ surface_target h' = surface_target h0).
  { intros d0 h0 x y z p. destruct (make_morphology New x y z p d0 h0) as [h' m] eqn:E.
    apply mk_morphology in E. destruct E as (B0 & B1 & B2 & B3 & B4 & B5 & B6 & B7). auto. }
  set (h3 := tick (put_target (next h2) TheMoon h2)). cbn zeta.
  set (h4 := tick (put_projectile (next h3) (next h2) h3)).
  set (h5 := tick (put_scaling (next h4) (mkScaling (next h2) (next h3) (next h2)) h4)).
  set (h6 := tick (put_production (next h5) None (Some (surface_target h5 s)) h5)).
  pose proof (M d h6 s q (next h4) (next h5)) as Q.
  change (let '(h', m) := make_morphology New s q (next h4) (next h5) d h6 in
     let x := morphologies h' m in
     target_body h' (s_target (scalings h' (m_scaling x))) = TheMoon /\
     s_target (scalings h' (m_scaling x)) >= next h /\
     m_do_counting x = (match d with Some b => b | None => true end) /\
     (exists q, m_counting x = Some q /\ c_morphology (countings h' q) = Some m) /\
     (forall s, su = Given s -> m_surface x = s /\ surface_target h' s = surface_target h s /\ surface_target h s < next h) /\
     (forall r, su = New -> c = Given r -> m_surface x = c_surface (countings h r)) /\
     (forall r, c = Given r -> m_counting x = Some r /\ c_surface (countings h' r) = c_surface (countings h r))).
  destruct (make_morphology New s q (next h4) (next h5) d h6) as [h' m]. destruct Q as (Q1 & Q2 & Q3 & Q4 & Q5).
  cbn zeta. rewrite Q1. cbn [m_scaling m_do_counting m_counting m_surface].
  assert (SC : scalings h' (next h4) = mkScaling (next h2) (next h3) (next h2)).
  { rewrite Q3. unfold h6, h5. cbn. apply upd_same. }
  rewrite SC. cbn [s_target].
  split; [rewrite Q4; unfold h6, h5, h4, h3; cbn; apply upd_same|].
  split; [lia|]. split; [reflexivity|].
  split; [exists q; split; [reflexivity | rewrite Q2; reflexivity]|].
  split; [|split].
  - intros s0 E. subst su. specialize (P4 s0 eq_refl). cbn in X. split; [exact P4|]. split.
    + rewrite Q5. unfold h6, h5, h4, h3. cbn. rewrite A3. apply (P3 s0). exact X.
    + apply W. exact X.
  - intros r E1 E3. apply (P5 r E1 E3).
  - intros r E. rewrite (A7 r E) in *. split; [reflexivity|]. rewrite Q2. cbn.
    unfold h6, h5, h4, h3. cbn. rewrite A6, E, P1. reflexivity.
Qed.
