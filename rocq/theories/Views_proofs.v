(** Proofs about the data of regions (C106). *)
From Coq Require Import Reals List Arith Lia Lra ZArith.
From Verif Require Import Common RSum Sorting Mesh_model Region_model Region_spec Region_proofs Region_more Region_cases Views_model Views_spec.
Import ListNotations.
Open Scope R_scope.

(* ------------------------------ reading ------------------------------ *)
Lemma take_nth arr idx i e : nth_error idx i = Some e -> (e < List.length arr)%nat -> nth_error (take arr idx) i = nth_error arr e.
Proof.
  intros H L. rewrite (nth_error_map_nth _ _ _ _ H). symmetry. apply nth_error_nth'. exact L.
Qed.
Lemma take_shows m v k arr n : of_mesh m v -> count m k = Some n -> List.length arr = n -> shows v k arr (take arr (elements v k)).
Proof.
  intros (_ & _ & F & N & E) C L. split; [apply take_length|]. intros i e H.
  apply take_nth; [exact H|]. apply nth_error_In in H. destruct k; cbn in C, H; try discriminate; injection C as <-; rewrite L.
  - now apply F.
  - now apply N.
  - now apply E.
Qed.
Lemma attribute_exact m r d name arr k n : told_apart m -> d_vars d name = Some arr -> d_kind d name = k -> count m k = Some n -> List.length arr = n ->
  attribute m r d name = Ok (take arr (elements (r_view r) k)).
Proof.
  intros (A & B & C) V K N L. unfold attribute. rewrite V, K.
  destruct k; cbn in N; try discriminate; injection N as <-; rewrite L; cbn [elements].
  - now rewrite Nat.eqb_refl.
  - destruct (Nat.eqb_spec (m_nnode m) (m_nface m)); [congruence|]. now rewrite Nat.eqb_refl.
  - destruct (Nat.eqb_spec (m_nedge m) (m_nface m)); [congruence|]. destruct (Nat.eqb_spec (m_nedge m) (m_nnode m)); [congruence|]. now rewrite Nat.eqb_refl.
Qed.
Lemma attribute_shows m r d name arr n : told_apart m -> of_mesh m (r_view r) -> sized m d ->
  d_vars d name = Some arr -> count m (d_kind d name) = Some n ->
  exists shown, attribute m r d name = Ok shown /\ shows (r_view r) (d_kind d name) arr shown.
Proof.
  intros T O Z V C. exists (take arr (elements (r_view r) (d_kind d name))). split.
  - exact (attribute_exact m r d name arr _ n T V eq_refl C (Z _ _ _ V C)).
  - exact (take_shows m _ _ arr n O C (Z _ _ _ V C)).
Qed.
Lemma attribute_missing m r d name : d_vars d name = None -> attribute m r d name = Err AttributeError.
Proof. intros V. unfold attribute. now rewrite V. Qed.
Lemma kinds_differ m : (4 < m_nface m)%nat \/ (4 < m_nnode m)%nat -> three_faces_meet m \/ triangles m -> told_apart m.
Proof. unfold three_faces_meet, triangles, told_apart. lia. Qed.
Lemma uxds_agrees m r d name arr : told_apart m -> sized m d -> r_local r = true -> d_vars d name = Some arr -> d_kind d name = KFace \/ d_kind d name = KNode ->
  exists shown, attribute m r d name = Ok shown /\ d_vars (uxds r d) name = Some shown.
Proof.
  intros T Z L V K. exists (take arr (elements (r_view r) (d_kind d name))). split.
  - destruct K as [K|K].
    + apply (attribute_exact m r d name arr _ (m_nface m) T V eq_refl); rewrite ?K; [reflexivity|]. apply (Z name arr _ V). now rewrite K.
    + apply (attribute_exact m r d name arr _ (m_nnode m) T V eq_refl); rewrite ?K; [reflexivity|]. apply (Z name arr _ V). now rewrite K.
  - unfold uxds. rewrite L. cbn [sel d_vars]. rewrite V. destruct K as [K|K]; now rewrite K.
Qed.
Lemma uxds_edges m r d name arr : told_apart m -> sized m d -> r_local r = true -> d_vars d name = Some arr -> d_kind d name = KEdge ->
  attribute m r d name = Ok (take arr (v_edges (r_view r))) /\ d_vars (uxds r d) name = Some arr /\
  (List.length (v_edges (r_view r)) <> m_nedge m -> attribute m r d name <> Ok arr).
Proof.
  intros T Z L V K. assert (LL : List.length arr = m_nedge m) by (apply (Z name arr _ V); now rewrite K).
  assert (A : attribute m r d name = Ok (take arr (v_edges (r_view r)))).
  { apply (attribute_exact m r d name arr KEdge (m_nedge m) T V K eq_refl LL). }
  split; [exact A|]. split.
  - unfold uxds. rewrite L. cbn [sel d_vars]. rewrite V. now rewrite K.
  - intros D E. rewrite A in E. injection E as E. apply (f_equal (@List.length R)) in E. rewrite take_length in E. congruence.
Qed.

(* ------------------------------ writing ------------------------------ *)
Lemma add_data_new m v s name l face ow fill n : s name = None ->
  n = (if Nat.eqb (List.length l) (List.length (v_faces v)) then m_nface m else m_nnode m) ->
  (List.length l = List.length (v_faces v) \/ List.length l = List.length (v_nodes v)) ->
  add_data m v s name (Arr l) face ow fill false = add_data m v (set_var s name (repeat fill n)) name (Arr l) face true fill false.
Proof.
  intros V -> L. unfold add_data. rewrite V. rewrite set_var_same. rewrite set_var_same.
  destruct (Nat.eqb_spec (List.length l) (List.length (v_faces v))) as [E|E]; [rewrite set_var_same; reflexivity|].
  destruct (Nat.eqb_spec (List.length l) (List.length (v_nodes v))) as [E'|E']; [rewrite set_var_same; reflexivity|].
  destruct L; contradiction.
Qed.

(** The entries of a variable before it is written: those it has, or the fill value. *)
Definition before (d : data_of) (name : string) (fill : R) (e : nat) : option R :=
  match d_vars d name with Some arr => nth_error arr e | None => Some fill end.

Lemma added m r s name l k isface ow fill n : of_mesh m (r_view r) -> sized m (s_data s) ->
  (k = KFace \/ k = KNode /\ List.length (v_nodes (r_view r)) <> List.length (v_faces (r_view r))) ->
  List.length l = List.length (elements (r_view r) k) -> count m k = Some n ->
  (forall arr, d_vars (s_data s) name = Some arr -> d_kind (s_data s) name = k) ->
  let d' := s_data (step m s (Add r name (Arr l) isface ow fill false)) in
  snd (add_data m (r_view r) (d_vars (s_data s)) name (Arr l) isface ow fill false) = Ok tt /\
  exists new, d_vars d' name = Some new /\ d_kind d' name = k /\ List.length new = n /\
    (forall j e x, nth_error (elements (r_view r) k) j = Some e -> nth_error l j = Some x ->
       nth_error new e = match d_vars (s_data s) name with
                         | Some arr => Some (if ow then x else nth e arr 0 + x)
                         | None => Some x end) /\
    (forall e, (e < n)%nat -> ~ In e (elements (r_view r) k) -> nth_error new e = before (s_data s) name fill e) /\
    (forall other, other <> name -> d_vars d' other = d_vars (s_data s) other /\ d_kind d' other = d_kind (s_data s) other).
Proof.
  intros O Z K L C E d'. subst d'. destruct s as [[vars kinds] files]. cbn [step s_data d_vars d_kind] in *.
  destruct O as (NF & NN & RF & RN & _).
  assert (ND : NoDup (elements (r_view r) k)) by (destruct K as [-> | [-> _]]; cbn; assumption).
  assert (RG : forall i, In i (elements (r_view r) k) -> (i < n)%nat).
  { destruct K as [-> | [-> _]]; cbn in C |- *; injection C as <-; assumption. }
  assert (SEL : List.length l = List.length (v_faces (r_view r)) /\ elements (r_view r) k = v_faces (r_view r) \/
    List.length l <> List.length (v_faces (r_view r)) /\ List.length l = List.length (v_nodes (r_view r)) /\ elements (r_view r) k = v_nodes (r_view r)).
  { destruct K as [-> | [-> D]]; cbn [elements] in L |- *; [left; now split|right]. split; [congruence|now split]. }
  unfold before. cbn [d_vars]. destruct (vars name) as [arr|] eqn:V.
  - specialize (E arr eq_refl). assert (LA : List.length arr = n) by (apply (Z name arr n V); cbn; now rewrite E).
    destruct (add_data_ok m (r_view r) vars name l isface ow fill arr (elements (r_view r) k) V ND) as (new & s' & A & S' & U & F).
    + intros i I. rewrite LA. now apply RG.
    + exact SEL.
    + rewrite A. cbn [fst snd]. split; [reflexivity|]. exists new. destruct U as (U1 & U2 & U3).
      split; [exact S'|]. split; [exact E|]. split; [congruence|]. split; [exact U2|]. split; [intros e _ I; now apply U3|].
      intros o Ho. split; [now apply F|reflexivity].
  - assert (NN' : n = if Nat.eqb (List.length l) (List.length (v_faces (r_view r))) then m_nface m else m_nnode m).
    { destruct K as [-> | [-> D]]; cbn in C, L; injection C as <-.
      - now rewrite L, Nat.eqb_refl.
      - destruct (Nat.eqb_spec (List.length l) (List.length (v_faces (r_view r)))); [congruence|reflexivity]. }
    rewrite (add_data_new m (r_view r) vars name l isface ow fill n V NN').
    2:{ destruct SEL as [[S1 _]|(_ & S2 & _)]; [now left|now right]. }
    destruct (add_data_ok m (r_view r) (set_var vars name (repeat fill n)) name l isface true fill (repeat fill n) (elements (r_view r) k)) as (new & s' & A & S' & U & F).
    + apply set_var_same.
    + exact ND.
    + intros i I. rewrite repeat_length. now apply RG.
    + exact SEL.
    + rewrite A. cbn [fst snd]. split; [reflexivity|]. exists new. destruct U as (U1 & U2 & U3). rewrite repeat_length in U1.
      split; [exact S'|]. split.
      { rewrite String.eqb_refl. unfold added_kind. destruct K as [-> | [-> D]]; cbn in L.
        - now rewrite L, Nat.eqb_refl.
        - destruct (Nat.eqb_spec (List.length l) (List.length (v_faces (r_view r)))); [congruence|reflexivity]. }
      split; [exact U1|]. split; [exact U2|]. split.
      { intros e Le I. rewrite U3 by exact I. rewrite (nth_error_nth' (repeat fill n) 0) by now rewrite repeat_length.
        f_equal. apply nth_repeat_lt || (rewrite nth_indep with (d' := fill) by (now rewrite repeat_length); apply nth_repeat). }
      intros o Ho. split.
      * rewrite F by exact Ho. now apply set_var_other.
      * destruct (String.eqb_spec o name); [contradiction|reflexivity].
Qed.

Lemma read_back m r w s name l k isface ow fill n : told_apart m -> of_mesh m (r_view r) -> of_mesh m (r_view w) -> sized m (s_data s) ->
  (k = KFace \/ k = KNode /\ List.length (v_nodes (r_view r)) <> List.length (v_faces (r_view r))) ->
  List.length l = List.length (elements (r_view r) k) -> count m k = Some n ->
  (forall arr, d_vars (s_data s) name = Some arr -> d_kind (s_data s) name = k) ->
  exists shown, attribute m w (s_data (step m s (Add r name (Arr l) isface ow fill false))) name = Ok shown /\
    List.length shown = List.length (elements (r_view w) k) /\
    (forall i e j x, nth_error (elements (r_view w) k) i = Some e -> nth_error (elements (r_view r) k) j = Some e -> nth_error l j = Some x ->
       nth_error shown i = match d_vars (s_data s) name with
                           | Some arr => Some (if ow then x else nth e arr 0 + x)
                           | None => Some x end) /\
    (forall i e, nth_error (elements (r_view w) k) i = Some e -> ~ In e (elements (r_view r) k) ->
       nth_error shown i = match d_vars (s_data s) name with Some arr => nth_error arr e | None => Some fill end).
Proof.
  intros T O W Z K L C E.
  destruct (added m r s name l k isface ow fill n O Z K L C E) as (_ & new & V & KK & LN & A & B & _).
  exists (take new (elements (r_view w) k)). split.
  { rewrite <- KK. apply (attribute_exact m w _ name new _ n T V eq_refl); [now rewrite KK|exact LN]. }
  destruct (take_shows m (r_view w) k new n W C LN) as (S1 & S2).
  split; [exact S1|]. split.
  - intros i e j x Hi Hj Hx. rewrite (S2 i e Hi). exact (A j e x Hj Hx).
  - intros i e Hi I. rewrite (S2 i e Hi). apply B; [|exact I].
    apply nth_error_In in Hi. destruct W as (_ & _ & WF & WN & WE). destruct K as [-> | [-> _]]; cbn in C, Hi; injection C as <-; [now apply WF|now apply WN].
Qed.
Lemma read_own m r s name l k isface fill n : told_apart m -> of_mesh m (r_view r) -> sized m (s_data s) ->
  (k = KFace \/ k = KNode /\ List.length (v_nodes (r_view r)) <> List.length (v_faces (r_view r))) ->
  List.length l = List.length (elements (r_view r) k) -> count m k = Some n ->
  (forall arr, d_vars (s_data s) name = Some arr -> d_kind (s_data s) name = k) ->
  attribute m r (s_data (step m s (Add r name (Arr l) isface true fill false))) name = Ok l.
Proof.
  intros T O Z K L C E. destruct (read_back m r r s name l k isface true fill n T O O Z K L C E) as (shown & A & LS & B & _).
  rewrite A. f_equal. apply nth_ext with 0 0; [congruence|]. intros i Hi.
  assert (H1 : exists e, nth_error (elements (r_view r) k) i = Some e).
  { destruct (nth_error (elements (r_view r) k) i) eqn:X; [now eexists|]. apply nth_error_None in X. lia. }
  destruct H1 as (e & He).
  assert (H2 : exists x, nth_error l i = Some x).
  { destruct (nth_error l i) eqn:X; [now eexists|]. apply nth_error_None in X. lia. }
  destruct H2 as (x & Hx). specialize (B i e i x He He Hx).
  assert (nth_error shown i = Some x) as B' by (destruct (d_vars (s_data s) name); exact B).
  rewrite (nth_error_nth _ _ 0 B'), (nth_error_nth _ _ 0 Hx). reflexivity.
Qed.

(* ------------------------------ histories ------------------------------ *)
Lemma assign_length l idx x new : assign l idx x = Ok new -> List.length new = List.length l.
Proof.
  unfold assign. destruct (forallb _ idx); [|discriminate]. intros [= <-]. clear. revert l. induction (combine idx x) as [|p q IH]; intros l; [reflexivity|].
  cbn [fold_left]. rewrite IH. apply set_at_length.
Qed.
Lemma add_data_lengths m v s name dat isface ow fill pos arr : fst (add_data m v s name dat isface ow fill pos) name = Some arr ->
  match s name with
  | Some old => List.length arr = List.length old
  | None => List.length arr = (match added_kind v dat isface with KFace => m_nface m | _ => m_nnode m end)
  end.
Proof.
  unfold add_data, added_kind.
  set (l := match dat with Scalar x => _ | Arr l => l end).
  assert (LL : List.length l = match dat with Scalar _ => if isface then List.length (v_faces v) else List.length (v_nodes v) | Arr l => List.length l end).
  { subst l. destruct dat; [now rewrite repeat_length|reflexivity]. }
  rewrite <- LL. clearbody l. clear LL.
  destruct (Nat.eqb_spec (List.length l) (List.length (v_faces v))) as [E|E].
  - destruct (s name) as [old|] eqn:V.
    + rewrite V. destruct (assign old _ _) as [new|] eqn:A; [|cbn [fst]; intros H; congruence].
      apply assign_length in A. destruct pos.
      * destruct (assign new _ _) as [new'|] eqn:A'; cbn [fst]; [apply assign_length in A'|]; rewrite set_var_same; intros [= <-]; congruence.
      * cbn [fst]. rewrite set_var_same. now intros [= <-].
    + rewrite set_var_same. destruct (assign (repeat fill (m_nface m)) _ _) as [new|] eqn:A.
      2:{ cbn [fst]. rewrite set_var_same. intros [= <-]. apply repeat_length. }
      apply assign_length in A. rewrite repeat_length in A. destruct pos.
      * destruct (assign new _ _) as [new'|] eqn:A'; cbn [fst]; [apply assign_length in A'|]; rewrite set_var_same; intros [= <-]; congruence.
      * cbn [fst]. rewrite set_var_same. now intros [= <-].
  - destruct (Nat.eqb_spec (List.length l) (List.length (v_nodes v))) as [E'|E'].
    2:{ cbn [fst]. intros H. now rewrite H. }
    destruct (s name) as [old|] eqn:V.
    + rewrite V. destruct (assign old _ _) as [new|] eqn:A; [|cbn [fst]; intros H; congruence].
      apply assign_length in A. destruct pos.
      * destruct (assign new _ _) as [new'|] eqn:A'; cbn [fst]; [apply assign_length in A'|]; rewrite set_var_same; intros [= <-]; congruence.
      * cbn [fst]. rewrite set_var_same. now intros [= <-].
    + rewrite set_var_same. destruct (assign (repeat fill (m_nnode m)) _ _) as [new|] eqn:A.
      2:{ cbn [fst]. rewrite set_var_same. intros [= <-]. apply repeat_length. }
      apply assign_length in A. rewrite repeat_length in A. destruct pos.
      * destruct (assign new _ _) as [new'|] eqn:A'; cbn [fst]; [apply assign_length in A'|]; rewrite set_var_same; intros [= <-]; congruence.
      * cbn [fst]. rewrite set_var_same. now intros [= <-].
Qed.
Lemma edit_sized m r d name i x : sized m d -> sized m (edit r d name i x).
Proof.
  intros Z. unfold edit. destruct (r_local r); [exact Z|]. destruct (d_vars d name) as [arr|] eqn:V; [|exact Z].
  intros nm a n H C. cbn in H, C. unfold set_var in H. destruct (String.eqb_spec nm name) as [->|D].
  - injection H as <-. rewrite set_at_length. exact (Z name arr n V C).
  - exact (Z nm a n H C).
Qed.
Lemma step_sized m s o : sized m (s_data s) -> sized m (s_data (step m s o)).
Proof.
  intros Z. destruct o as [r name dat isface ow fill pos|r name i x|r name i x|k]; cbn [step s_data]; [|now apply edit_sized|now apply edit_sized|exact Z].
  intros nm a n H C. cbn [d_vars d_kind] in H, C. destruct (String.eqb_spec nm name) as [->|D].
  - pose proof (add_data_lengths m (r_view r) _ name dat isface ow fill pos a H) as L.
    destruct (d_vars (s_data s) name) as [old|] eqn:V.
    + rewrite L. exact (Z name old n V C).
    + rewrite String.eqb_refl in C. rewrite L. unfold added_kind in *. destruct (Nat.eqb _ _); cbn in C; now injection C as <-.
  - rewrite add_data_frame in H by exact D. apply (Z nm a n H).
    destruct (d_vars (s_data s) name); [exact C|]. destruct (String.eqb_spec nm name); [contradiction|exact C].
Qed.
Lemma run_sized m ops : forall s, sized m (s_data s) -> sized m (s_data (run m s ops)).
Proof. induction ops as [|o ops IH]; intros s Z; [exact Z|]. cbn. apply IH. now apply step_sized. Qed.
Lemma always_shows m s ops r name arr n : told_apart m -> of_mesh m (r_view r) -> sized m (s_data s) ->
  let d := s_data (run m s ops) in
  d_vars d name = Some arr -> count m (d_kind d name) = Some n ->
  exists shown, attribute m r d name = Ok shown /\ shows (r_view r) (d_kind d name) arr shown.
Proof. intros T O Z d V C. apply (attribute_shows m r d name arr n T O); [now apply run_sized|exact V|exact C]. Qed.

(** Writing into what a region returns. *)
Lemma edit_lost m s o : edits_region o -> step m s o = s.
Proof. destruct o; cbn; try contradiction; unfold edit; intros ->; now destruct s. Qed.
Lemma edit_global m s r name i x arr : r_local r = false -> d_vars (s_data s) name = Some arr -> (i < List.length arr)%nat ->
  exists new, d_vars (s_data (step m s (EditArray r name i x))) name = Some new /\ nth_error new i = Some x /\
    s_data (step m s (EditUxds r name i x)) = s_data (step m s (EditArray r name i x)).
Proof.
  intros L V I. exists (set_at arr i x). split.
  - cbn. unfold edit. rewrite L, V. cbn. apply set_var_same.
  - split; [now apply set_at_same|reflexivity].
Qed.

(* ------------------------------ files ------------------------------ *)
Lemma files_kept m ops k : forall s, (forall o, In o ops -> ~ saves_to k o) -> s_files (run m s ops) k = s_files s k.
Proof.
  induction ops as [|o ops IH]; intros s H; [reflexivity|].
  change (run m s (o :: ops)) with (run m (step m s o) ops). rewrite IH by (intros q Q; apply H; now right).
  specialize (H o (or_introl eq_refl)). destruct o; try reflexivity. cbn. unfold put. destruct (Z.eqb_spec k interval) as [->|]; [|reflexivity].
  exfalso. now apply H.
Qed.
Lemma saved_back m r s k ops : (forall o, In o ops -> ~ saves_to k o) -> r_local r = true ->
  exists d, read_saved r (run m (step m s (Save k)) ops) k false = Ok d /\
    (forall name, d_vars d name = d_vars (uxds r (s_data s)) name) /\ forall name, d_kind d name = d_kind (s_data s) name.
Proof.
  intros H L. exists (sel (r_view r) (s_data s)). split.
  - unfold read_saved. rewrite files_kept by exact H. cbn. unfold put. now rewrite Z.eqb_refl.
  - split; [|reflexivity]. intros name. unfold uxds. now rewrite L.
Qed.
Lemma saved_reset r s k d : s_files s k = Some d -> exists e, read_saved r s k true = Ok e /\ forall name, d_vars e name = None.
Proof. intros H. unfold read_saved. rewrite H. eexists. split; [reflexivity|reflexivity]. Qed.
Lemma saved_missing r s k reset : s_files s k = None -> read_saved r s k reset = Err FileNotFoundError.
Proof. intros H. unfold read_saved. now rewrite H. Qed.

(* ------------------------------ connectivity ------------------------------ *)
Lemma remap_complete c rows vals : (forall g x, In g rows -> In (Some x) (c g) -> In x vals) -> complete c rows vals (remap c rows vals).
Proof.
  intros H. split; [apply map_length|]. intros i g G. eexists. split.
  - unfold remap. apply map_nth_error. exact G.
  - rewrite map_map. rewrite <- (map_id (c g)) at 2. apply map_ext_in. intros [x|] I; [|reflexivity].
    destruct (local_of vals 0 x) as [k|] eqn:E.
    + apply local_of_some in E as [_ E]. now rewrite Nat.sub_0_r in E.
    + apply local_of_none in E. exfalso. apply E. apply (H g x); [|exact I]. now apply nth_error_In in G.
Qed.
(** Each entry of a local array names the same element as the entry of the surface's. *)
Lemma complete_only c rows vals : complete c rows vals (remap c rows vals) -> forall g x, In g rows -> In (Some x) (c g) -> In x vals.
Proof.
  intros (_ & H) g x G X. apply In_nth_error in G as (i & G). destruct (H i g G) as (row & R & E).
  rewrite <- E in X. apply in_map_iff in X as ([k|] & Q & _); [|discriminate]. now apply nth_error_In in Q.
Qed.
Lemma region_complete m radius query nearest r one v : extract_region m radius query nearest r one = Some v -> r / radius * 180 / PI < 180 ->
  complete (face_nodes m) (v_faces v) (v_nodes v) (local_face_nodes m v) /\
  complete (edge_faces m) (v_edges v) (v_faces v) (local_edge_faces m v) /\
  ((forall f e n, In (Some e) (face_edges m f) -> In (Some n) (edge_nodes m e) -> In (Some n) (face_nodes m f)) ->
   complete (edge_nodes m) (v_edges v) (v_nodes v) (local_edge_nodes m v)).
Proof.
  intros H Hr. destruct (region_contents m radius query nearest r one v H Hr) as (core & _ & _ & F & N & E & _).
  split; [|split].
  - apply remap_complete. intros f x Hf Hx. apply N. now exists f.
  - apply remap_complete. intros e x He Hx. apply F. apply E in He as (c & Hc & He). right. exists c. split; [exact Hc|]. right. right. now exists e.
  - intros C. apply remap_complete. intros e x He Hx. apply N. apply E in He as (c & Hc & He). exists c. split; [apply F; now left|]. exact (C c e x He Hx).
Qed.
(** The faces of the buffer may lack edges. *)
Lemma strip_edges_lost : exists v, extract_region strip strip_radius strip_query 0 0 false = Some v /\
  ~ complete (face_edges strip) (v_faces v) (v_edges v) (local_face_edges strip v) /\
  local_face_edges strip v = [[Some 0; Some 1]; [Some 1; None]]%nat /\ face_edges strip 1 = [Some 1; Some 2]%nat.
Proof.
  exists (mkView [0; 1] [0; 1; 2] [0; 1] 0)%nat. split; [exact strip_r0|]. split; [|split; reflexivity].
  intros H. pose proof (complete_only _ _ _ H 1%nat 2%nat) as C. cbn in C. destruct C as [C|[C|[]]]; try discriminate C; auto.
Qed.
Lemma sample_ok : told_apart sample_mesh /\ of_mesh sample_mesh (r_view sample_region) /\ sized sample_mesh sample_data.
Proof.
  split; [repeat split; discriminate|]. split.
  - repeat split; cbn; try (repeat constructor; cbn; intuition discriminate); intros x H; repeat (destruct H as [<-|H]; [lia|]); destruct H.
  - intros name arr n V C. unfold sample_data in *. cbn [d_vars d_kind] in *.
    destruct (String.eqb name "face_elevation"); [injection V as <-; injection C as <-; reflexivity|].
    destruct (String.eqb name "node_elevation"); [injection V as <-; injection C as <-; reflexivity|].
    destruct (String.eqb name "edge_value"); [injection V as <-; injection C as <-; reflexivity|discriminate].
Qed.

Lemma remap_faithful c rows vals : faithful c rows vals (remap c rows vals).
Proof.
  split; [apply map_length|]. intros i g G. eexists. split; [unfold remap; apply map_nth_error; exact G|].
  split; [apply map_length|]. intros j x E.
  rewrite (map_nth_error _ j (c g) E). destruct x as [e|]; [|reflexivity].
  destruct (local_of vals 0 e) as [k|] eqn:L.
  - apply local_of_some in L as [_ L]. rewrite Nat.sub_0_r in L. split.
    + intros _. exists k. split; [reflexivity|exact L].
    + intros N. exfalso. apply N. exact (nth_error_In _ _ L).
  - apply local_of_none in L. split; [intros I; contradiction|reflexivity].
Qed.
Lemma all_faithful m v :
  faithful (face_nodes m) (v_faces v) (v_nodes v) (local_face_nodes m v) /\ faithful (face_edges m) (v_faces v) (v_edges v) (local_face_edges m v) /\
  faithful (face_faces m) (v_faces v) (v_faces v) (local_face_faces m v) /\ faithful (node_faces_of m) (v_nodes v) (v_faces v) (local_node_faces m v) /\
  faithful (edge_faces m) (v_edges v) (v_faces v) (local_edge_faces m v) /\ faithful (edge_nodes m) (v_edges v) (v_nodes v) (local_edge_nodes m v).
Proof. repeat (split; [apply remap_faithful|]). apply remap_faithful. Qed.
Lemma scalar_whole m r d name arr : d_vars d name = Some arr -> d_kind d name = KScalar -> attribute m r d name = Ok arr.
Proof. intros A K. unfold attribute. rewrite A, K. reflexivity. Qed.
