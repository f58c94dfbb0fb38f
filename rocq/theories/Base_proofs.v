From Verif Require Import Common Conf_model Conf_base Base_model Base_spec.
From Coq Require Import Lia.
Open Scope string_scope.

(* ------------------------ random number generators ------------------------ *)
Section Rng.
Variables S seed dict : Type.
Variable seeded : seed -> option S.
Variable of_dict : dict -> option S.
Variable to_dict : S -> dict.
Notation init := (base_init S seed seeded dict of_dict to_dict).
Notation setst := (set_state S seed seeded dict of_dict to_dict).

Lemma init_rng i sd st entropy h :
  init (RGen i) sd st entropy h = (h, Ok {| b_rng := Some i; b_seed := sd; b_state := Some (to_dict (h_state S h i)) |}).
Proof. reflexivity. Qed.

Lemma alloc_new s h : new_generator S h (fst (alloc S s h)) (h_size S h) s.
Proof.
  unfold new_generator, alloc. cbn [fst h_size h_state]. rewrite Nat.eqb_refl. repeat split.
  intros j Hj. destruct (Nat.eqb_spec j (h_size S h)); [lia | reflexivity].
Qed.

Lemma init_seed x s entropy h : seeded x = Some s ->
  exists h', init RNone (Some x) (SNone dict) entropy h =
    (h', Ok {| b_rng := Some (h_size S h); b_seed := Some x; b_state := Some (to_dict s) |}) /\
    new_generator S h h' (h_size S h) s.
Proof.
  intros E. unfold base_init, rng_init. rewrite E. cbn. rewrite Nat.eqb_refl. eexists. split; [reflexivity |]. apply alloc_new.
Qed.
Lemma init_seed_bad x entropy h : seeded x = None -> init RNone (Some x) (SNone dict) entropy h = (h, Err ValueError).
Proof. intros E. unfold base_init, rng_init. rewrite E. reflexivity. Qed.
Lemma init_state d s entropy h : of_dict d = Some s ->
  exists h', init RNone None (SDict dict d) entropy h =
    (h', Ok {| b_rng := Some (h_size S h); b_seed := None; b_state := Some (to_dict s) |}) /\
    new_generator S h h' (h_size S h) s.
Proof.
  intros E. unfold base_init, rng_init. rewrite E. cbn. rewrite Nat.eqb_refl. eexists. split; [reflexivity |]. apply alloc_new.
Qed.
Lemma init_state_bad d entropy h : of_dict d = None -> init RNone None (SDict dict d) entropy h = (h, Err ValueError).
Proof. intros E. unfold base_init, rng_init. rewrite E. reflexivity. Qed.
Lemma init_none entropy h :
  exists h', init RNone None (SNone dict) entropy h =
    (h', Ok {| b_rng := Some (h_size S h); b_seed := None; b_state := Some (to_dict entropy) |}) /\
    new_generator S h h' (h_size S h) entropy.
Proof. unfold base_init, rng_init. cbn. rewrite Nat.eqb_refl. eexists. split; [reflexivity |]. apply alloc_new. Qed.
Lemma init_both x d entropy h : init RNone (Some x) (SDict dict d) entropy h = (h, Err ValueError).
Proof. reflexivity. Qed.
Lemma init_other sd st entropy h : init ROther sd st entropy h = (h, Err ValueError).
Proof. reflexivity. Qed.
Lemma init_state_other sd entropy h : init RNone sd (SOther dict) entropy h = (h, Err ValueError).
Proof. reflexivity. Qed.

Lemma assign_keeps l entropy h b i : b_rng _ _ b = Some i ->
  let r := assign_all S seed dict to_dict seeded of_dict entropy l (h, b) in
  fst r = h /\ b_rng _ _ (snd r) = Some i.
Proof.
  revert b. induction l as [| a l IH]; intros b E; cbn; [auto |].
  destruct a as [v | v]; cbn [assign fst snd].
  - apply IH. exact E.
  - unfold set_state, rng_init. rewrite E. cbn. apply (IH {| b_rng := Some i; b_seed := b_seed _ _ b; b_state := Some (to_dict (h_state S h i)) |}). reflexivity.
Qed.

Lemma components_share h b i c : b_rng _ _ b = Some i ->
  made_from S seed dict seeded of_dict to_dict h b c -> b_rng _ _ c = Some i /\ b_seed _ _ c = b_seed _ _ b.
Proof.
  intros E M. induction M as [| c d entropy h' M [IH IHs] H]; [auto |].
  unfold make_component in H. rewrite IH, init_rng in H. injection H as <- <-. auto.
Qed.
Lemma component_heap h b i entropy : b_rng _ _ b = Some i ->
  exists c, make_component S seed seeded dict of_dict to_dict b entropy h = (h, Ok c) /\ b_rng _ _ c = Some i.
Proof. intros E. unfold make_component. rewrite E, init_rng. eauto. Qed.

Lemma assign_none_seeded x i entropy h d :
  set_rng S seed seeded dict of_dict to_dict RNone entropy {| b_rng := Some i; b_seed := Some x; b_state := d |} h = (h, Err ValueError).
Proof. reflexivity. Qed.
Lemma assign_none_copy i entropy h d :
  of_dict (to_dict (h_state S h i)) = Some (h_state S h i) ->
  exists h' b', set_rng S seed seeded dict of_dict to_dict RNone entropy {| b_rng := Some i; b_seed := None; b_state := d |} h = (h', Ok b') /\
    b_rng _ _ b' = Some (h_size S h) /\ new_generator S h h' (h_size S h) (h_state S h i).
Proof.
  intros E. unfold set_rng, rng_init, get_state. cbn [b_rng b_seed]. rewrite E. cbn.
  eexists. eexists. split; [reflexivity |]. split; [reflexivity |]. apply alloc_new.
Qed.
End Rng.

(* ------------------------------ components ------------------------------ *)
Section Registry.
Variables cls inst fam : Type.
Variable build : cls -> result inst.

Lemma pget_after n regs (r : registry cls) :
  pget n (after cls regs r) = match latest cls n regs with Some c => Some c | None => pget n r end.
Proof.
  revert r. induction regs as [| [m c] l IH]; intros r; cbn [after latest]; [reflexivity |].
  rewrite IH. destruct (latest cls n l); [reflexivity |]. unfold register. rewrite pget_pset.
  destruct (String.eqb n m); reflexivity.
Qed.
Lemma existsb_pget {V} n (r : pairs V) : existsb (String.eqb n) (map fst r) = match pget n r with Some _ => true | None => false end.
Proof.
  induction r as [| [m v] r IH]; [reflexivity |]. cbn. destruct (String.eqb n m); [reflexivity | exact IH].
Qed.
Lemma maker_name n (r : registry cls) :
  maker cls inst build r (CName cls inst n) = match pget n r with Some c => build c | None => Err KeyError end.
Proof. unfold maker, available. rewrite existsb_pget. destruct (pget n r); reflexivity. Qed.
Lemma first_pset {V} n (v : V) r : map fst (pset n v r) <> [] /\
  (r <> [] -> hd n (map fst (pset n v r)) = hd n (map fst r)) /\ (r = [] -> pset n v r = [(n, v)]).
Proof.
  destruct r as [| [m w] r]; cbn; [repeat split; congruence |].
  destruct (String.eqb_spec n m); cbn; repeat split; try congruence; intros; subst; reflexivity.
Qed.
Lemma maker_none (r : registry cls) :
  maker cls inst build r (CNone cls inst) = match r with [] => Err IndexError | (n, _) :: _ => maker cls inst build r (CName cls inst n) end.
Proof. destruct r as [| [n c] r]; reflexivity. Qed.
Lemma hd_after regs (r : registry cls) d : r <> [] -> exists c r', after cls regs r = (fst (hd d r), c) :: r'.
Proof.
  revert r. induction regs as [| [m c] l IH]; intros [| [n v] r] H; try congruence; [cbn; eauto |].
  cbn [after]. unfold register. cbn [pset hd fst].
  destruct (String.eqb_spec m n) as [-> |].
  - destruct (IH ((n, c) :: r)) as (c' & r' & E); [congruence |]. exists c', r'. exact E.
  - destruct (IH ((n, v) :: pset m c r)) as (c' & r' & E); [congruence |]. exists c', r'. exact E.
Qed.
Lemma maker_default n c l :
  maker cls inst build (after cls ((n, c) :: l) []) (CNone cls inst) = maker cls inst build (after cls ((n, c) :: l) []) (CName cls inst n).
Proof.
  rewrite maker_none. cbn [after]. unfold register. cbn [pset].
  destruct (hd_after l [(n, c)] (n, c)) as (c' & r' & E); [congruence |]. rewrite E. reflexivity.
Qed.
Lemma other_names n m c (r : registry cls) : n <> m ->
  maker cls inst build (register cls m c r) (CName cls inst n) = maker cls inst build r (CName cls inst n).
Proof.
  intros H. rewrite !maker_name. unfold register. rewrite pget_pset.
  destruct (String.eqb_spec n m); [congruence | reflexivity].
Qed.

Variable fam_eqb : fam -> fam -> bool.
Variable family : cls -> fam.
Lemma families f regs (t : tables cls fam) :
  after_all cls fam fam_eqb family regs t f = after cls (filter (fun p => fam_eqb f (family (snd p))) regs) (t f).
Proof.
  revert t. induction regs as [| [n c] l IH]; intros t; [reflexivity |].
  cbn [after_all filter snd]. rewrite IH. unfold register_in. destruct (fam_eqb f (family c)); reflexivity.
Qed.
Lemma other_families f regs t : (forall n c, In (n, c) regs -> fam_eqb f (family c) = false) ->
  after_all cls fam fam_eqb family regs t f = t f.
Proof.
  intros H. rewrite families. replace (filter _ regs) with (@nil (string * cls)); [reflexivity |].
  induction regs as [| [n c] l IH]; [reflexivity |]. cbn [filter snd]. rewrite (H n c) by (left; reflexivity).
  apply IH. intros m d I. apply (H m d). right. exact I.
Qed.
End Registry.

(* --------------------------- overwrite prompts --------------------------- *)
Section Overwrite.
Variable path : Type.
Variable under : path -> path -> bool.
Variable rm_ok : path -> bool.
Notation check := (overwrite_check path under rm_ok).
Notation without := (without path under).

Lemma without_nil fs : without [] fs = fs.
Proof. unfold Base_spec.without. induction fs as [| p fs IH]; cbn; [reflexivity |]. f_equal. exact IH. Qed.
Lemma without_cons f l fs : without (f :: l) fs = without l (remove path under f fs).
Proof.
  unfold Base_spec.without, remove. cbn [existsb]. induction fs as [| p fs IH]; [reflexivity |]. cbn [filter].
  destruct (under p f); cbn [negb orb]; [exact IH |]. cbn [filter].
  rewrite IH. reflexivity.
Qed.

Lemma check_true files : forall ask a fs fs', check ask files a fs = (true, fs') ->
  fs' = without files fs /\ forall f, In f files -> rm_ok f = true.
Proof.
  induction files as [| f r IH]; intros ask a fs fs' H; cbn [overwrite_check] in H.
  - injection H as <-. rewrite without_nil. split; [reflexivity | intros f []].
  - rewrite without_cons.
    assert (P : forall ask' a', (if rm_ok f then check ask' r a' (remove path under f fs) else (false, fs)) = (true, fs') ->
      fs' = without r (remove path under f fs) /\ forall g, In g (f :: r) -> rm_ok g = true).
    { intros ask' a' E. destruct (rm_ok f) eqn:F; [| congruence]. destruct (IH _ _ _ _ E) as [-> K]. split; [reflexivity |].
      intros g [<- | G]; auto. }
    destruct (exists_ path under fs f && ask); [| apply (P _ _ H)].
    destruct a as [| [| |] a]; try congruence; apply (P _ _ H).
Qed.
Lemma check_success files : forall ask a fs, (forall f, In f files -> rm_ok f = true) ->
  ask = false \/ accepts (List.length files) a -> check ask files a fs = (true, without files fs).
Proof.
  induction files as [| f r IH]; intros ask a fs R A; cbn [overwrite_check].
  - rewrite without_nil. reflexivity.
  - rewrite without_cons. rewrite (R f) by (left; reflexivity).
    assert (R' : forall g, In g r -> rm_ok g = true) by (intros g G; apply R; right; exact G).
    destruct A as [-> | A].
    + rewrite Bool.andb_false_r. apply IH; auto.
    + assert (mono : forall n b, accepts (Datatypes.S n) b -> accepts n b).
      { induction n as [| n IHn]; intros b B; [exact I |]. destruct b as [| [| |] b]; try contradiction; [| exact I].
        cbn. apply IHn. exact B. }
      destruct (exists_ path under fs f && ask).
      * destruct a as [| [| |] a]; try contradiction; apply IH; auto.
      * apply IH; auto.
Qed.
Lemma check_false files : forall ask a fs fs', check ask files a fs = (false, fs') ->
  exists l1 f l2, files = (l1 ++ f :: l2)%list /\ fs' = without l1 fs /\ (forall g, In g l1 -> rm_ok g = true) /\
    (rm_ok f = false \/ (ask = true /\ exists_ path under fs' f = true /\ refused a)).
Proof.
  induction files as [| f r IH]; intros ask a fs fs' H; cbn [overwrite_check] in H; [congruence |].
  assert (P : forall ask' a', (ask' = true -> ask = true /\ (refused a' -> refused a)) -> (if rm_ok f then check ask' r a' (remove path under f fs) else (false, fs)) = (false, fs') ->
      exists l1 g l2, (f :: r = l1 ++ g :: l2)%list /\ fs' = without l1 fs /\ (forall g, In g l1 -> rm_ok g = true) /\
      (rm_ok g = false \/ (ask = true /\ exists_ path under fs' g = true /\ refused a))).
  { intros ask' a' K E. destruct (rm_ok f) eqn:F.
    - destruct (IH _ _ _ _ E) as (l1 & g & l2 & -> & -> & R & D). exists (f :: l1), g, l2.
      rewrite without_cons. split; [reflexivity |]. split; [reflexivity |]. split; [intros x [<- | X]; auto |].
      destruct D as [D | (D1 & D2 & D3)]; [left; exact D | right]. destruct (K D1) as [K1 K2]. auto.
    - injection E as <-. exists [], f, r. rewrite without_nil. repeat split; auto; intros g []. }
  destruct (exists_ path under fs f && ask) eqn:X; [| apply (P _ _ (fun h => conj h (fun x => x)) H)].
  apply Bool.andb_true_iff in X. destruct X as [X Y].
  assert (Q : refused a -> (false, fs) = (false, fs') -> exists l1 g l2, (f :: r = l1 ++ g :: l2)%list /\ fs' = without l1 fs /\ (forall g, In g l1 -> rm_ok g = true) /\
      (rm_ok g = false \/ (ask = true /\ exists_ path under fs' g = true /\ refused a))).
  { intros Z E. injection E as <-. exists [], f, r. rewrite without_nil. split; [reflexivity |]. split; [reflexivity |].
    split; [intros g [] |]. right. repeat split; auto. }
  destruct a as [| [| |] a].
  - apply Q; [exact I | exact H].
  - apply (P ask a (fun h => conj h (fun x => x)) H).
  - apply (P false a (fun h => ltac:(discriminate h)) H).
  - apply Q; [exact I | exact H].
Qed.
Lemma check_decline_first files a l1 f l2 fs : files = (l1 ++ f :: l2)%list ->
  (forall g, In g l1 -> exists_ path under fs g = false /\ rm_ok g = true) -> exists_ path under fs f = true ->
  check true files (No :: a) fs = (false, fs).
Proof.
  intros ->. induction l1 as [| g l1 IH]; intros N X; cbn [app overwrite_check].
  - rewrite X. reflexivity.
  - destruct (N g) as [G K]; [left; reflexivity |]. rewrite G. cbn [andb]. rewrite K.
    assert (E : remove path under g fs = fs).
    { unfold remove. unfold exists_ in G. clear - G. induction fs as [| p fs IH]; [reflexivity |]. cbn in *.
      apply Bool.orb_false_iff in G. destruct G as [-> G]. cbn. rewrite IH; auto. }
    rewrite E. apply IH; auto. intros h Hh. apply N. right. exact Hh.
Qed.
End Overwrite.

Lemma export_keeps override outcome pref : snd (export_pref override outcome pref) = None -> fst (export_pref override outcome pref) = pref.
Proof. unfold export_pref. destruct (outcome _); cbn; congruence. Qed.
Lemma export_raises override outcome pref e : snd (export_pref override outcome pref) = Some e ->
  fst (export_pref override outcome pref) = match override with Some b => b | None => pref end.
Proof. unfold export_pref. destruct (outcome _); cbn; congruence. Qed.

(* ----------------------------- save actions ----------------------------- *)
Section Actions.
Variable value : Type.
Variable kind : string -> attr_kind.
Variable has_name : bool.
Notation check_dict := (check_dict value kind has_name).
Notation check_entry := (check_entry value kind has_name).
Notation check_list := (check_list value kind has_name).

Lemma check_dict_ok d : check_dict d = None <-> forall n a, In (n, a) d -> kind n = Callable /\ a <> None.
Proof.
  induction d as [| [n a] d IH]; cbn; [split; [intros _ n a [] | reflexivity] |].
  destruct (kind n) eqn:K.
  - split; [discriminate |]. intros H. destruct (H n a) as [E _]; [auto | congruence].
  - split; [discriminate |]. intros H. destruct (H n a) as [E _]; [auto | congruence].
  - destruct a as [a |].
    + rewrite IH. split.
      * intros H m b [E | I]; [injection E as <- <-; split; [exact K | discriminate] | apply H; exact I].
      * intros H m b I. apply H. right. exact I.
    + split; [discriminate |]. intros H. destruct (H n None) as [_ E]; [auto | congruence].
Qed.
Lemma check_entry_ok e : check_entry e = None <-> valid_entry value kind e.
Proof. destruct e as [| d]; cbn; [split; [discriminate | contradiction] | apply check_dict_ok]. Qed.
Lemma check_list_ok l : check_list l = None <-> Forall (valid_entry value kind) l.
Proof.
  induction l as [| e l IH]; cbn; [split; [constructor | reflexivity] |].
  destruct (check_entry e) eqn:E.
  - split; [discriminate |]. intros H. inversion H; subst. apply check_entry_ok in H2. congruence.
  - rewrite IH. apply check_entry_ok in E. split; intros H; [constructor; auto | inversion H; auto].
Qed.

Lemma upd_same {A} (f : nat -> A) i v : upd f i v i = v.
Proof. unfold upd. rewrite Nat.eqb_refl. reflexivity. Qed.
Lemma upd_other {A} (f : nat -> A) i v j : j <> i -> upd f i v j = f j.
Proof. intros H. unfold upd. destruct (Nat.eqb_spec j i); [congruence | reflexivity]. Qed.

Notation perform := (perform value kind has_name).
Lemma perform_spec objs o op (w : world value) : unshared value objs w -> In o objs ->
  let '(w', e) := perform o op w in
  unshared value objs w' /\
  (forall p, In p objs -> p <> o -> actions value w' p = actions value w p) /\
  ((op_valid value kind op /\ e = None /\ actions value w' o = intended value op (actions value w o)) \/
   (~ op_valid value kind op /\ e <> None /\ actions value w' o = actions value w o)).
Proof.
  intros [U1 U2] Ho. destruct w as [ls nx ob]. cbn in U1, U2.
  assert (F : forall ls' : nat -> list (entry value), (forall i, (i < nx)%nat -> ls' i = ls i) -> forall m, (nx <= m)%nat -> forall l, ls' m = l ->
    let w' := {| w_lists := ls'; w_next := Datatypes.S m; w_obj := upd ob o m |} in
    unshared value objs w' /\ (forall p, In p objs -> p <> o -> actions value w' p = ls (ob p)) /\ actions value w' o = l).
  { intros ls' K m Hm l Hl w'. unfold w', unshared, actions; cbn. split; [split |].
    - intros a b Ha Hb E. unfold upd in E. destruct (Nat.eqb_spec a o), (Nat.eqb_spec b o); subst; auto.
      + specialize (U2 b Hb). lia.
      + specialize (U2 a Ha). lia.
    - intros a Ha. unfold upd. destruct (Nat.eqb_spec a o); [lia |]. specialize (U2 a Ha). lia.
    - split; [| rewrite upd_same; exact Hl].
      intros p Hp Np. rewrite upd_other by exact Np. apply K. apply U2, Hp. }
  assert (W : forall l i, (i < nx)%nat -> upd ls nx l i = ls i) by (intros l i Hi; apply upd_other; lia).
  assert (W2 : forall i, (i < nx)%nat -> upd (upd ls nx []) (Datatypes.S nx) [] i = ls i)
    by (intros i Hi; rewrite upd_other by lia; apply W; exact Hi).
  destruct op as [| l | | e]; cbn [Base_spec.perform set_actions].
  - cbn. destruct (F (upd ls nx []) (W []) nx (le_n _) [] (upd_same _ _ _)) as (A & B & C).
    split; [exact A |]. split; [exact B |]. left. repeat split. exact C.
  - cbn -[Base_model.check_list]. rewrite upd_same. destruct l as [| e l].
    + destruct (F (upd (upd ls nx []) (Datatypes.S nx) []) W2 (Datatypes.S nx) (le_S _ _ (le_n _)) [] (upd_same _ _ _)) as (A & B & C).
      split; [exact A |]. split; [exact B |]. left. repeat split; [constructor | exact C].
    + destruct (check_list (e :: l)) eqn:E.
      * split; [split; cbn; [exact U1 | intros a Ha; specialize (U2 a Ha); lia] |].
        split; [intros p Hp _; unfold actions; cbn; apply upd_other; specialize (U2 p Hp); lia |].
        right. split; [intros H; apply check_list_ok in H; congruence |]. split; [discriminate |].
        unfold actions; cbn. apply upd_other. specialize (U2 o Ho). lia.
      * destruct (F (upd ls nx (e :: l)) (W _) nx (le_n _) (e :: l) (upd_same _ _ _)) as (A & B & C).
        split; [exact A |]. split; [exact B |]. left. split; [apply check_list_ok; exact E |]. split; [reflexivity | exact C].
  - cbn. split; [split; assumption |]. split; [auto |]. right. repeat split; [intros [] | discriminate].
  - unfold add_action. destruct (check_entry e) eqn:E.
    + split; [split; assumption |]. split; [auto |]. right. split; [intros H; apply check_entry_ok in H; congruence |]. split; [discriminate | reflexivity].
    + split; [split; assumption |]. split.
      * intros p Hp Np. unfold actions; cbn. apply upd_other. intros X. apply Np, U1; auto.
      * left. split; [apply check_entry_ok; exact E |]. split; [reflexivity |]. unfold actions; cbn. apply upd_same.
Qed.
Lemma perform_all_spec objs ops : forall w, unshared value objs w -> (forall o op, In (o, op) ops -> In o objs) ->
  let w' := perform_all value kind has_name ops w in
  unshared value objs w' /\ forall o, In o objs -> should_be value kind o ops (actions value w o) (actions value w' o).
Proof.
  induction ops as [| [p op] r IH]; intros w U H; cbn [perform_all].
  - split; [exact U |]. intros o _. constructor.
  - assert (Hp : In p objs) by (apply (H p op); left; reflexivity).
    pose proof (perform_spec objs p op w U Hp) as P. destruct (perform p op w) as [w1 e]. cbn [fst].
    destruct P as (U' & Oth & D).
    destruct (IH w1 U') as [U'' S]; [intros o q Hq; apply (H o q); right; exact Hq |].
    split; [exact U'' |]. intros o Ho. destruct (Nat.eq_dec p o) as [-> | N].
    + destruct D as [(V & _ & E) | (V & _ & E)].
      * apply sb_valid; [exact V |]. rewrite <- E. apply S; exact Ho.
      * apply sb_invalid; [exact V |]. rewrite <- E. apply S; exact Ho.
    + apply sb_other; [exact N |]. rewrite <- (Oth o Ho) by congruence. apply S; exact Ho.
Qed.

Variable has_prefix : bool.
Variable call : string -> args value -> option exn.
Notation run_dict := (run_dict value kind has_name call).
Notation run_list := (run_list value kind has_name call).
Definition calls_of (kw : args value) (iv : value) (l : list (entry value)) : list (string * args value) :=
  flat_map (fun e => match e with
                     | NotDict _ => []
                     | Entry _ d => flat_map (fun p => match snd p with
                                                       | Some a => [(fst p, call_args value a kw iv)]
                                                       | None => [] end) d
                     end) l.
Lemma run_dict_ok kw iv d : (forall n a, In (n, a) d -> kind n = Callable /\ a <> None) -> (forall n x, call n x = None) ->
  run_dict kw iv d = (flat_map (fun p => match snd p with Some a => [(fst p, call_args value a kw iv)] | None => [] end) d, None).
Proof.
  intros H C. induction d as [| [n a] d IH]; [reflexivity |]. cbn [Base_model.run_dict flat_map fst snd].
  destruct (H n a) as [K A]; [left; reflexivity |]. rewrite K. destruct a as [a |]; [| congruence].
  rewrite C, IH; [reflexivity |]. intros m b I. apply H. right. exact I.
Qed.
Lemma run_list_ok kw iv l : Forall (valid_entry value kind) l -> (forall n x, call n x = None) ->
  run_list kw iv l = (calls_of kw iv l, None).
Proof.
  intros H C. induction H as [| e l V H IH]; [reflexivity |]. destruct e as [| d]; [contradiction |].
  cbn [Base_model.run_list calls_of flat_map]. rewrite run_dict_ok by assumption. rewrite IH. reflexivity.
Qed.
(** When an action raises, the calls made are an initial segment ending with that action. *)
Lemma run_dict_prefix kw iv d : (forall n a, In (n, a) d -> kind n = Callable /\ a <> None) ->
  forall c e, run_dict kw iv d = (c, e) ->
  exists rest, flat_map (fun p => match snd p with Some a => [(fst p, call_args value a kw iv)] | None => [] end) d = (c ++ rest)%list /\
    match e with
    | None => rest = []
    | Some x => exists c0 n a, c = (c0 ++ [(n, a)])%list /\ call n a = Some x
    end.
Proof.
  induction d as [| [n a] d IH]; intros H c e; cbn [Base_model.run_dict flat_map fst snd].
  - intros E. injection E as <- <-. exists []. split; reflexivity.
  - destruct (H n a) as [K A]; [left; reflexivity |]. rewrite K. destruct a as [a |]; [| congruence].
    destruct (call n (call_args value a kw iv)) as [x |] eqn:Cx.
    + intros E. injection E as <- <-. eexists. split; [reflexivity |].
      exists [], n, (call_args value a kw iv). split; [reflexivity | exact Cx].
    + destruct (run_dict kw iv d) as [c1 e1]. intros E. injection E as <- <-.
      destruct (IH (fun m b I => H m b (or_intror I)) c1 e1 eq_refl) as (rest & E1 & E2). exists rest. rewrite E1. split; [reflexivity |].
      destruct e1; [| exact E2]. destruct E2 as (c0 & m & b & -> & Cm). exists ((n, call_args value a kw iv) :: c0), m, b. split; [reflexivity | exact Cm].
Qed.
Lemma run_list_prefix kw iv l : Forall (valid_entry value kind) l ->
  forall c e, run_list kw iv l = (c, e) ->
  exists rest, calls_of kw iv l = (c ++ rest)%list /\
    match e with
    | None => rest = []
    | Some x => exists c0 n a, c = (c0 ++ [(n, a)])%list /\ call n a = Some x
    end.
Proof.
  intros H. induction H as [| en l V H IH]; intros c e.
  - cbn. intros E. injection E as <- <-. exists []. split; reflexivity.
  - destruct en as [| d]; [contradiction |]. cbn [Base_model.run_list]. unfold calls_of. cbn [flat_map].
    pose proof (run_dict_prefix kw iv d V) as P. destruct (run_dict kw iv d) as [c1 [x |]].
    + intros E. injection E as <- <-. destruct (P _ _ eq_refl) as (rest & E1 & E2). rewrite E1.
      eexists. rewrite <- app_assoc. split; [reflexivity | exact E2].
    + destruct (P _ _ eq_refl) as (rest & E1 & E2). subst rest. rewrite E1, app_nil_r.
      destruct (run_list kw iv l) as [c2 e2]. intros E. injection E as <- <-.
      destruct (IH _ _ eq_refl) as (rest & F1 & F2). unfold calls_of in F1. rewrite F1. exists rest. rewrite app_assoc. split; [reflexivity |].
      destruct e2; [| exact F2]. destruct F2 as (c0 & m & b & -> & Cm). exists (c1 ++ c0)%list, m, b. rewrite app_assoc. split; [reflexivity | exact Cm].
Qed.
End Actions.

(* ------------------------------- witnesses ------------------------------- *)
Definition h0 : heap nat := {| h_size := 1; h_state := fun _ => 7%nat |}.
Definition nseed (n : nat) : option nat := if Nat.ltb n 100 then Some (n * n)%nat else None.
Definition fs_dir : list (nat * nat) := [(1, 1); (1, 2); (2, 1); (3, 1)]%nat.
Definition in_dir (p f : nat * nat) : bool := Nat.eqb (fst p) (fst f).
(** Two files: the first is accepted and deleted, the second refused. *)
Lemma refused_after_deleting :
  overwrite_check nat Nat.eqb (fun _ => true) true [1; 2]%nat [Yes; No] [1; 2; 3]%nat = (false, [2; 3]%nat).
Proof. reflexivity. Qed.
Definition kinds (n : string) : attr_kind :=
  if String.eqb n "plot" then Callable else if String.eqb n "export" then Callable else if String.eqb n "radius" then NotCallable else Missing.
Definition plot_entry : entry nat := Entry nat [("plot", Some [("style", 1%nat)])].
Definition w0 : world nat :=
  {| w_lists := fun i => match i with 0 => [] | 1 => [] | _ => [plot_entry] end%nat; w_next := 3; w_obj := fun o => o |}.
Lemma aliased :
  let w1 := fst (set_actions nat kinds true 0 (AList 2) w0) in
  let w2 := fst (set_actions nat kinds true 1 (AList 2) w1) in
  let w3 := fst (add_action nat kinds true 0 (Entry nat [("export", Some [])]) w2) in
  actions nat w2 1 = [plot_entry] /\ actions nat w3 1 = [plot_entry; Entry nat [("export", Some [])]].
Proof. split; reflexivity. Qed.
Lemma w0_unshared : unshared nat [0; 1]%nat w0.
Proof. split; cbn; intros; intuition lia. Qed.
Lemma invalid_raises value kind e : ~ valid_entry value kind e ->
  (forall o w, exists x, add_action value kind true o e w = (w, Some x) /\ (x = TypeError \/ x = ValueError)).
Proof.
  intros H o w. unfold add_action. destruct (check_entry value kind true e) eqn:E.
  - exists e0. split; [reflexivity |]. destruct e as [| d]; cbn in E; [injection E as <-; auto |].
    clear H. induction d as [| [n a] d IH]; cbn in E; [discriminate |].
    destruct (kind n); [injection E as <-; auto | injection E as <-; auto |]. destruct a; [apply IH; exact E | injection E as <-; auto].
  - exfalso. apply H. apply (check_entry_ok value kind true). exact E.
Qed.
Lemma invalid_unnamed value kind d : ~ valid_entry value kind (Entry value d) ->
  forall o w, add_action value kind false o (Entry value d) w = (w, Some AttributeError).
Proof.
  intros H o w. unfold add_action. destruct (check_entry value kind false (Entry value d)) as [x |] eqn:E.
  - enough (x = AttributeError) as -> by reflexivity. clear H. cbn in E. induction d as [| [n a] d IH]; cbn in E; [discriminate |].
    destruct (kind n); [injection E as <-; auto | injection E as <-; auto |]. destruct a; [apply IH; exact E | injection E as <-; auto].
  - exfalso. apply H. apply (check_entry_ok value kind false). exact E.
Qed.
Lemma calls_listed value kw iv l : calls_of value kw iv l = map (fun p => (fst p, call_args value (snd p) kw iv)) (listed value l).
Proof.
  unfold calls_of, listed. induction l as [|[|d] l IH]; cbn [flat_map]; [reflexivity | exact IH |].
  rewrite IH, map_app. f_equal. clear. induction d as [|[n [a|]] d IH]; cbn; [reflexivity | rewrite IH; reflexivity | exact IH].
Qed.
Lemma calls_action_ok value (kw : args value) iv p : NoDup (map fst kw) -> calls_action value kw iv p (fst p, call_args value (snd p) kw iv).
Proof.
  intros D. split; [reflexivity |]. intros k. cbn [snd]. unfold call_args. rewrite pget_pset.
  destruct (String.eqb k "interval"); [reflexivity |]. rewrite pget_pupdate by exact D. destruct (pget k kw); reflexivity.
Qed.
Lemma save_valid value kind has_name has_prefix call w o filename kw iv :
  Forall (valid_entry value kind) (actions value w o) -> NoDup (map fst kw) -> (filename || has_prefix)%bool = true ->
  forall calls e, save value kind has_name has_prefix call o false filename kw iv w = (calls, e) ->
  exists done rest, listed value (actions value w o) = (done ++ rest)%list /\ Forall2 (calls_action value kw iv) done calls /\
    match e with
    | None => rest = []
    | Some x => exists c0 n a, calls = (c0 ++ [(n, a)])%list /\ call n a = Some x
    end.
Proof.
  intros V D F calls e. unfold save. replace (negb filename && negb has_prefix)%bool with false; [| destruct filename, has_prefix; cbn in *; congruence].
  intros E. apply run_list_prefix in E; [| exact V]. destruct E as (rest & E & K). rewrite calls_listed in E.
  apply map_eq_app in E. destruct E as (l1 & l2 & E1 & E2 & E3). exists l1, l2. split; [exact E1 |]. split.
  - rewrite <- E2. clear -D. induction l1; constructor; [apply calls_action_ok; exact D | assumption].
  - destruct e; [exact K |]. subst rest. destruct l2; [reflexivity | discriminate].
Qed.
