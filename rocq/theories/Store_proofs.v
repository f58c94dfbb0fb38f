From Coq Require Import Reals ZArith List String Ascii Bool Lia Arith.
From Verif Require Import Common Store_model Store_spec.
Import ListNotations.
Open Scope string_scope.

(** Identifiers. *)
Lemma colon_free_cons c s : colon_free (String c s) -> c <> ":"%char /\ colon_free s.
Proof. intro H. split; [intro E; apply (H 0%nat); cbn; rewrite E; reflexivity|intros k; apply (H (S k))]. Qed.
Lemma split_colon a b x y : colon_free a -> colon_free b -> (a ++ ":" ++ x = b ++ ":" ++ y)%string -> a = b /\ x = y.
Proof.
  revert b. induction a as [|c a IH]; intros [|e b] A B E; cbn in E.
  - injection E as E. auto.
  - injection E as E _. apply colon_free_cons in B as [B _]. congruence.
  - injection E as E _. apply colon_free_cons in A as [A _]. congruence.
  - injection E as E1 E2. subst e. apply colon_free_cons in A as [_ A]. apply colon_free_cons in B as [_ B].
    destruct (IH b A B E2) as [-> ->]. auto.
Qed.
Lemma append_length a b : String.length (a ++ b) = (String.length a + String.length b)%nat.
Proof. induction a; cbn; congruence. Qed.
Lemma append_inj_r a b s : (a ++ s = b ++ s)%string -> a = b.
Proof.
  revert b. induction a as [|c a IH]; intros [|e b] E; auto.
  - exfalso. apply (f_equal String.length) in E. cbn in E. rewrite append_length in E. lia.
  - exfalso. apply (f_equal String.length) in E. cbn in E. rewrite append_length in E. lia.
  - cbn in E. injection E as -> E. rewrite (IH b E). reflexivity.
Qed.
Lemma append_assoc a b c : ((a ++ b) ++ c = a ++ b ++ c)%string.
Proof. induction a; cbn; congruence. Qed.
Lemma concat_cons a l : l <> [] -> String.concat ":" (a :: l) = (a ++ ":" ++ String.concat ":" l)%string.
Proof. destruct l; [congruence|reflexivity]. Qed.
Lemma concat_inj l m : Forall colon_free (removelast l) -> Forall colon_free (removelast m) ->
  List.length l = List.length m -> String.concat ":" l = String.concat ":" m -> l = m.
Proof.
  revert m. induction l as [|a l IH]; intros [|b m] A B L E; try discriminate; auto.
  destruct l as [|a' l]; destruct m as [|b' m]; try discriminate.
  - cbn in E. subst. reflexivity.
  - rewrite !concat_cons in E by discriminate. cbn [removelast] in A, B. inversion A; inversion B; subst.
    apply split_colon in E as [-> E]; auto. f_equal. apply IH; auto.
Qed.

Lemma name_free m : colon_free (component_name m).
Proof. intros k E. destruct m; cbn in E; repeat (destruct k; cbn in E; [discriminate|]); discriminate. Qed.
Lemma head_eq pr p q : faithful pr -> colon_free (s_target p) -> colon_free (s_target q) ->
  String.concat ":" (hashvars pr p) = String.concat ":" (hashvars pr q) -> component_name (s_mesh p) = component_name (s_mesh q).
Proof.
  intros F A B E. unfold hashvars in E. cbn [app] in E. rewrite !concat_cons in E by discriminate.
  apply split_colon in E as [E _]; auto using name_free.
Qed.
Lemma id_inj pr hash p q : faithful pr -> injective hash -> colon_free (s_target p) -> colon_free (s_target q) ->
  id_of pr hash p = id_of pr hash q -> p = q.
Proof.
  intros F H A B E. apply H in E. apply append_inj_r in E. pose proof (head_eq _ _ _ F A B E) as HE.
  destruct F as (F1 & F2 & F3 & F4 & F5 & C1 & C2 & C3 & C4).
  assert (L : hashvars pr p = hashvars pr q).
  { apply concat_inj; [| | |exact E].
    - destruct p as [t r []]; cbn; repeat constructor; auto; try apply (name_free (Ico 0)); try apply (name_free (Arb 0%Z)); try apply (name_free (Hires 0%Z 0%Z (0%Z, 0%Z) None)); try apply (name_free (Data 0%Z 0%Z (0%Z, 0%Z) None [])).
    - destruct q as [t r []]; cbn; repeat constructor; auto; try apply (name_free (Ico 0)); try apply (name_free (Arb 0%Z)); try apply (name_free (Hires 0%Z 0%Z (0%Z, 0%Z) None)); try apply (name_free (Data 0%Z 0%Z (0%Z, 0%Z) None [])).
    - destruct p as [t r []], q as [t' r' []]; cbn in HE; try discriminate; reflexivity. }
  destruct p as [t r []], q as [t' r' []]; cbn in HE; try discriminate; cbn in L; injection L; intros;
    repeat match goal with
    | H : show pr _ = show pr _ |- _ => apply F1 in H
    | H : show_level pr _ = show_level pr _ |- _ => apply F2 in H
    | H : show_place pr _ = show_place pr _ |- _ => apply F3 in H
    | H : show_scale pr _ = show_scale pr _ |- _ => apply F4 in H
    | H : show_files pr _ = show_files pr _ |- _ => apply F5 in H
    end; subst; reflexivity.
Qed.

(** Datasets. *)
Lemma get_app n a b : get n (a ++ b)%list = match get n a with Some x => Some x | None => get n b end.
Proof. unfold get. induction a as [|e a IH]; cbn; [reflexivity|]. destruct (fst e =? n); [reflexivity|exact IH]. Qed.
Lemma get_filter n (keep : string -> bool) d : get n (filter (fun e => keep (fst e)) d) = if keep n then get n d else None.
Proof.
  unfold get. induction d as [|e d IH]; cbn; [destruct (keep n); reflexivity|]. destruct (keep (fst e)) eqn:K; cbn.
  - destruct (fst e =? n) eqn:E; [apply String.eqb_eq in E; subst; rewrite K; reflexivity|exact IH].
  - destruct (fst e =? n) eqn:E; [apply String.eqb_eq in E; subst; rewrite K in *; exact IH|exact IH].
Qed.
Lemma merge_get new old m n : merge new old = Ok m -> get n m = match get n new with Some x => Some x | None => get n old end.
Proof.
  unfold merge. destruct (conform new old); [|discriminate]. intro E. injection E as <-. rewrite get_app. destruct (get n new) eqn:N; [reflexivity|].
  rewrite (get_filter n (fun k => match get k new with Some _ => false | None => true end)). rewrite N. reflexivity.
Qed.
Lemma merge_in new old m e : merge new old = Ok m -> In e m -> In e new \/ In e old.
Proof.
  unfold merge. destruct (conform new old); [|discriminate]. intro E. injection E as <-. rewrite in_app_iff, filter_In. tauto.
Qed.
Lemma conform_spec d1 d2 : conform d1 d2 = true <->
  (forall n1 w l1 n2 l2, In (n1, (w, l1)) d1 -> In (n2, (w, l2)) d2 -> List.length l1 = List.length l2).
Proof.
  unfold conform. rewrite forallb_forall. split.
  - intros H n1 w l1 n2 l2 I1 I2. specialize (H _ I1). rewrite forallb_forall in H. specialize (H _ I2). cbn in H.
    destruct w; cbn in H; apply Nat.eqb_eq; exact H.
  - intros H [n1 [w l1]] I1. rewrite forallb_forall. intros [n2 [w' l2]] I2. cbn.
    destruct w, w'; cbn; try reflexivity; apply Nat.eqb_eq; eapply H; eauto.
Qed.

Section Store.
Variable G : Type.
Variables n_face n_node : G -> nat.
Variable generator : params -> G.
Variable pr : printer.
Variable hash : string -> string.
Notation state := (state G). Notation disk := (disk G). Notation fits := (fits G n_face n_node).
Notation consistent := (consistent G n_face n_node). Notation file := (file G).
Notation step := (step G n_face n_node generator pr hash). Notation crash := (crash G n_face n_node generator pr hash).
Notation plan := (plan G n_face n_node generator pr hash). Notation construct := (construct G n_face n_node generator pr hash).
Notation write_all := (write_all G). Notation history := (history G n_face n_node generator pr hash). Notation quiet := (quiet G n_face n_node generator pr hash).

Lemma write_all_app a b d : write_all (a ++ b)%list d = write_all b (write_all a d).
Proof. apply fold_left_app. Qed.
Lemma file_put i f d j : file j (write1 G d (Put G i f)) = if Nat.eqb i j then Some f else file j d.
Proof.
  unfold file, Store_model.file. cbn. destruct (Nat.eqb i j) eqn:E; [reflexivity|].
  assert (find (fun e : nat * dataset => Nat.eqb (fst e) j) (filter (fun e => negb (Nat.eqb (fst e) i)) (d_data G d)) = find (fun e => Nat.eqb (fst e) j) (d_data G d)) as ->; [|reflexivity].
  induction (d_data G d) as [|e l IH]; cbn; [reflexivity|]. destruct (Nat.eqb (fst e) i) eqn:X; cbn.
  - apply Nat.eqb_eq in X. rewrite X, E. exact IH.
  - destruct (Nat.eqb (fst e) j); [reflexivity|exact IH].
Qed.
Lemma file_delete i d j : file j (write1 G d (Delete G i)) = if Nat.eqb i j then None else file j d.
Proof.
  unfold file, Store_model.file. cbn.
  assert (find (fun e : nat * dataset => Nat.eqb (fst e) j) (filter (fun e => negb (Nat.eqb (fst e) i)) (d_data G d)) = if Nat.eqb i j then None else find (fun e => Nat.eqb (fst e) j) (d_data G d)) as ->; [|destruct (Nat.eqb i j); reflexivity].
  induction (d_data G d) as [|e l IH]; cbn; [destruct (Nat.eqb i j); reflexivity|]. destruct (Nat.eqb (fst e) i) eqn:X; cbn.
  - apply Nat.eqb_eq in X. rewrite X, IH. destruct (Nat.eqb i j) eqn:E; reflexivity.
  - destruct (Nat.eqb (fst e) j) eqn:Y; [|exact IH]. apply Nat.eqb_eq in Y. rewrite <- Y, Nat.eqb_sym, X. reflexivity.
Qed.
Lemma file_in d i f : file i d = Some f -> In (i, f) (d_data G d).
Proof.
  unfold file, Store_model.file. destruct (find _ _) as [[j f']|] eqn:E; [|discriminate]. intro H. injection H as <-.
  apply find_some in E as [I E]. cbn in E. apply Nat.eqb_eq in E. subst. exact I.
Qed.
Lemma file_of_in d i f : In (i, f) (d_data G d) -> exists f', file i d = Some f'.
Proof.
  intro I. unfold file, Store_model.file. destruct (find _ _) as [e|] eqn:E; [eauto|]. exfalso.
  pose proof (find_none _ _ E _ I) as N. cbn in N. rewrite Nat.eqb_refl in N. discriminate.
Qed.
Lemma file_write d i w : match w with Unlink _ => True | Move _ _ _ => True | _ => False end -> file i (write1 G d w) = file i d.
Proof. destruct w; cbn; try tauto; reflexivity. Qed.
Lemma grid_write d w : match w with Delete _ _ => True | Put _ _ _ => True | _ => False end -> d_grid G (write1 G d w) = d_grid G d.
Proof. destruct w; cbn; try tauto; reflexivity. Qed.

(** Deleting everything. *)
Lemma data_deleted l d : d_data G (write_all (map (fun e : nat * dataset => Delete G (fst e)) l) d) =
  filter (fun e => negb (existsb (fun x => Nat.eqb (fst e) (fst x)) l)) (d_data G d).
Proof.
  revert d. induction l as [|e l IH]; intro d.
  - cbn. induction (d_data G d) as [|x xs IHx]; cbn; [reflexivity|]. f_equal. exact IHx.
  - cbn [map]. change (write_all (Delete G (fst e) :: map (fun e : nat * dataset => Delete G (fst e)) l) d) with (write_all (map (fun e : nat * dataset => Delete G (fst e)) l) (write1 G d (Delete G (fst e)))). rewrite IH. cbn.
    induction (d_data G d) as [|x xs IHx]; cbn; [reflexivity|].
    destruct (Nat.eqb (fst x) (fst e)) eqn:E; cbn; [exact IHx|].
    destruct (existsb (fun y => Nat.eqb (fst x) (fst y)) l); cbn; [exact IHx|f_equal; exact IHx].
Qed.
Lemma all_deleted d : d_data G (write_all (map (fun e : nat * dataset => Delete G (fst e)) (d_data G d)) d) = [].
Proof.
  rewrite data_deleted. assert (H : forall l, (forall e, In e l -> In e (d_data G d)) -> filter (fun e => negb (existsb (fun x => Nat.eqb (fst e) (fst x)) (d_data G d))) l = []); [|apply H; auto].
  induction l as [|e l IH]; intro I; cbn; [reflexivity|].
  assert (X : existsb (fun x : nat * dataset => Nat.eqb (fst e) (fst x)) (d_data G d) = true).
  { apply existsb_exists. exists e. split; [apply I; left; reflexivity|apply Nat.eqb_refl]. }
  rewrite X. cbn. apply IH. intros. apply I. right. assumption.
Qed.
Lemma grid_deleted l d : d_grid G (write_all (map (fun e : nat * dataset => Delete G (fst e)) l) d) = d_grid G d.
Proof. revert d. induction l as [|e l IH]; intro d; [reflexivity|]. cbn [map]. change (d_grid G (write_all (map (fun e : nat * dataset => Delete G (fst e)) l) (write1 G d (Delete G (fst e)))) = d_grid G d). rewrite IH. reflexivity. Qed.

(** Saving. *)
Lemma save_put i new d w : save_data G i new d = Ok w -> exists m, w = Put G i m /\
  (forall n, get n m = match get n new with Some x => Some x | None => match file i d with Some old => get n old | None => None end end) /\
  (forall e, In e m -> In e new \/ exists old, file i d = Some old /\ In e old).
Proof.
  unfold save_data. fold file. destruct (file i d) as [old|] eqn:E.
  - destruct (merge new old) as [m|] eqn:M; [|discriminate]. cbn. intro H. injection H as <-. exists m. split; [reflexivity|]. split.
    + intro n. apply (merge_get _ _ _ n M).
    + intros e I. destruct (merge_in _ _ _ _ M I); eauto.
  - intro H. injection H as <-. exists new. split; [reflexivity|]. split; [intro n; destruct (get n new); reflexivity|auto].
Qed.
Lemma save_ok i new d g : fits g new -> (forall f, file i d = Some f -> fits g f) -> exists w, save_data G i new d = Ok w.
Proof.
  intros A B. unfold save_data. fold file. destruct (file i d) as [old|] eqn:E; [|eauto]. unfold merge.
  assert (C : conform new old = true). { apply conform_spec. intros. rewrite (A _ _ _ H), (B _ eq_refl _ _ _ H0). reflexivity. }
  rewrite C. cbn. eauto.
Qed.

Lemma fits_initial g : fits g (initial_data G n_face n_node g).
Proof. intros n w l I. destruct I as [I|[I|[]]]; injection I as <- <- <-; apply repeat_length. Qed.
Lemma fits_one g n w : fits g [(n, initial G n_face n_node g w)].
Proof. intros n' w' l I. destruct I as [I|[]]. injection I as <- <- <-. apply repeat_length. Qed.

(** The grid file. *)
Definition genuine (d : disk) : Prop := forall id g, d_grid G d = Some (id, g) -> exists p, colon_free (s_target p) /\ id = id_of pr hash p /\ g = generator p.
Definition honest (w : write G) : Prop := match w with Move _ id g => exists p, colon_free (s_target p) /\ id = id_of pr hash p /\ g = generator p | _ => True end.
Lemma honest_step d w : genuine d -> honest w -> genuine (write1 G d w).
Proof.
  intros Gd Hw id g E. destruct w as [|i g'|i|i f]; cbn in E.
  - discriminate.
  - injection E as <- <-. exact Hw.
  - exact (Gd _ _ E).
  - exact (Gd _ _ E).
Qed.
Lemma honest_all ws d : genuine d -> Forall honest ws -> genuine (write_all ws d).
Proof. revert d. induction ws as [|w ws IH]; intros d Gd H; [exact Gd|]. inversion H; subst. cbn. apply IH; [apply honest_step; assumption|assumption]. Qed.
Lemma reset_honest g go d ws : reset_writes G n_face n_node g go d = Ok ws -> Forall honest ws.
Proof.
  unfold reset_writes. destruct (save_data G 0 _ _) as [w2|] eqn:E2; [|discriminate]. cbn [rbind].
  destruct (save_data G 0 [("face_elevation", _)] _) as [w3|] eqn:E3; [|discriminate]. cbn [rbind]. intro H. injection H as <-.
  apply save_put in E2 as (m2 & -> & _). apply save_put in E3 as (m3 & -> & _). apply Forall_app. split; [|repeat constructor].
  destruct go; [|constructor]. apply Forall_forall. intros w I. apply in_map_iff in I as (e & <- & _). exact I.
Qed.
Lemma plan_honest o s ws m : well_named o -> plan o s = Ok (ws, m) -> Forall honest ws.
Proof.
  destruct s as [d mem]. destruct o as [p force rst ask go|n a|i|go|i fs ns]; cbn [Store_model.plan]; intro WN.
  - destruct (construct p force rst ask go d) as [[w r]|] eqn:E; [|discriminate]. cbn. intro H. injection H as <- <-.
    assert (HG : Forall honest (grid_writes G generator pr hash p force d)).
    { unfold grid_writes. destruct (regrid_needed _ _ _ _ _ _); [|constructor]. repeat constructor. exists p. auto. }
    unfold Store_model.construct in E. set (rr := rst || regrid_needed G pr hash p force d) in E.
    destruct (d_grid G _) as [[id g]|] eqn:DG in E; [|discriminate]. destruct rr.
    + destruct (reset_writes _ _ _ _ _ _) as [w3|] eqn:W3; [|discriminate]. cbn in E. injection E as <- <-.
      apply Forall_app. split; [apply Forall_app; split; [exact HG|repeat constructor]|exact (reset_honest _ _ _ _ W3)].
    + injection E as <- <-. exact HG.
  - destruct mem as [[g ds]|]; [|discriminate]. destruct (Nat.eqb _ _); [|discriminate]. intro H. injection H as <- <-. constructor.
  - destruct mem as [[g ds]|]; [|discriminate]. destruct (save_data _ _ _ _) as [w|] eqn:E; [|discriminate]. cbn. intro H. injection H as <- <-.
    apply save_put in E as (m' & -> & _). repeat constructor.
  - destruct mem as [[g ds]|]; [|discriminate]. destruct (reset_writes _ _ _ _ _ _) as [w|] eqn:E; [|discriminate]. cbn. intro H. injection H as <- <-.
    exact (reset_honest _ _ _ _ E).
  - destruct mem as [[g ds]|]; [|discriminate]. destruct (save_data _ _ _ _) as [w|] eqn:E; [|discriminate]. cbn. intro H. injection H as <- <-.
    apply save_put in E as (m' & -> & _). repeat constructor.
Qed.
Lemma Forall_firstn {A} (P : A -> Prop) k l : Forall P l -> Forall P (firstn k l).
Proof. revert k. induction l; intros [|k] H; cbn; try constructor; inversion H; subst; auto. Qed.
Lemma history_genuine s : history s -> genuine (fst s).
Proof.
  induction 1 as [|s o s' H IH WN E|s o k s' H IH WN E].
  - intros id g E. discriminate.
  - unfold Store_model.step in E. destruct (plan o s) as [[w m]|] eqn:P; [|discriminate]. cbn in E. injection E as <-. cbn [fst].
    apply honest_all; [exact IH|exact (plan_honest _ _ _ _ WN P)].
  - unfold Store_model.crash in E. destruct (plan o s) as [[w m]|] eqn:P; [|discriminate]. cbn in E. injection E as <-. cbn [fst].
    apply honest_all; [exact IH|]. apply Forall_firstn. exact (plan_honest _ _ _ _ WN P).
Qed.

(** What a new surface does to the grid. *)
Lemma grid_saves ws d : Forall (fun w => match w with Delete _ _ => True | Put _ _ _ => True | _ => False end) ws -> d_grid G (write_all ws d) = d_grid G d.
Proof. revert d. induction ws as [|w ws IH]; intros d H; [reflexivity|]. inversion H; subst. change (d_grid G (write_all ws (write1 G d w)) = d_grid G d). rewrite IH by assumption. apply grid_write. assumption. Qed.
Lemma reset_data g go d ws : reset_writes G n_face n_node g go d = Ok ws -> Forall (fun w => match w with Delete _ _ => True | Put _ _ _ => True | _ => False end) ws.
Proof.
  unfold reset_writes. destruct (save_data G 0 _ _) as [w2|] eqn:E2; [|discriminate]. cbn [rbind].
  destruct (save_data G 0 [("face_elevation", _)] _) as [w3|] eqn:E3; [|discriminate]. cbn [rbind]. intro H. injection H as <-.
  apply save_put in E2 as (m2 & -> & _). apply save_put in E3 as (m3 & -> & _). apply Forall_app. split; [|repeat constructor].
  destruct go; [|constructor]. apply Forall_forall. intros w I. apply in_map_iff in I as (e & <- & _). exact I.
Qed.
Lemma grid_after p force d : d_grid G (write_all (grid_writes G generator pr hash p force d) d) =
  if regrid_needed G pr hash p force d then Some (id_of pr hash p, generator p) else d_grid G d.
Proof. unfold grid_writes. destruct (regrid_needed _ _ _ _ _ _); reflexivity. Qed.
Lemma new_grid p force rst ask go d m s' : step (New p force rst ask go) (d, m) = Ok s' ->
  exists g ds, snd s' = Some (g, ds) /\
    d_grid G (fst s') = (if regrid_needed G pr hash p force d then Some (id_of pr hash p, generator p) else d_grid G d) /\
    d_grid G (fst s') = Some (id_of pr hash p, g).
Proof.
  unfold Store_model.step. cbn [Store_model.plan]. destruct (construct p force rst ask go d) as [[w [g ds]]|] eqn:E; [|discriminate].
  cbn [rbind fst snd]. intro H. injection H as <-. exists g, ds. split; [reflexivity|]. cbn [fst]. unfold Store_model.construct in E.
  set (rr := rst || regrid_needed G pr hash p force d) in E.
  assert (D2 : d_grid G (write_all (if rr then (grid_writes G generator pr hash p force d ++ [Delete G 0])%list else grid_writes G generator pr hash p force d) d) =
    if regrid_needed G pr hash p force d then Some (id_of pr hash p, generator p) else d_grid G d).
  { destruct rr; [rewrite write_all_app; cbn|]; apply grid_after. }
  fold write_all in E. destruct (d_grid G (write_all _ d)) as [[id g']|] eqn:DG in E; [|discriminate].
  assert (ID : id = id_of pr hash p).
  { rewrite D2 in DG. unfold regrid_needed in DG. destruct force; cbn in DG; [congruence|]. destruct (d_grid G d) as [[i x]|]; cbn in DG; [|congruence].
    destruct (i =? id_of pr hash p) eqn:X; cbn in DG; [apply String.eqb_eq in X; congruence|congruence]. }
  destruct rr.
  - destruct (reset_writes _ _ _ _ _ _) as [w3|] eqn:W3; [|discriminate]. cbn in E. injection E as <- <- <-.
    rewrite write_all_app, (grid_saves _ _ (reset_data _ _ _ _ W3)). split; [exact D2|rewrite DG, ID; reflexivity].
  - injection E as <- <- <-. split; [exact D2|rewrite DG, ID; reflexivity].
Qed.

Lemma new_exact p force rst ask go s s' : faithful pr -> injective hash -> history s -> colon_free (s_target p) ->
  step (New p force rst ask go) s = Ok s' ->
  d_grid G (fst s') = Some (id_of pr hash p, generator p) /\ exists ds, snd s' = Some (generator p, ds).
Proof.
  intros F I H C E. destruct s as [d m]. destruct (new_grid _ _ _ _ _ _ _ _ E) as (g & ds & M & _ & D).
  assert (H' : history s') by (eapply Done; [exact H| |exact E]; exact C).
  destruct (history_genuine _ H' _ _ D) as (q & Cq & EI & ->). apply (id_inj pr hash) in EI; auto. subst q. rewrite M. eauto.
Qed.

(** Data that fit. *)
Definition all_fit (g : G) (d : disk) : Prop := forall i f, file i d = Some f -> fits g f.
Lemma put_fits g d i m : all_fit g d -> fits g m -> all_fit g (write1 G d (Put G i m)).
Proof. intros A B j f. rewrite file_put. destruct (Nat.eqb i j); [intro E; injection E as <-; exact B|apply A]. Qed.
Lemma save_fits g d i new w : all_fit g d -> fits g new -> save_data G i new d = Ok w -> all_fit g (write1 G d w).
Proof.
  intros A B E. apply save_put in E as (m & -> & _ & I). apply put_fits; [exact A|]. intros n k l J.
  destruct (I _ J) as [J'|(old & F & J')]; [exact (B _ _ _ J')|exact (A _ _ F _ _ _ J')].
Qed.
Lemma delete_fits g d i : all_fit g d -> all_fit g (write1 G d (Delete G i)).
Proof. intros A j f. rewrite file_delete. destruct (Nat.eqb i j); [discriminate|apply A]. Qed.
Lemma cleared g go d : go = true \/ all_fit g d -> all_fit g (write_all (if go then map (fun e : nat * dataset => Delete G (fst e)) (d_data G d) else []) d).
Proof.
  intros [->|A]; [intros i f E; apply file_in in E; rewrite all_deleted in E; destruct E|].
  destruct go; [intros i f E; apply file_in in E; rewrite all_deleted in E; destruct E|exact A].
Qed.
Lemma write_snoc ws w d : write_all (ws ++ [w]) d = write1 G (write_all ws d) w.
Proof. rewrite write_all_app. reflexivity. Qed.
Lemma reset_fits g go d : go = true \/ all_fit g d -> exists ws, reset_writes G n_face n_node g go d = Ok ws /\ all_fit g (write_all ws d) /\
  (forall f, file 0 (write_all ws d) = Some f -> get "face_elevation" f = Some (initial G n_face n_node g Face) /\ get "node_elevation" f = Some (initial G n_face n_node g Node)) /\
  (exists f, file 0 (write_all ws d) = Some f) /\
  (go = true -> forall i, i <> 0%nat -> file i (write_all ws d) = None) /\
  (go = false -> forall i, i <> 0%nat -> file i (write_all ws d) = file i d).
Proof.
  intro A. pose proof (cleared g go d A) as C. unfold reset_writes. set (w1 := if go then _ else _) in *. cbv zeta.
  destruct (save_ok 0 [("node_elevation", initial G n_face n_node g Node)] (write_all w1 d) g) as [w2 E2]; [apply fits_one|apply C|].
  rewrite E2. cbn [rbind]. pose proof (save_fits g _ _ _ _ C (fits_one g _ _) E2) as C2. rewrite write_snoc.
  destruct (save_ok 0 [("face_elevation", initial G n_face n_node g Face)] (write1 G (write_all w1 d) w2) g) as [w3 E3]; [apply fits_one|apply C2|].
  rewrite E3. cbn [rbind]. eexists. split; [reflexivity|]. rewrite write_all_app. change (write_all [w2; w3] (write_all w1 d)) with (write1 G (write1 G (write_all w1 d) w2) w3).
  split; [exact (save_fits g _ _ _ _ C2 (fits_one g _ _) E3)|].
  apply save_put in E2 as (m2 & -> & G2 & _). apply save_put in E3 as (m3 & -> & G3 & _).
  assert (F0 : file 0 (write1 G (write_all w1 d) (Put G 0 m2)) = Some m2) by (rewrite file_put; reflexivity). rewrite F0 in G3.
  split; [|split; [|split]].
  - intros f Ef. rewrite file_put in Ef. injection Ef as <-. split; [rewrite G3; reflexivity|rewrite G3; cbn; rewrite G2; reflexivity].
  - exists m3. rewrite file_put. reflexivity.
  - intros -> i N. rewrite !file_put. destruct (Nat.eqb 0 i) eqn:X; [apply Nat.eqb_eq in X; congruence|].
    destruct (file i (write_all w1 d)) as [f|] eqn:Ef; [|reflexivity]. apply file_in in Ef. unfold w1 in Ef. rewrite all_deleted in Ef. destruct Ef.
  - intros -> i N. rewrite !file_put. destruct (Nat.eqb 0 i) eqn:X; [apply Nat.eqb_eq in X; congruence|]. reflexivity.
Qed.

Definition sound (s : state) : Prop :=
  (d_grid G (fst s) = None -> d_data G (fst s) = []) /\
  (forall id g, d_grid G (fst s) = Some (id, g) -> all_fit g (fst s)) /\
  (forall g ds, snd s = Some (g, ds) -> fits g ds /\ exists id, d_grid G (fst s) = Some (id, g)).
Lemma put_var_fits g n a ds : List.length (snd a) = size G n_face n_node g (fst a) -> fits g ds -> fits g (put_var n a ds).
Proof.
  intros L F n' w l [I|I].
  - destruct a as [w' l']. injection I as <- <- <-. exact L.
  - apply filter_In in I as [I _]. exact (F _ _ _ I).
Qed.
Lemma last_fits g d f : all_fit g d -> last_file G d = Some f -> fits g f.
Proof. unfold last_file. destruct (d_data G d); [discriminate|]. intros A E. exact (A _ _ E). Qed.
Lemma new_sound p force rst ask go s : sound s -> exists s', step (New p force rst ask go) s = Ok s' /\ sound s' /\
  (forall g ds, snd s' = Some (g, ds) -> rst || regrid_needed G pr hash p force (fst s) = true -> ds = initial_data G n_face n_node g).
Proof.
  destruct s as [d m]. intros (S0 & S1 & S2). cbn [fst snd] in *. unfold Store_model.step. cbn [Store_model.plan]. unfold Store_model.construct.
  fold write_all. set (rg := regrid_needed G pr hash p force d). set (w1 := grid_writes G generator pr hash p force d).
  pose proof (grid_after p force d) as GA. fold rg w1 in GA.
  destruct (rst || rg) eqn:RR.
  - rewrite !write_snoc. set (d2 := write1 G (write_all w1 d) (Delete G 0)).
    assert (X : exists id g, (if rg then Some (id_of pr hash p, generator p) else d_grid G d) = Some (id, g)).
    { destruct rg eqn:Rg; [eauto|]. unfold rg, regrid_needed in Rg. destruct (d_grid G d) as [[id g]|]; [eauto|]. destruct force; discriminate. }
    destruct X as (id & g & X).
    assert (D2 : d_grid G d2 = Some (id, g)) by (unfold d2; cbn; rewrite GA; exact X). rewrite D2.
    set (b := negb (ask && negb rg && _) || go).
    destruct (reset_fits g b d2) as (ws & E & AF & _ & (f0 & F0) & _).
    { destruct rg eqn:Rg; [left; unfold b; rewrite andb_false_r; reflexivity|]. right. unfold d2. apply delete_fits.
      unfold w1, grid_writes. unfold rg in Rg. rewrite Rg. apply (S1 id). exact X. }
    rewrite E. cbn [rbind fst snd]. eexists. split; [reflexivity|]. cbn [fst snd].
    rewrite write_all_app, write_snoc. fold d2.
    assert (GF : d_grid G (write_all ws d2) = Some (id, g)) by (rewrite (grid_saves _ _ (reset_data _ _ _ _ E)); exact D2).
    split; [|intros g' ds' H _; injection H as <- <-; reflexivity].
    split; [|split]; cbn [fst snd].
    + rewrite GF. discriminate.
    + intros id' g' H. rewrite GF in H. injection H as <- <-. exact AF.
    + intros g' ds' H. injection H as <- <-. split; [apply fits_initial|rewrite GF; eauto].
  - apply orb_false_iff in RR as [-> Rg]. assert (W : w1 = []) by (unfold w1, grid_writes; fold rg; rewrite Rg; reflexivity). rewrite W. cbn [Store_model.write_all fold_left].
    change (write_all [] d) with d.
    destruct (d_grid G d) as [[id g]|] eqn:DG; [|unfold rg, regrid_needed in Rg; rewrite DG in Rg; destruct force; discriminate].
    cbn [rbind fst snd]. eexists. split; [reflexivity|]. cbn [fst snd]. change (write_all [] d) with d.
    split; [|intros g' ds' _ H; discriminate].
    split; [|split]; cbn [fst snd].
    + rewrite DG. discriminate.
    + intros id' g' H. rewrite DG in H. injection H as <- <-. apply (S1 id g eq_refl).
    + intros g' ds' H. injection H as <- <-. split; [|rewrite DG; eauto]. destruct (last_file G d) as [f|] eqn:L; [exact (last_fits g d f (S1 id g eq_refl) L)|intros n w l []].
Qed.
Lemma quiet_sound s : quiet s -> sound s.
Proof.
  induction 1 as [|s o s' H IH E NR].
  - split; [reflexivity|]. split; [discriminate|discriminate].
  - destruct o as [p force rst ask go|n a|i|go|i fs ns]; [| | | |discriminate].
    + destruct (new_sound p force rst ask go s IH) as (s2 & E2 & S2 & _). rewrite E in E2. injection E2 as <-. exact S2.
    + destruct s as [d [[g ds]|]]; [|discriminate]. unfold Store_model.step in E. cbn [Store_model.plan] in E.
      destruct (Nat.eqb _ _) eqn:L; [|discriminate]. cbn in E. injection E as <-. destruct IH as (S0 & S1 & S2). split; [exact S0|]. split; [exact S1|].
      intros g' ds' X. injection X as <- <-. destruct (S2 g ds eq_refl) as [F D]. split; [|exact D]. apply Nat.eqb_eq in L. apply put_var_fits; assumption.
    + destruct s as [d [[g ds]|]]; [|discriminate]. unfold Store_model.step in E. cbn [Store_model.plan] in E.
      destruct (save_data G i ds d) as [w|] eqn:W; [|discriminate]. cbn [rbind fst snd] in E. injection E as <-. destruct IH as (S0 & S1 & S2). cbn [fst snd] in *.
      destruct (S2 g ds eq_refl) as [F [id D]]. pose proof (save_fits g _ _ _ _ (S1 _ _ D) F W) as A.
      apply save_put in W as (m & -> & _). split; [|split]; cbn [fst snd].
      * cbn. rewrite D. discriminate.
      * intros id' g' X. cbn in X. rewrite D in X. injection X as <- <-. exact A.
      * intros g' ds' X. injection X as <- <-. split; [exact F|]. cbn. eauto.
    + destruct s as [d [[g ds]|]]; [|discriminate]. unfold Store_model.step in E. cbn [Store_model.plan] in E. destruct IH as (S0 & S1 & S2). cbn [fst snd] in *.
      destruct (S2 g ds eq_refl) as [F [id D]]. destruct (reset_fits g go d (or_intror (S1 _ _ D))) as (ws & R & A & _).
      rewrite R in E. cbn [rbind fst snd] in E. injection E as <-. pose proof (grid_saves _ d (reset_data _ _ _ _ R)) as GS. rewrite D in GS.
      split; [|split]; cbn [fst snd].
      * rewrite GS. discriminate.
      * intros id' g' X. rewrite GS in X. injection X as <- <-. exact A.
      * intros g' ds' X. injection X as <- <-. split; [apply fits_initial|rewrite GS; eauto].
Qed.
Lemma quiet_consistent s : quiet s -> consistent (fst s) /\ (forall g ds, snd s = Some (g, ds) -> fits g ds).
Proof.
  intro Q. destruct (quiet_sound s Q) as (A & B & C). split; [split; [exact A|intros id g i f D F; exact (B id g D i f F)]|].
  intros g ds E. apply (C g ds E).
Qed.
Lemma quiet_new s p force rst ask go : quiet s -> exists s', step (New p force rst ask go) s = Ok s'.
Proof. intro Q. destruct (new_sound p force rst ask go s (quiet_sound s Q)) as (s' & E & _). eauto. Qed.
Lemma quiet_save s i g ds : quiet s -> snd s = Some (g, ds) ->
  exists s' f, step (Save i) s = Ok s' /\ snd s' = Some (g, ds) /\ file i (fst s') = Some f /\
    (forall n a, get n ds = Some a -> get n f = Some a) /\
    (forall n, get n ds = None -> get n f = match file i (fst s) with Some old => get n old | None => None end) /\
    (forall j, j <> i -> file j (fst s') = file j (fst s)) /\ d_grid G (fst s') = d_grid G (fst s).
Proof.
  intros Q E. destruct (quiet_sound s Q) as (A & B & C). destruct (C g ds E) as [F [id D]]. destruct s as [d m]. cbn [fst snd] in *. subst m.
  destruct (save_ok i ds d g F (B _ _ D i)) as [w W]. unfold Store_model.step. cbn [Store_model.plan]. rewrite W. cbn [rbind fst snd].
  apply save_put in W as (f & -> & Gf & _). eexists. exists f. split; [reflexivity|]. cbn [fst snd]. change (write_all [Put G i f] d) with (write1 G d (Put G i f)).
  split; [reflexivity|]. split; [rewrite file_put, Nat.eqb_refl; reflexivity|].
  split; [intros n a X; rewrite Gf, X; reflexivity|]. split; [intros n X; rewrite Gf, X; reflexivity|]. split; [|reflexivity].
  intros j N. rewrite file_put. destruct (Nat.eqb i j) eqn:X; [apply Nat.eqb_eq in X; congruence|reflexivity].
Qed.
Lemma quiet_reset s go g ds : quiet s -> snd s = Some (g, ds) ->
  exists s' f, step (Reset go) s = Ok s' /\ snd s' = Some (g, initial_data G n_face n_node g) /\ file 0 (fst s') = Some f /\
    get "face_elevation" f = Some (Face, repeat 0%R (n_face g)) /\ get "node_elevation" f = Some (Node, repeat 0%R (n_node g)) /\
    (forall i, i <> 0%nat -> file i (fst s') = if go then None else file i (fst s)).
Proof.
  intros Q E. destruct (quiet_sound s Q) as (A & B & C). destruct (C g ds E) as [F [id D]]. destruct s as [d m]. cbn [fst snd] in *. subst m.
  destruct (reset_fits g go d (or_intror (B _ _ D))) as (ws & R & _ & F0 & [f Ef] & G1 & G2).
  unfold Store_model.step. cbn [Store_model.plan]. rewrite R. cbn [rbind fst snd]. eexists. exists f. split; [reflexivity|]. cbn [fst snd].
  split; [reflexivity|]. split; [exact Ef|]. destruct (F0 f Ef) as [X Y]. split; [exact X|]. split; [exact Y|]. destruct go; auto.
Qed.
(** A surface that is made again with the same parameters and not reset. *)
Lemma reuse p ask go d m s' g : d_grid G d = Some (id_of pr hash p, g) -> step (New p false false ask go) (d, m) = Ok s' ->
  fst s' = d /\ snd s' = Some (g, match last_file G d with Some f => f | None => [] end).
Proof.
  intros D E. unfold Store_model.step in E. cbn [Store_model.plan] in E. unfold Store_model.construct in E.
  assert (RG : regrid_needed G pr hash p false d = false) by (unfold regrid_needed; rewrite D, String.eqb_refl; reflexivity).
  rewrite RG in E. cbn [orb] in E. unfold grid_writes in E. rewrite RG in E. cbn [Store_model.write_all fold_left] in E. rewrite D in E. cbn in E. injection E as <-.
  split; [reflexivity|]. cbn. destruct (last_file G d); reflexivity.
Qed.
Lemma max_ge l : forall m, (m <= fold_left (fun m (e : nat * dataset) => Nat.max m (fst e)) l m)%nat /\
  (forall e, In e l -> (fst e <= fold_left (fun m (e : nat * dataset) => Nat.max m (fst e)) l m)%nat) /\
  (fold_left (fun m (e : nat * dataset) => Nat.max m (fst e)) l m = m \/ In (fold_left (fun m (e : nat * dataset) => Nat.max m (fst e)) l m) (map fst l)).
Proof.
  induction l as [|a l IH]; intro m; [split; [apply le_n|split; [intros e []|left; reflexivity]]|]. cbn [fold_left map]. destruct (IH (Nat.max m (fst a))) as (A & B & C).
  split; [lia|]. split; [intros e [<-|I]; [lia|apply B; exact I]|].
  destruct C as [C|C]; [|right; right; exact C]. rewrite C. destruct (Nat.max_spec m (fst a)) as [[_ E]|[_ E]]; rewrite E; [right; left; reflexivity|left; reflexivity].
Qed.
Lemma last_newest d : newest G d (match last_file G d with Some f => f | None => [] end).
Proof.
  unfold newest, last_file. destruct (d_data G d) as [|e l] eqn:D; [right; auto|left]. set (k := fold_left _ l _). destruct (max_ge l (fst e)) as (A & B & C). fold k in A, B, C.
  assert (I : exists f, In (k, f) (d_data G d)).
  { rewrite D. destruct C as [C|C]; [exists (snd e); left; rewrite C; destruct e; reflexivity|]. apply in_map_iff in C as ([i f] & E & I). cbn in E. subst i. exists f. right. exact I. }
  destruct I as [f I]. exists k. split.
  - unfold Store_model.file. destruct (find (fun e0 => Nat.eqb (fst e0) k) (d_data G d)) as [x|] eqn:F; [reflexivity|]. exfalso. apply (find_none _ _ F) in I. cbn in I. rewrite Nat.eqb_refl in I. discriminate.
  - intros j f' H. apply file_in in H. rewrite D in H. destruct H as [H|H]; [rewrite H in A; exact A|exact (B _ H)].
Qed.
Lemma reuse_newest p ask go d m s' g : d_grid G d = Some (id_of pr hash p, g) -> step (New p false false ask go) (d, m) = Ok s' ->
  fst s' = d /\ exists f, snd s' = Some (g, f) /\ newest G d f.
Proof. intros D E. destruct (reuse p ask go d m s' g D E) as [A B]. split; [exact A|]. eexists. split; [exact B|apply last_newest]. Qed.
Lemma same_needs p d g : d_grid G d = Some (id_of pr hash p, g) -> regrid_needed G pr hash p false d = false.
Proof. intro D. unfold regrid_needed. rewrite D, String.eqb_refl. reflexivity. Qed.
End Store.
