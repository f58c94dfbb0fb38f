From Coq Require Import Reals ZArith List String Ascii Bool Lia Arith Lra.
From Verif Require Import Common Store_model Store_spec Store_proofs.
Import ListNotations.
Open Scope string_scope.

Section Cases.
Variable G : Type.
Variables n_face n_node : G -> nat.
Variable generator : params -> G.
Variable pr : printer.
Variable hash : string -> string.
Notation state := (state G). Notation disk := (disk G). Notation fits := (fits G n_face n_node).
Notation consistent := (consistent G n_face n_node). Notation file := (file G).
Notation step := (step G n_face n_node generator pr hash). Notation crash := (crash G n_face n_node generator pr hash).
Notation history := (history G n_face n_node generator pr hash). Notation quiet := (quiet G n_face n_node generator pr hash).
Notation initial_data := (initial_data G n_face n_node).
Notation empty := (mkDisk G None []).

(** The state after a first surface in an empty directory. *)
Definition first (p : params) : state :=
  (mkDisk G (Some (id_of pr hash p, generator p)) [(0%nat, initial_data (generator p))], Some (generator p, initial_data (generator p))).
Lemma conform_face_node g : conform [("face_elevation", initial G n_face n_node g Face)] [("node_elevation", initial G n_face n_node g Node)] = true.
Proof. reflexivity. Qed.
Lemma first_step p rst ask go : step (New p false rst ask go) (empty, None) = Ok (first p).
Proof.
  unfold Store_model.step. cbn [plan]. unfold construct. cbn [regrid_needed orb d_grid]. rewrite orb_true_r. unfold grid_writes. cbn [regrid_needed orb d_grid].
  cbn. rewrite andb_false_r. cbn. reflexivity.
Qed.
Lemma first_quiet p : quiet (first p).
Proof. eapply QDone; [apply QBegin|apply (first_step p false false false)|reflexivity]. Qed.
Lemma first_history p : colon_free (s_target p) -> history (first p).
Proof. intro C. eapply Done; [apply Begin| |apply (first_step p false false false)]. exact C. Qed.

(** Killed between the new grid and the removal of the old data. *)
Definition torn (p q : params) : state :=
  (mkDisk G (Some (id_of pr hash q, generator q)) [(0%nat, initial_data (generator p))], None).
Lemma torn_step p q : id_of pr hash p <> id_of pr hash q -> crash (New q false true false true) 2 (first p) = Ok (torn p q).
Proof.
  intro N. assert (RG : regrid_needed G pr hash q false (fst (first p)) = true).
  { unfold regrid_needed. cbn. apply negb_true_iff, String.eqb_neq. exact N. }
  unfold Store_model.crash. cbn [plan first]. unfold construct. cbn [first fst] in RG. rewrite RG. unfold grid_writes. rewrite RG. cbn. reflexivity.
Qed.
Lemma torn_refuted p q : colon_free (s_target p) -> colon_free (s_target q) -> id_of pr hash p <> id_of pr hash q ->
  n_face (generator p) <> n_face (generator q) ->
  exists s s' ds, history s /\ step (New q false false true true) s = Ok s' /\ snd s' = Some (generator q, ds) /\ ~ fits (generator q) ds.
Proof.
  intros Cp Cq N F. exists (torn p q). exists (fst (torn p q), Some (generator q, initial_data (generator p))). exists (initial_data (generator p)).
  split; [|split; [|split]].
  - eapply (Killed _ _ _ _ _ _ (first p) (New q false true false true) 2); [apply first_history; exact Cp|exact Cq|apply torn_step; exact N].
  - assert (RG : regrid_needed G pr hash q false (fst (torn p q)) = false) by (apply (same_needs G pr hash q _ (generator q)); reflexivity).
    unfold Store_model.step. cbn [plan torn]. unfold construct. cbn [torn fst] in RG. rewrite RG. unfold grid_writes. rewrite RG. reflexivity.
  - reflexivity.
  - intro H. specialize (H "face_elevation" Face (repeat 0%R (n_face (generator p)))). cbn in H. rewrite repeat_length in H. apply F. apply H. left. reflexivity.
Qed.
(** Killed before the first data are written. *)
Lemma bare_refuted p : colon_free (s_target p) ->
  exists s s', history s /\ step (New p false false true true) s = Ok s' /\ snd s' = Some (generator p, []).
Proof.
  intro C. exists (mkDisk G (Some (id_of pr hash p, generator p)) [], None). exists (mkDisk G (Some (id_of pr hash p, generator p)) [], Some (generator p, [])).
  split; [|split; [|reflexivity]].
  - eapply (Killed _ _ _ _ _ _ (empty, None) (New p false true false true) 2); [apply Begin|exact C|].
    unfold Store_model.crash. cbn [plan]. unfold construct. cbn [regrid_needed orb d_grid]. unfold grid_writes. cbn [regrid_needed orb d_grid]. cbn. reflexivity.
  - assert (RG : regrid_needed G pr hash p false (mkDisk G (Some (id_of pr hash p, generator p)) []) = false) by (apply (same_needs G pr hash p _ (generator p)); reflexivity).
    unfold Store_model.step. cbn [plan]. unfold construct. rewrite RG. unfold grid_writes. rewrite RG. reflexivity.
Qed.

(** Saving a region. *)
Lemma region_length faces nodes (w : where_) l : List.length (snd (restrict faces nodes (w, l))) = List.length (match w with Face => faces | Node => nodes end).
Proof. cbn. apply map_length. Qed.
Lemma region_refuted s g ds n l i faces nodes : quiet s -> snd s = Some (g, ds) -> In (n, (Face, l)) ds -> List.length faces <> n_face g ->
  (forall f n' l', file i (fst s) = Some f -> In (n', (Face, l')) f -> step (SaveRegion i faces nodes) s = Err ValueError) /\
  (file i (fst s) = None -> exists s', step (SaveRegion i faces nodes) s = Ok s' /\ ~ consistent (fst s')).
Proof.
  intros Q E I L. destruct (quiet_sound _ _ _ _ _ _ s Q) as (A & B & C). destruct (C g ds E) as [F [id D]]. destruct s as [d m]. cbn [fst snd] in *. subst m.
  assert (J : In (n, restrict faces nodes (Face, l)) (restrict_all faces nodes ds)) by (apply in_map_iff; exists (n, (Face, l)); auto).
  split.
  - intros f n' l' Ef I'. unfold Store_model.step. cbn [plan]. unfold save_data. rewrite Ef. unfold merge.
    destruct (conform (restrict_all faces nodes ds) f) eqn:K; [|reflexivity]. exfalso. rewrite conform_spec in K.
    specialize (K _ _ _ _ _ J I'). rewrite map_length in K. rewrite (B id g D i f Ef _ _ _ I') in K. cbn in K. congruence.
  - intro N. unfold Store_model.step. cbn [plan]. unfold save_data. rewrite N. cbn [rbind fst snd]. eexists. split; [reflexivity|]. cbn [fst snd].
    intros [_ H]. specialize (H id g i (restrict_all faces nodes ds)). change (write_all G [Put G i (restrict_all faces nodes ds)] d) with (write1 G d (Put G i (restrict_all faces nodes ds))) in H.
    specialize (H D). rewrite file_put, Nat.eqb_refl in H. specialize (H eq_refl n Face _ J). rewrite map_length in H. cbn in H. congruence.
Qed.

(** A declined reset. *)
Lemma declined s g ds l : quiet s -> snd s = Some (g, ds) -> (exists f, file 0 (fst s) = Some f /\ get "face_elevation" f = Some (Face, l)) ->
  exists s' f', step (Reset false) s = Ok s' /\ snd s' = Some (g, initial_data g) /\ file 0 (fst s') = Some f' /\
    get "face_elevation" f' = Some (Face, repeat 0%R (n_face g)).
Proof.
  intros Q E _. destruct (quiet_reset G n_face n_node generator pr hash s false g ds Q E) as (s' & f & A & B & C & D & _). exists s', f. auto.
Qed.
Lemma declined_new s p g go : quiet s -> d_grid G (fst s) = Some (id_of pr hash p, g) ->
  exists s' ds, step (New p false true true go) s = Ok s' /\ snd s' = Some (g, initial_data g) /\ file 0 (fst s') = Some ds /\
    get "face_elevation" ds = Some (Face, repeat 0%R (n_face g)) /\
    (go = false -> forall i, i <> 0%nat -> file i (fst s') = file i (fst s)).
Proof.
  intros Q D. destruct s as [d m]. cbn [fst] in D. pose proof (quiet_sound _ _ _ _ _ _ _ Q) as (_ & B & _). cbn [fst] in B.
  assert (RG := same_needs G pr hash p d g D). unfold Store_model.step. cbn [plan]. unfold construct. rewrite RG. unfold grid_writes. rewrite RG. cbn [orb app].
  set (d2 := write_all G [Delete G 0] d). assert (D2 : d_grid G d2 = Some (id_of pr hash p, g)) by exact D. rewrite D2.
  set (b := _ || go). assert (A2 : all_fit G n_face n_node g d2) by (apply (delete_fits G n_face n_node g d 0 (B _ _ D))).
  destruct (reset_fits G n_face n_node g b d2 (or_intror A2)) as (ws & E & _ & F0 & [f Ef] & G1 & G2). rewrite E. cbn [rbind fst snd].
  eexists. exists f. split; [reflexivity|]. cbn [fst snd]. change (write_all G (Delete G 0 :: ws) d) with (write_all G ws d2). split; [reflexivity|]. split; [exact Ef|]. split; [apply (F0 f Ef)|].
  intros -> i N. destruct b eqn:Eb.
  - rewrite (G1 eq_refl i N). assert (X : d_data G d2 = []) by (unfold b in Eb; destruct (d_data G d2); [reflexivity|discriminate]).
    destruct (file i d) as [f'|] eqn:Ef'; [|reflexivity]. assert (Y : file i d2 = Some f').
    { unfold d2. change (write_all G [Delete G 0] d) with (write1 G d (Delete G 0)). rewrite file_delete. destruct (Nat.eqb 0 i) eqn:Z; [apply Nat.eqb_eq in Z; congruence|exact Ef']. }
    apply file_in in Y. rewrite X in Y. destruct Y.
  - rewrite (G2 eq_refl i N). unfold d2. change (write_all G [Delete G 0] d) with (write1 G d (Delete G 0)). rewrite file_delete. destruct (Nat.eqb 0 i) eqn:Z; [apply Nat.eqb_eq in Z; congruence|reflexivity].
Qed.
End Cases.

(** A concrete printer and concrete surfaces. *)
Definition moon4 : params := mkParams "Moon" 1737400%Z (Ico 4).
Definition moon5 : params := mkParams "Moon" 1737400%Z (Ico 5).
Lemma moon_free : colon_free "Moon".
Proof. intros k E. repeat (destruct k; cbn in E; [discriminate|]). discriminate. Qed.
(** A printer: unary numbers, and every character of a file name preceded by a comma. *)
Fixpoint unary (n : nat) : string := match n with O => "" | S k => String "1" (unary k) end.
Definition print_num (z : Z) : string := match z with Z0 => "0" | Zpos p => String "+" (unary (Pos.to_nat p)) | Zneg p => String "-" (unary (Pos.to_nat p)) end.
Fixpoint print_chars (s : string) (k : string) : string := match s with EmptyString => k | String c t => String "," (String c (print_chars t k)) end.
Fixpoint print_list (l : list string) : string := match l with [] => "" | s :: t => print_chars s (String ";" (print_list t)) end.
Definition sample : printer :=
  mkPrinter print_num print_num (fun p => print_num (fst p) ++ "," ++ print_num (snd p)) (fun o => match o with None => "None" | Some z => print_num z end) print_list.

Lemma free_cons c s : c <> ":"%char -> colon_free s -> colon_free (String c s).
Proof. intros H F [|k]; cbn; [congruence|apply F]. Qed.
Lemma free_nil : colon_free "".
Proof. intros [|k]; cbn; discriminate. Qed.
Lemma unary_free n : colon_free (unary n).
Proof. induction n; cbn; [apply free_nil|apply free_cons; [discriminate|assumption]]. Qed.
Lemma print_free z : colon_free (print_num z).
Proof. destruct z; cbn; [apply free_cons; [discriminate|apply free_nil]|apply free_cons; [discriminate|apply unary_free]..]. Qed.
Lemma unary_inj m : forall n, unary m = unary n -> m = n.
Proof. induction m; intros [|n] E; cbn in E; try discriminate; [reflexivity|]. injection E as E. f_equal. auto. Qed.
Lemma print_inj : injective print_num.
Proof.
  intros x y E. destruct x, y; cbn in E; try discriminate; try reflexivity; injection E as E; apply unary_inj, Pos2Nat.inj in E; congruence.
Qed.
Lemma unary_comma m : forall n x y, (unary m ++ String "," x = unary n ++ String "," y)%string -> m = n /\ x = y.
Proof. induction m; intros [|n] x y E; cbn in E; try discriminate; injection E as E; [auto|]. destruct (IHm _ _ _ E). auto. Qed.
Lemma place_inj : injective (fun p => (print_num (fst p) ++ "," ++ print_num (snd p))%string).
Proof.
  intros [a b] [c d] E. cbn [fst snd] in E.
  assert (X : a = c /\ print_num b = print_num d).
  { destruct a, c; cbn in E; try discriminate; injection E as E; try (split; [reflexivity|exact E]);
    apply unary_comma in E as [E1 E2]; apply Pos2Nat.inj in E1; split; congruence. }
  destruct X as [-> X]. apply print_inj in X. congruence.
Qed.
Lemma app_free a b : colon_free a -> colon_free b -> colon_free (a ++ b).
Proof.
  revert b. induction a as [|c a IH]; intros b A B; [exact B|]. cbn. apply free_cons; [intros ->; apply (A 0%nat); reflexivity|].
  apply IH; [|exact B]. intros k. exact (A (S k)).
Qed.
Lemma chars_inj a : forall b x y, print_chars a (String ";" x) = print_chars b (String ";" y) -> a = b /\ x = y.
Proof. induction a; intros [|c b] x y E; cbn in E; try discriminate; injection E; intros; subst; [auto|]. destruct (IHa _ _ _ H). subst. auto. Qed.
Lemma list_inj : injective print_list.
Proof.
  intro a. induction a as [|s a IH]; intros [|t b] E; cbn in E; [reflexivity|destruct t; discriminate|destruct s; discriminate|].
  apply chars_inj in E as [-> E]. f_equal. auto.
Qed.
Lemma sample_faithful : faithful sample.
Proof.
  unfold faithful, sample. cbn.
  assert (S1 : injective (fun o => match o with None => "None" | Some z => print_num z end)).
  { intros [x|] [y|] E; [apply print_inj in E; congruence| | |reflexivity]; [destruct x|destruct y]; cbn in E; discriminate. }
  repeat split; auto using print_inj, place_inj, list_inj, print_free.
  - intro x. apply app_free; [apply print_free|]. apply free_cons; [discriminate|apply print_free].
  - intros [z|]; [apply print_free|]. repeat (apply free_cons; [discriminate|]). apply free_nil.
Qed.
(** A toy generator: an icosphere of level n has n faces and two nodes. *)
Definition toy_gen (p : params) : nat := match s_mesh p with Ico k => Z.to_nat k | _ => 0%nat end.
Definition toy_first : state nat := first nat (fun g => g) (fun _ => 2%nat) toy_gen sample (fun s => s) moon4.
Lemma hash_id : injective (fun s : string => s).
Proof. intros x y E. exact E. Qed.
Lemma moons_differ : id_of sample (fun s => s) moon4 <> id_of sample (fun s => s) moon5.
Proof. intro E. apply id_inj in E; [discriminate|apply sample_faithful|apply hash_id|apply moon_free|apply moon_free]. Qed.
