(** Proofs about rim scores (C70). *)
From Coq Require Import Reals NArith Lra Permutation Sorted.
From Verif Require Import Common RSum Sorting Crater_model Measure_model Measure_spec Measure_proofs.
Open Scope R_scope.

Lemma in_somes x l : In x (somes l) <-> In (Some x) l.
Proof.
  unfold somes. rewrite in_flat_map. split.
  - intros ([y |] & H & E); simpl in E; [destruct E as [-> | []]; exact H | easy].
  - intros H. exists (Some x). simpl. auto.
Qed.
Lemma nanmax_fold l m : fold_left (fun acc x => Some (match acc with Some m => Rmax m x | None => x end)) l (Some m) <> None /\
  forall M, fold_left (fun acc x => Some (match acc with Some m => Rmax m x | None => x end)) l (Some m) = Some M ->
    (M = m \/ In M l) /\ m <= M /\ forall x, In x l -> x <= M.
Proof.
  revert m. induction l as [| y l IH]; intros m; simpl.
  - split; [discriminate |]. intros M [= <-]. repeat split; [now left | lra | easy].
  - destruct (IH (Rmax m y)) as [N H]. split; [exact N |]. intros M E. destruct (H M E) as (A & B & C).
    pose proof (Rmax_l m y). pose proof (Rmax_r m y). repeat split; [| lra |].
    + destruct A as [A | A]; [| now right; right]. revert A. unfold Rmax. destruct (Rle_dec m y); intros ->; auto.
    + intros x [<- | Hx]; [lra | now apply C].
Qed.
Lemma nanmin_fold l m : fold_left (fun acc x => Some (match acc with Some m => Rmin m x | None => x end)) l (Some m) <> None /\
  forall M, fold_left (fun acc x => Some (match acc with Some m => Rmin m x | None => x end)) l (Some m) = Some M ->
    (M = m \/ In M l) /\ M <= m /\ forall x, In x l -> M <= x.
Proof.
  revert m. induction l as [| y l IH]; intros m; simpl.
  - split; [discriminate |]. intros M [= <-]. repeat split; [now left | lra | easy].
  - destruct (IH (Rmin m y)) as [N H]. split; [exact N |]. intros M E. destruct (H M E) as (A & B & C).
    pose proof (Rmin_l m y). pose proof (Rmin_r m y). repeat split; [| lra |].
    + destruct A as [A | A]; [| now right; right]. revert A. unfold Rmin. destruct (Rle_dec m y); intros ->; auto.
    + intros x [<- | Hx]; [lra | now apply C].
Qed.
Lemma nanmax_some l M : nanmax l = Some M -> In (Some M) l /\ forall x, In (Some x) l -> x <= M.
Proof.
  unfold nanmax. destruct (somes l) as [| y r] eqn:E; [discriminate |]. simpl. intros H.
  apply (proj2 (nanmax_fold r y)) in H as (A & B & C). split.
  - apply in_somes. rewrite E. destruct A as [-> | A]; [now left | now right].
  - intros x Hx. apply in_somes in Hx. rewrite E in Hx. destruct Hx as [<- | Hx]; [exact B | now apply C].
Qed.
Lemma nanmax_ex l x : In (Some x) l -> exists M, nanmax l = Some M.
Proof.
  intros H. apply in_somes in H. unfold nanmax. destruct (somes l) as [| y r]; [easy |]. simpl.
  destruct (fold_left _ r (Some y)) as [M |] eqn:E; [now exists M |]. now apply (proj1 (nanmax_fold r y)) in E.
Qed.
Lemma nanmin_some l M : nanmin l = Some M -> In (Some M) l /\ forall x, In (Some x) l -> M <= x.
Proof.
  unfold nanmin. destruct (somes l) as [| y r] eqn:E; [discriminate |]. simpl. intros H.
  apply (proj2 (nanmin_fold r y)) in H as (A & B & C). split.
  - apply in_somes. rewrite E. destruct A as [-> | A]; [now left | now right].
  - intros x Hx. apply in_somes in Hx. rewrite E in Hx. destruct Hx as [<- | Hx]; [exact B | now apply C].
Qed.
Lemma nanmin_ex l x : In (Some x) l -> exists M, nanmin l = Some M.
Proof.
  intros H. apply in_somes in H. unfold nanmin. destruct (somes l) as [| y r]; [easy |]. simpl.
  destruct (fold_left _ r (Some y)) as [M |] eqn:E; [now exists M |]. now apply (proj1 (nanmin_fold r y)) in E.
Qed.
Lemma nanmax_is l M : In (Some M) l -> (forall x, In (Some x) l -> x <= M) -> nanmax l = Some M.
Proof.
  intros H U. destruct (nanmax_ex l M H) as [m E]. destruct (nanmax_some l m E) as [I B]. rewrite E. f_equal. apply Rle_antisym; [now apply U | now apply B].
Qed.
Lemma nanmin_is l M : In (Some M) l -> (forall x, In (Some x) l -> M <= x) -> nanmin l = Some M.
Proof.
  intros H U. destruct (nanmin_ex l M H) as [m E]. destruct (nanmin_some l m E) as [I B]. rewrite E. f_equal. apply Rle_antisym; [now apply B | now apply U].
Qed.

(** Lists by position. *)
Lemma len_nan_where l m : List.length l = List.length m -> List.length (nan_where l m) = List.length l.
Proof. revert m. induction l as [| x l IH]; intros [| b m]; simpl; try discriminate; [reflexivity |]. intros [= H]. now rewrite IH. Qed.
Lemma len_times l k : List.length l = List.length k -> List.length (times l k) = List.length l.
Proof. revert k. induction l as [| x l IH]; intros [| b k]; simpl; try discriminate; [reflexivity |]. intros [= H]. now rewrite IH. Qed.
Lemma len_weighted gm cm hm g c h : List.length g = List.length c -> List.length g = List.length h -> List.length (weighted gm cm hm g c h) = List.length g.
Proof. revert c h. induction g as [| x g IH]; intros [| y c] [| z h]; simpl; try discriminate; [reflexivity |]. intros [= H] [= H']. now rewrite IH. Qed.
Lemma len_by_max l : List.length (by_max l) = List.length l.
Proof. unfold by_max. destruct (nanmax l); [destruct (Rlt_dec 0 r); [apply map_length |] |]; reflexivity. Qed.
Lemma len_rescale l : List.length (rescale l) = List.length l.
Proof. unfold rescale. destruct (nanmin l), (nanmax l); try reflexivity. destruct (Rlt_dec 0 (r0 - r)); [apply map_length | reflexivity]. Qed.

Lemma nth_nan_where l m i : nth_error (nan_where l m) i =
  match nth_error l i, nth_error m i with Some v, Some b => Some (if b : bool then None else v) | _, _ => None end.
Proof.
  revert m i. induction l as [| x l IH]; intros [| b m] [| i]; simpl; try reflexivity.
  - destruct (nth_error l i); reflexivity.
  - apply IH.
Qed.
Lemma nth_times l k i : nth_error (times l k) i =
  match nth_error l i, nth_error k i with Some a, Some b => Some (mul a b) | _, _ => None end.
Proof.
  revert k i. induction l as [| x l IH]; intros [| b m] [| i]; simpl; try reflexivity.
  - destruct (nth_error l i); reflexivity.
  - apply IH.
Qed.
Lemma nth_weighted gm cm hm g c h i : nth_error (weighted gm cm hm g c h) i =
  match nth_error g i, nth_error c i, nth_error h i with
  | Some x, Some y, Some z => Some (match x, y, z with Some x, Some y, Some z => Some (gm * x + cm * y + hm * z) | _, _, _ => None end)
  | _, _, _ => None end.
Proof.
  revert c h i. induction g as [| x g IH]; intros [| y c] [| z h] [| i]; simpl; try reflexivity; try (destruct (nth_error g i); reflexivity); try (destruct (nth_error g i), (nth_error c i); reflexivity).
  apply IH.
Qed.
Lemma nth_combine {A B} (l : list A) (k : list B) i : nth_error (combine l k) i =
  match nth_error l i, nth_error k i with Some a, Some b => Some (a, b) | _, _ => None end.
Proof.
  revert k i. induction l as [| x l IH]; intros [| b m] [| i]; simpl; try reflexivity.
  - destruct (nth_error l i); reflexivity.
  - apply IH.
Qed.
(** by_max and rescale keep the NaNs in place. *)
Lemma nth_by_max l i : exists k, 0 < k /\ forall o, nth_error l i = Some o -> nth_error (by_max l) i = Some (option_map (fun v => v / k) o).
Proof.
  unfold by_max. destruct (nanmax l) as [m |].
  - destruct (Rlt_dec 0 m) as [P | P].
    + exists m. split; [exact P |]. intros o H. now apply map_nth_error.
    + exists 1. split; [lra |]. intros o H. rewrite H. destruct o; simpl; f_equal; f_equal. lra.
  - exists 1. split; [lra |]. intros o H. rewrite H. destruct o; simpl; f_equal; f_equal. lra.
Qed.
Lemma nth_rescale l i o : nth_error l i = Some o -> exists o', nth_error (rescale l) i = Some o' /\ (o' = None <-> o = None) /\
  (forall lo hi, nanmin l = Some lo -> nanmax l = Some hi -> lo < hi -> o' = option_map (fun v => (v - lo) / (hi - lo)) o).
Proof.
  intros H. unfold rescale. destruct (nanmin l) as [lo |], (nanmax l) as [hi |].
  - destruct (Rlt_dec 0 (hi - lo)) as [P | P].
    + exists (option_map (fun v => (v - lo) / (hi - lo)) o). split; [now apply map_nth_error |]. split; [destruct o; easy |].
      intros lo' hi' [= <-] [= <-] _. reflexivity.
    + exists o. split; [exact H |]. split; [tauto |]. intros lo' hi' [= <-] [= <-] L. lra.
  - exists o. split; [exact H |]. split; [tauto |]. discriminate.
  - exists o. split; [exact H |]. split; [tauto |]. discriminate.
  - exists o. split; [exact H |]. split; [tauto |]. discriminate.
Qed.
Lemma rescale_unit l x : (forall y, In (Some y) l -> 0 <= y <= 1) -> In (Some x) (rescale l) -> 0 <= x <= 1.
Proof.
  intros U. unfold rescale. destruct (nanmin l) as [lo |] eqn:E1, (nanmax l) as [hi |] eqn:E2; try apply U.
  destruct (Rlt_dec 0 (hi - lo)) as [P | P]; [| apply U]. intros H. apply in_map_iff in H as ([y |] & E & Hy); [| discriminate]. injection E as <-.
  pose proof (proj2 (nanmin_some l lo E1) y Hy). pose proof (proj2 (nanmax_some l hi E2) y Hy).
  split; [apply Rmult_le_pos; [lra | left; apply Rinv_0_lt_compat; lra] |].
  apply (Rmult_le_reg_r (hi - lo)); [exact P |]. replace ((y - lo) / (hi - lo) * (hi - lo)) with (y - lo) by (field; lra). lra.
Qed.
Lemma rescale_one l : In (Some 1) l -> (forall y, In (Some y) l -> y <= 1) -> In (Some 1) (rescale l).
Proof.
  intros H U. unfold rescale. rewrite (nanmax_is l 1 H U). destruct (nanmin l) as [lo |]; [| exact H].
  destruct (Rlt_dec 0 (1 - lo)) as [P | P]; [| exact H]. apply in_map_iff. exists (Some 1). split; [| exact H]. simpl. f_equal. field. lra.
Qed.

(** Sectors. *)
Lemma in_sector_in sec l secs x : In x (in_sector sec l secs) <-> exists i, nth_error l i = Some x /\ nth_error secs i = Some sec.
Proof.
  revert secs. induction l as [| v l IH]; intros [| s secs]; simpl.
  - split; [easy |]. intros ([| i] & H & _); discriminate.
  - split; [easy |]. intros ([| i] & H & _); discriminate.
  - split; [easy |]. intros ([| i] & _ & H); discriminate.
  - destruct (Nat.eqb_spec s sec) as [-> | N].
    + simpl. rewrite IH. split.
      * intros [-> | (i & A & B)]; [now exists 0%nat | now exists (S i)].
      * intros ([| i] & A & B); simpl in A, B; [left; congruence | right; now exists i].
    + rewrite IH. split.
      * intros (i & A & B). now exists (S i).
      * intros ([| i] & A & B); simpl in A, B; [congruence | now exists i].
Qed.
Lemma len_normalised l secs : List.length l = List.length secs -> List.length (normalised l secs) = List.length l.
Proof. intros H. unfold normalised. rewrite map_length, combine_length, <- H. apply Nat.min_id. Qed.
Lemma nth_normalised l secs i v s : nth_error l i = Some v -> nth_error secs i = Some s ->
  nth_error (normalised l secs) i = Some (match v with
    | Some v => match nanmax (in_sector s l secs) with Some m => if Rlt_dec 0 m then if Rlt_dec 0 v then Some (v / m) else None else None | None => None end
    | None => None end).
Proof.
  intros A B. assert (E : nth_error (combine l secs) i = Some (v, s)) by (rewrite nth_combine, A, B; reflexivity).
  unfold normalised. erewrite map_nth_error by exact E. destruct v; reflexivity.
Qed.
Lemma normalised_value l secs i x : List.length l = List.length secs -> nth_error (normalised l secs) i = Some (Some x) ->
  exists v, nth_error l i = Some (Some v) /\ 0 < v /\ 0 < x <= 1.
Proof.
  intros LN H. assert (Hi : (i < List.length l)%nat).
  { assert (nth_error (normalised l secs) i <> None) by congruence. rewrite <- (len_normalised l secs LN). now apply nth_error_Some. }
  destruct (nth_error l i) as [v |] eqn:A; [| apply nth_error_None in A; lia].
  destruct (nth_error secs i) as [s |] eqn:B; [| apply nth_error_None in B; lia].
  rewrite (nth_normalised l secs i v s A B) in H. destruct v as [v |]; [| discriminate].
  destruct (nanmax (in_sector s l secs)) as [m |] eqn:M; [| discriminate]. destruct (Rlt_dec 0 m); [| discriminate]. destruct (Rlt_dec 0 v); [| discriminate].
  injection H as <-. exists v. split; [reflexivity |]. split; [assumption |].
  assert (v <= m) by (apply (proj2 (nanmax_some _ _ M)); apply in_sector_in; now exists i).
  split; [apply Rdiv_lt_0_compat; assumption |]. apply (Rmult_le_reg_r m); [assumption |]. replace (v / m * m) with v by (field; lra). lra.
Qed.
Lemma normalised_num l secs i v : List.length l = List.length secs -> nth_error l i = Some (Some v) -> 0 < v -> exists x, nth_error (normalised l secs) i = Some (Some x).
Proof.
  intros LN A P. destruct (nth_error secs i) as [s |] eqn:B.
  2:{ apply nth_error_None in B. assert (H : nth_error l i <> None) by congruence. apply nth_error_Some in H. lia. }
  rewrite (nth_normalised l secs i _ s A B). assert (I : In (Some v) (in_sector s l secs)) by (apply in_sector_in; now exists i).
  destruct (nanmax_ex _ _ I) as [m M]. rewrite M. pose proof (proj2 (nanmax_some _ _ M) v I) as L.
  destruct (Rlt_dec 0 m); [| lra]. destruct (Rlt_dec 0 v); [| lra]. now eexists.
Qed.
Lemma normalised_one l secs i v : List.length l = List.length secs -> nth_error l i = Some (Some v) -> 0 < v -> In (Some 1) (normalised l secs).
Proof.
  intros LN A P. destruct (nth_error secs i) as [s |] eqn:B.
  2:{ apply nth_error_None in B. assert (H : nth_error l i <> None) by congruence. apply nth_error_Some in H. lia. }
  assert (I : In (Some v) (in_sector s l secs)) by (apply in_sector_in; now exists i).
  destruct (nanmax_ex _ _ I) as [m M]. pose proof (nanmax_some _ _ M) as [J U]. pose proof (U v I) as L.
  apply in_sector_in in J as (j & C & D). apply (nth_error_In _ j). rewrite (nth_normalised l secs j _ s C D), M.
  destruct (Rlt_dec 0 m); [| lra]. f_equal. f_equal. field. lra.
Qed.

(** Order statistics. *)
Lemma sort_R_sorted l : StronglySorted (fun a b => Rleb a b = true) (sort Rleb l).
Proof.
  apply sort_sorted.
  - intros x y H. apply Rleb_false in H. apply Rleb_true. lra.
  - intros x y z A B. apply Rleb_true in A, B. apply Rleb_true. lra.
Qed.
Lemma sort_desc_sorted l : StronglySorted (fun a b => Rleb b a = true) (sort (fun a b => Rleb b a) l).
Proof.
  apply sort_sorted.
  - intros x y H. apply Rleb_false in H. apply Rleb_true. lra.
  - intros x y z A B. apply Rleb_true in A, B. apply Rleb_true. lra.
Qed.
Lemma perm_how_many {A} (P : A -> bool) l k : Permutation l k -> how_many P l = how_many P k.
Proof.
  unfold how_many. induction 1 as [| x l k _ IH | x y l | l k m _ IH1 _ IH2]; simpl; trivial.
  - destruct (P x); simpl; congruence.
  - destruct (P x), (P y); reflexivity.
  - congruence.
Qed.
Lemma all_how_many {A} (P : A -> bool) l : (forall x, In x l -> P x = true) -> how_many P l = List.length l.
Proof.
  intros H. unfold how_many. induction l as [| x l IH]; [reflexivity |]. simpl. rewrite (H x (or_introl eq_refl)). simpl. f_equal. apply IH. intros y Hy. apply H. now right.
Qed.
Lemma none_how_many {A} (P : A -> bool) l : (forall x, In x l -> P x = false) -> how_many P l = 0%nat.
Proof.
  intros H. unfold how_many. induction l as [| x l IH]; [reflexivity |]. simpl. rewrite (H x (or_introl eq_refl)). apply IH. intros y Hy. apply H. now right.
Qed.
Lemma filter_length_le {A} (P : A -> bool) l : (List.length (filter P l) <= List.length l)%nat.
Proof. induction l as [| x l IH]; simpl; [lia |]. destruct (P x); simpl; lia. Qed.
Lemma app_how_many {A} (P : A -> bool) l k : how_many P (l ++ k) = (how_many P l + how_many P k)%nat.
Proof. unfold how_many. rewrite filter_app, app_length. reflexivity. Qed.
Lemma sorted_split {A} (le : A -> A -> Prop) l i d : StronglySorted le l -> (i < List.length l)%nat ->
  exists a b, l = (a ++ nth i l d :: b)%list /\ List.length a = i /\ (forall x, In x a -> le x (nth i l d)) /\ (forall x, In x b -> le (nth i l d) x).
Proof.
  intros S'. revert i. induction S' as [| x l S' IH F]; intros i Hi; [simpl in Hi; lia |].
  destruct i as [| i]; simpl in *.
  - exists [], l. repeat split; [easy |]. rewrite Forall_forall in F. exact F.
  - destruct (IH i ltac:(lia)) as (a & b & E & La & HA & HB). exists (x :: a), b. split; [simpl; now rewrite E at 1 |]. split; [simpl; congruence |]. split; [| exact HB].
    intros y [<- | Hy]; [| now apply HA]. rewrite Forall_forall in F. apply F. apply nth_In. lia.
Qed.

Lemma Int_part_range x n : 0 <= x <= INR n -> (Z.to_nat (Int_part x) <= n)%nat /\ INR (Z.to_nat (Int_part x)) <= x.
Proof.
  intros [A B]. pose proof (base_Int_part x) as [C D].
  assert (E : (0 <= Int_part x)%Z) by (apply Z.lt_succ_r, lt_IZR; unfold Z.succ; rewrite plus_IZR; lra).
  assert (F : INR (Z.to_nat (Int_part x)) = IZR (Int_part x)) by (rewrite INR_IZR_INZ, Z2Nat.id by exact E; reflexivity).
  split; [| lra]. apply INR_le. lra.
Qed.
Lemma some_eq (a b : R) : Some a = Some b -> a = b.
Proof. congruence. Qed.
Lemma quantile_spec l q t : nanquantile l q = Some t -> In (Some t) l /\
  (how_many (fun x => Rltb x t) (somes l) <= Z.to_nat (Int_part (INR (List.length (somes l) - 1) * Rmin (Rmax q 0) 1)) < List.length (somes l))%nat.
Proof.
  unfold nanquantile. pose proof (sort_perm Rleb (somes l)) as P. pose proof (sort_R_sorted (somes l)) as S'.
  pose proof (Permutation_length P) as L.
  destruct (sort Rleb (somes l)) as [| x r]; [discriminate |]. cbv zeta. intros T. apply some_eq in T.
  assert (N : (0 < List.length (x :: r))%nat) by (simpl; lia).
  revert P S' L T N. generalize (x :: r). intros vals P S' L T N. rewrite <- L.
  set (n := (List.length vals - 1)%nat) in *. set (idx := Z.to_nat _) in *.
  assert (Q : 0 <= Rmin (Rmax q 0) 1 <= 1) by (split; [apply Rmin_glb; [apply Rmax_r | lra] | apply Rmin_r]).
  assert (I : (idx <= n)%nat).
  { apply Int_part_range. pose proof (pos_INR n). split; [apply Rmult_le_pos; lra |]. rewrite <- (Rmult_1_r (INR n)) at 2. apply Rmult_le_compat_l; lra. }
  rewrite (Nat.min_l idx n I) in T.
  destruct (sorted_split _ vals idx 0 S' ltac:(unfold n in I; lia)) as (a & b & E & La & HA & HB).
  rewrite T in *. split.
  - apply in_somes. apply (Permutation_in _ P). rewrite <- T. apply nth_In. unfold n in I. lia.
  - split; [| unfold n in I; lia]. rewrite <- (perm_how_many _ _ _ P), E, app_how_many.
    rewrite (none_how_many _ (t :: b)).
    2:{ intros y [<- | Hy]; apply Rltb_false; [lra |]. apply HB in Hy. now apply Rleb_true in Hy. }
    unfold how_many. pose proof (filter_length_le (fun y => Rltb y t) a). lia.
Qed.

(** The scores of one face. *)
Section Face.
Context (scale ap bp gm cm hm : R) (fs : list sface) (i : nat) (f : sface) (Hf : nth_error fs i = Some f).
Local Notation far := (Rltb (1.5 * Rmax ap bp) (s_dist f)).
Lemma nth_outside : nth_error (outside ap bp fs) i = Some far.
Proof. unfold outside. erewrite map_nth_error by exact Hf. reflexivity. Qed.
Lemma nth_dist : exists w, 0 < w /\ nth_error (distscore scale ap bp fs) i = Some (if far then None else Some w).
Proof.
  unfold distscore. set (l := nan_where _ _). destruct (nth_by_max l i) as (k & K & H).
  assert (P : 0 < 1 / ((s_rim f / scale) ^ 2 + 0.05)) by (apply Rdiv_lt_0_compat; [lra |]; pose proof (pow2_ge_0 (s_rim f / scale)); lra).
  exists (1 / ((s_rim f / scale) ^ 2 + 0.05) / k). split; [now apply Rdiv_lt_0_compat |].
  rewrite (H (if far then None else Some (1 / ((s_rim f / scale) ^ 2 + 0.05)))); [destruct far; reflexivity |].
  unfold l. rewrite nth_nan_where, nth_outside. erewrite map_nth_error by exact Hf. reflexivity.
Qed.
Lemma nth_height : exists o, nth_error (heightscore (distscore scale ap bp fs) fs) i = Some o /\ (o = None <-> s_elev f = None \/ far = true) /\
  ((exists u v, In (Some u) (map s_elev fs) /\ In (Some v) (map s_elev fs) /\ u < v) -> forall x, o = Some x -> 0 <= x).
Proof.
  destruct nth_dist as (w & W & D). assert (E : nth_error (map s_elev fs) i = Some (s_elev f)) by now apply map_nth_error.
  destruct (nth_rescale _ i _ E) as (o & A & B & C). exists (mul o (if far then None else Some w)).
  split; [unfold heightscore; rewrite nth_times, A, D; reflexivity |]. split.
  - destruct o as [x |], far; simpl.
    + split; auto.
    + split; [discriminate |]. intros [H | H]; [apply B in H; discriminate | discriminate].
    + split; auto.
    + split; auto. intros _. left. now apply B.
  - intros (u & v & U & V & L) x. destruct (nanmin_ex _ _ U) as [lo E1], (nanmax_ex _ _ V) as [hi E2].
    pose proof (proj2 (nanmin_some _ _ E1) u U). pose proof (proj2 (nanmax_some _ _ E2) v V). rewrite (C lo hi E1 E2 ltac:(lra)).
    destruct (s_elev f) as [e |] eqn:EE, far; simpl; try discriminate. intros [= <-].
    assert (lo <= e) by (apply (proj2 (nanmin_some _ _ E1)); now apply nth_error_In in E).
    apply Rmult_le_pos; [| lra]. apply Rmult_le_pos; [lra | left; apply Rinv_0_lt_compat; lra].
Qed.
Lemma nth_grad : exists o, nth_error (gradscore ap bp (distscore scale ap bp fs) fs) i = Some o /\ (o = None <-> s_grad f = None \/ far = true) /\
  (forall x, o = Some x -> 0 < x).
Proof.
  destruct nth_dist as (w & W & D). unfold gradscore. set (l := times _ _). destruct (nth_by_max l i) as (k & K & H).
  assert (E : nth_error l i = Some (match s_grad f with Some g => if far then None else Some (1 / (Rabs g + 1e-16) * w) | None => None end)).
  { unfold l. rewrite nth_times, D. erewrite map_nth_error.
    2:{ rewrite nth_nan_where, nth_outside. erewrite map_nth_error by exact Hf. reflexivity. }
    destruct (s_grad f), far; reflexivity. }
  eexists. split; [exact (H _ E) |]. destruct (s_grad f) as [g |], far; simpl; (split; [split; [auto | intros [Hx | Hx]; discriminate || reflexivity] | try discriminate]); try discriminate; auto.
  intros x [= <-]. pose proof (Rabs_pos g). apply Rdiv_lt_0_compat; [| exact K]. apply Rmult_lt_0_compat; [| exact W]. apply Rdiv_lt_0_compat; lra.
Qed.
Lemma nth_curv : exists o, nth_error (curvscore ap bp (distscore scale ap bp fs) fs) i = Some o /\ (o = None <-> s_curv f = None \/ far = true) /\
  (forall x, o = Some x -> 0 <= x).
Proof.
  destruct nth_dist as (w & W & D). unfold curvscore. set (l := times _ _). destruct (nth_by_max l i) as (k & K & H).
  assert (E : nth_error l i = Some (match s_curv f with Some c => if far then None else Some ((if Rlt_dec 0 c then 0 else - c) * w) | None => None end)).
  { unfold l. rewrite nth_times, D. erewrite map_nth_error.
    2:{ rewrite nth_nan_where, nth_outside. erewrite map_nth_error by exact Hf. reflexivity. }
    destruct (s_curv f), far; reflexivity. }
  eexists. split; [exact (H _ E) |]. destruct (s_curv f) as [g |], far; simpl; (split; [split; [auto | intros [Hx | Hx]; discriminate || reflexivity] | try discriminate]); try discriminate; auto.
  intros x [= <-]. apply Rmult_le_pos; [| left; now apply Rinv_0_lt_compat]. apply Rmult_le_pos; [destruct (Rlt_dec 0 g); lra | lra].
Qed.
Lemma nth_combined : exists o, nth_error (combined scale ap bp gm cm hm fs) i = Some o /\ (o <> None <-> scorable ap bp f) /\
  (0 < gm -> 0 <= cm -> 0 <= hm -> (exists u v, In (Some u) (map s_elev fs) /\ In (Some v) (map s_elev fs) /\ u < v) -> forall x, o = Some x -> 0 < x).
Proof.
  destruct nth_height as (h & A1 & B1 & C1), nth_grad as (g & A2 & B2 & C2), nth_curv as (c & A3 & B3 & C3).
  exists (match g, c, h with Some x, Some y, Some z => Some (gm * x + cm * y + hm * z) | _, _, _ => None end).
  split; [unfold combined; rewrite nth_weighted, A1, A2, A3; reflexivity |]. split.
  - unfold scorable. rewrite <- (Rltb_false (1.5 * Rmax ap bp) (s_dist f)).
    assert (F : far = false <-> far <> true) by (destruct far; split; congruence). rewrite F.
    destruct g as [g |].
    + destruct c as [c |].
      * destruct h as [h |].
        -- split; [| discriminate]. intros _. repeat split; intros N.
           ++ assert (Some h = None) by (apply B1; now left). discriminate.
           ++ assert (Some g = None) by (apply B2; now left). discriminate.
           ++ assert (Some c = None) by (apply B3; now left). discriminate.
           ++ assert (Some h = None) by (apply B1; now right). discriminate.
        -- split; [easy |]. intros (N1 & N2 & N3 & N4). destruct (proj1 B1 eq_refl); contradiction.
      * split; [easy |]. intros (N1 & N2 & N3 & N4). destruct (proj1 B3 eq_refl); contradiction.
    + split; [easy |]. intros (N1 & N2 & N3 & N4). destruct (proj1 B2 eq_refl); contradiction.
  - intros G Cp Hp U x. destruct g as [g |], c as [c |], h as [h |]; try discriminate. intros [= <-].
    specialize (C1 U h eq_refl). specialize (C2 g eq_refl). specialize (C3 c eq_refl).
    assert (0 < gm * g) by now apply Rmult_lt_0_compat. assert (0 <= cm * c) by now apply Rmult_le_pos. assert (0 <= hm * h) by now apply Rmult_le_pos. lra.
Qed.
End Face.

Lemma len_outside ap bp fs : List.length (outside ap bp fs) = List.length fs.
Proof. apply map_length. Qed.
Lemma len_dist scale ap bp fs : List.length (distscore scale ap bp fs) = List.length fs.
Proof. unfold distscore. rewrite len_by_max, len_nan_where by (rewrite len_outside; apply map_length). apply map_length. Qed.
Lemma len_combined scale ap bp gm cm hm fs : List.length (combined scale ap bp gm cm hm fs) = List.length fs.
Proof.
  assert (G : List.length (gradscore ap bp (distscore scale ap bp fs) fs) = List.length fs).
  { unfold gradscore. rewrite len_by_max, len_times; rewrite ?len_dist, map_length, len_nan_where; rewrite ?map_length, ?len_outside; reflexivity. }
  assert (C : List.length (curvscore ap bp (distscore scale ap bp fs) fs) = List.length fs).
  { unfold curvscore. rewrite len_by_max, len_times; rewrite ?len_dist, map_length, len_nan_where; rewrite ?map_length, ?len_outside; reflexivity. }
  assert (H : List.length (heightscore (distscore scale ap bp fs) fs) = List.length fs).
  { unfold heightscore. rewrite len_times; rewrite ?len_dist, len_rescale, map_length; reflexivity. }
  unfold combined. cbv zeta. rewrite len_weighted; congruence.
Qed.

(** The faces kept. *)
Lemma len_high q ns l secs : List.length l = List.length secs -> List.length (high_scores q ns l secs) = List.length l.
Proof.
  intros H. unfold high_scores. assert (A : List.length (above_quantile q l secs) = List.length l) by (unfold above_quantile; rewrite map_length, combine_length, <- H; apply Nat.min_id).
  destruct (Nat.ltb _ _); [destruct (Nat.ltb _ _); apply map_length | exact A].
Qed.
Lemma high_num q ns l secs i : nth_error (high_scores q ns l secs) i = Some true -> exists v, nth_error l i = Some (Some v).
Proof.
  unfold high_scores. intros H.
  assert (G : forall (g : option R -> bool), (forall o, g o = true -> o <> None) -> nth_error (map g l) i = Some true -> exists v, nth_error l i = Some (Some v)).
  { intros g Hg E. rewrite nth_error_map in E. destruct (nth_error l i) as [[v |] |]; simpl in E; [now exists v | | discriminate]. injection E as E. now apply Hg in E. }
  destruct (Nat.ltb _ _); [destruct (Nat.ltb _ _) |].
  - apply (G is_num); [intros [x |]; easy | exact H].
  - revert H. apply G. intros [x |]; easy.
  - unfold above_quantile in H. rewrite nth_error_map, nth_combine in H. destruct (nth_error l i) as [[v |] |]; [now exists v | | discriminate]. destruct (nth_error secs i); discriminate.
Qed.
Lemma somes_length l : List.length (somes l) = trues (map is_num l).
Proof. unfold trues. induction l as [| [x |] l IH]; simpl; congruence. Qed.
Lemma trues_ge l t : trues (map (fun o => match o with Some v => Rleb t v | None => false end) l) = how_many (fun v => Rleb t v) (somes l).
Proof. unfold trues, how_many. induction l as [| [x |] l IH]; simpl; [reflexivity | | exact IH]. destruct (Rleb t x); simpl; congruence. Qed.
Lemma high_count q ns l secs : (0 < ns)%nat -> (Nat.min (3 * ns) (trues (map is_num l)) <= trues (high_scores q ns l secs))%nat.
Proof.
  intros N. unfold high_scores. destruct (Nat.ltb_spec (trues (above_quantile q l secs)) (3 * ns)) as [A | A]; [| lia].
  destruct (Nat.ltb_spec (trues (map is_num l)) (3 * ns)) as [B | B]; [lia |].
  rewrite trues_ge. pose proof (sort_perm (fun a b => Rleb b a) (somes l)) as P. pose proof (sort_desc_sorted (somes l)) as S'.
  set (vals := sort _ _) in *. assert (L : List.length vals = trues (map is_num l)) by (rewrite <- somes_length; now apply Permutation_length).
  destruct (sorted_split _ vals (3 * ns - 1) 0 S' ltac:(lia)) as (a & b & E & La & HA & _). set (t := nth (3 * ns - 1) vals 0) in *.
  rewrite <- (perm_how_many _ _ _ P), E, app_how_many, (all_how_many _ a).
  - assert (M : (1 <= how_many (fun v => Rleb t v) (t :: b))%nat).
    { unfold how_many. simpl. replace (Rleb t t) with true by (symmetry; apply Rleb_true; lra). simpl. lia. }
    lia.
  - exact HA.
Qed.
Lemma high_one q ns l secs i : List.length l = List.length secs -> (0 < ns)%nat -> nth_error l i = Some (Some 1) -> (forall x, In (Some x) l -> x <= 1) ->
  nth_error (high_scores q ns l secs) i = Some true.
Proof.
  intros LN N H U. unfold high_scores. cbv zeta. destruct (Nat.ltb (trues (above_quantile q l secs)) (3 * ns)) eqn:E1; [destruct (Nat.ltb (trues (map is_num l)) (3 * ns)) eqn:E2 |].
  - exact (map_nth_error is_num _ _ H).
  - apply (map_nth_error (fun o => match o with Some v => Rleb (nth (3 * ns - 1) (sort (fun a b => Rleb b a) (somes l)) 0) v | None => false end)) in H.
    rewrite H. f_equal. apply Rleb_true. apply U. apply in_somes. apply (Permutation_in _ (sort_perm (fun a b => Rleb b a) (somes l))).
    apply nth_In. rewrite (Permutation_length (sort_perm _ (somes l))), somes_length. apply Nat.ltb_ge in E2. lia.
  - assert (Hs : (i < List.length secs)%nat) by (rewrite <- LN; apply nth_error_Some; congruence).
    destruct (nth_error secs i) as [s |] eqn:B; [| apply nth_error_None in B; lia].
    assert (E : nth_error (combine l secs) i = Some (Some 1, s)) by (rewrite nth_combine, H, B; reflexivity).
    unfold above_quantile. erewrite map_nth_error by exact E. cbn [fst snd]. destruct (nanquantile (in_sector s l secs) q) as [t |] eqn:Q; [| reflexivity].
    f_equal. apply Rleb_true, U. apply quantile_spec in Q as [Q _]. apply in_sector_in in Q as (j & Q & _). now apply nth_error_In in Q.
Qed.

Definition secs_of (fs : list sface) : list nat := map (fun f => sector_of (n_sectors_of (List.length fs)) (s_bearing f)) fs.
Lemma ns_pos n : (9 <= n_sectors_of n <= 18)%nat.
Proof. unfold n_sectors_of. lia. Qed.
Lemma len_secs scale ap bp gm cm hm fs : List.length (combined scale ap bp gm cm hm fs) = List.length (secs_of fs).
Proof. rewrite len_combined. symmetry. apply map_length. Qed.

Section Score.
Context (scale ap bp q gm cm hm : R) (fs : list sface).
Local Notation cmb := (combined scale ap bp gm cm hm fs).
Local Notation nrm := (normalised cmb (secs_of fs)).
Local Notation hgh := (high_scores q (n_sectors_of (List.length fs)) nrm (secs_of fs)).
Local Notation kept := (nan_where nrm (map negb hgh)).
Lemma score_eq : score_rim scale ap bp q gm cm hm fs = rescale kept.
Proof. reflexivity. Qed.
Lemma len_nrm : List.length nrm = List.length (secs_of fs).
Proof. rewrite len_normalised by apply len_secs. apply len_secs. Qed.
Lemma len_kept : List.length nrm = List.length (map negb hgh).
Proof. rewrite map_length, len_high by apply len_nrm. reflexivity. Qed.
Lemma score_length : List.length (score_rim scale ap bp q gm cm hm fs) = List.length fs.
Proof. rewrite score_eq, len_rescale, len_nan_where by apply len_kept. rewrite len_nrm. apply map_length. Qed.
Lemma kept_in x i : nth_error kept i = Some (Some x) -> nth_error nrm i = Some (Some x) /\ nth_error hgh i = Some true.
Proof.
  rewrite nth_nan_where, nth_error_map. destruct (nth_error nrm i) as [v |]; [| discriminate]. destruct (nth_error hgh i) as [b |]; simpl; [| discriminate].
  destruct b; simpl; [| discriminate]. intros H. split; [exact H | reflexivity].
Qed.
Lemma kept_unit x : In (Some x) kept -> 0 < x <= 1.
Proof.
  intros H. apply In_nth_error in H as [i H]. apply kept_in in H as [H _]. apply normalised_value in H as (v & _ & _ & X); [exact X | apply len_secs].
Qed.
Lemma score_unit x : In (Some x) (score_rim scale ap bp q gm cm hm fs) -> 0 <= x <= 1.
Proof. rewrite score_eq. apply rescale_unit. intros y Hy. apply kept_unit in Hy. lra. Qed.
Lemma score_scorable i f x : nth_error fs i = Some f -> nth_error (score_rim scale ap bp q gm cm hm fs) i = Some (Some x) -> scorable ap bp f.
Proof.
  intros Hf H. rewrite score_eq in H.
  assert (K : exists y, nth_error kept i = Some (Some y)).
  { destruct (nth_error kept i) as [o |] eqn:E.
    - destruct (nth_rescale _ i o E) as (o' & A & B & _). rewrite A in H. injection H as ->. destruct o as [y |]; [now exists y |]. assert (Some x = None) by now apply B. discriminate.
    - apply nth_error_None in E. assert (N : nth_error (rescale kept) i <> None) by congruence. apply nth_error_Some in N. rewrite len_rescale in N. lia. }
  destruct K as [y K]. apply kept_in in K as [K _]. apply normalised_value in K as (v & K & _ & _); [| apply len_secs].
  destruct (nth_combined scale ap bp gm cm hm fs i f Hf) as (o & A & B & _). rewrite A in K. injection K as ->. apply B. discriminate.
Qed.

Context (G : 0 < gm) (C : 0 <= cm) (H : 0 <= hm) (D : exists u v, In (Some u) (map s_elev fs) /\ In (Some v) (map s_elev fs) /\ u < v).
Lemma score_one f : In f fs -> scorable ap bp f -> In (Some 1) (score_rim scale ap bp q gm cm hm fs).
Proof.
  intros Hf S'. apply In_nth_error in Hf as [i Hf]. destruct (nth_combined scale ap bp gm cm hm fs i f Hf) as (o & A & B & P).
  destruct o as [v |]; [| now apply B in S']. specialize (P G C H D v eq_refl).
  assert (O : In (Some 1) nrm) by (apply (normalised_one _ _ i v); [apply len_secs | exact A | exact P]).
  assert (U : forall x, In (Some x) nrm -> x <= 1).
  { intros x Hx. apply In_nth_error in Hx as [j Hx]. apply normalised_value in Hx as (w & _ & _ & X); [lra | apply len_secs]. }
  apply In_nth_error in O as [j O].
  assert (K : In (Some 1) kept).
  { apply (nth_error_In _ j). rewrite nth_nan_where, nth_error_map, O.
    rewrite (high_one q _ nrm (secs_of fs) j); [reflexivity | apply len_nrm | pose proof (ns_pos (List.length fs)); lia | exact O | exact U]. }
  rewrite score_eq. apply rescale_one; [exact K |]. intros y Hy. apply kept_unit in Hy. lra.
Qed.
Lemma count_rescale l : how_many is_num (rescale l) = how_many is_num l.
Proof.
  unfold rescale. destruct (nanmin l), (nanmax l); try reflexivity. destruct (Rlt_dec 0 (r0 - r)); [| reflexivity].
  clear. unfold how_many. induction l as [| [x |] l IH]; simpl; congruence.
Qed.
Lemma count_kept (l : list (option R)) (m : list bool) : (forall i, nth_error m i = Some true -> exists v, nth_error l i = Some (Some v)) -> how_many is_num (nan_where l (map negb m)) = trues m.
Proof.
  unfold how_many, trues. revert m. induction l as [| x l IH]; intros [| b m] Hm; simpl; trivial.
  - destruct b; [destruct (Hm 0%nat eq_refl) as [v E]; discriminate |].
    assert (F : filter (fun b : bool => b) m = []).
    { destruct (filter (fun b : bool => b) m) as [| c k] eqn:E; [reflexivity |]. assert (I : In c (filter (fun b => b) m)) by (rewrite E; now left).
      apply filter_In in I as [I T]. rewrite T in I. apply In_nth_error in I as [i I]. destruct (Hm (S i) I) as [v V]. discriminate. }
    now rewrite F.
  - assert (IH' : List.length (filter is_num (nan_where l (map negb m))) = List.length (filter (fun b => b) m)) by (apply IH; intros i Hi; exact (Hm (S i) Hi)).
    destruct b; simpl; [| exact IH']. destruct (Hm 0%nat eq_refl) as [v E]. simpl in E. injection E as ->. simpl. congruence.
Qed.
Lemma score_count s : picks (scorable ap bp) fs s ->
  (Nat.min (3 * n_sectors_of (List.length fs)) (List.length s) <= how_many is_num (score_rim scale ap bp q gm cm hm fs))%nat.
Proof.
  intros P. rewrite score_eq, count_rescale, count_kept by (intros i; apply high_num).
  eapply Nat.le_trans; [| apply high_count; pose proof (ns_pos (List.length fs)); lia].
  apply Nat.min_le_compat_l.
  assert (E : forall i f, nth_error fs i = Some f -> scorable ap bp f -> exists x, nth_error nrm i = Some (Some x)).
  { intros i f Hf S'. destruct (nth_combined scale ap bp gm cm hm fs i f Hf) as (o & A & B & Q). destruct o as [v |]; [| now apply B in S'].
    apply (normalised_num _ _ i v); [apply len_secs | exact A | now apply Q]. }
  assert (L : List.length nrm = List.length fs) by (rewrite len_nrm; apply map_length).
  revert L E. generalize nrm. clear -P. induction P as [| f fs s Sf P IH | f fs s Nf P IH]; intros l L E.
  - simpl. lia.
  - destruct l as [| o l]; [discriminate |]. injection L as L. destruct (E 0%nat f eq_refl Sf) as [x X]. injection X as ->.
    cbn [map List.length]. unfold trues. cbn [is_num filter List.length]. apply le_n_S. apply IH; [exact L |]. intros i g. exact (E (S i) g).
  - destruct l as [| o l]; [discriminate |]. injection L as L. eapply Nat.le_trans; [apply (IH l L); intros i g; exact (E (S i) g) |].
    cbn [map]. unfold trues. cbn [filter]. destruct (is_num o); simpl; lia.
Qed.
End Score.
