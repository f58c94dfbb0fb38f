From Coq Require Import NArith ZArith Lia Permutation Sorted Ascii.
From Verif Require Import Common Sorting Conf_model Conf_base Files_model Files_spec.
Open Scope string_scope.

(* ------------------------------- digits ------------------------------- *)
Fixpoint val (l : list N) : N := match l with [] => 0 | d :: r => d * 10 ^ N.of_nat (List.length r) + val r end%N.
Definition ok (l : list N) : Prop := Forall (fun d => d < 10)%N l.

Lemma pow10_S k : (10 ^ N.of_nat (S k) = 10 * 10 ^ N.of_nat k)%N.
Proof. rewrite Nat2N.inj_succ, N.pow_succ_r by lia. reflexivity. Qed.
Lemma val_bound l : ok l -> (val l < 10 ^ N.of_nat (List.length l))%N.
Proof.
  induction 1 as [| d l Hd H IH]; [cbn; lia |]. cbn [val List.length]. rewrite pow10_S.
  remember (10 ^ N.of_nat (List.length l))%N as p. nia.
Qed.
Lemma val_snoc l d : val (l ++ [d])%list = (10 * val l + d)%N.
Proof.
  induction l as [| a l IH]; [cbn; lia |]. cbn [app val]. rewrite IH, app_length. cbn [List.length].
  rewrite Nat.add_1_r, pow10_S. lia.
Qed.
Lemma dec_ok f : forall n, ok (dec f n).
Proof.
  induction f as [| f IH]; intros n; cbn [dec]; [constructor |].
  destruct (N.ltb_spec n 10); [repeat constructor; assumption |].
  apply Forall_app. split; [apply IH |]. constructor; [apply N.mod_lt; lia | constructor].
Qed.
Lemma dec_val f : forall n, (n < 2 ^ N.of_nat f)%N -> val (dec f n) = n.
Proof.
  induction f as [| f IH]; intros n H; [cbn in *; lia |].
  cbn [dec]. destruct (N.ltb_spec n 10); [cbn; lia |].
  rewrite val_snoc, IH.
  - rewrite (N.div_mod n 10) at 3 by lia. reflexivity.
  - rewrite Nat2N.inj_succ, N.pow_succ_r in H by lia. apply N.div_lt_upper_bound; lia.
Qed.
Lemma digits_val n : val (digits_of n) = n.
Proof.
  unfold digits_of. apply dec_val. rewrite Nat2N.inj_succ, N2Nat.id.
  apply N.lt_le_trans with (2 ^ N.size n)%N; [apply N.size_gt | apply N.pow_le_mono_r; lia].
Qed.
Lemma dec_length f : forall n k, (n < 10 ^ N.of_nat k)%N -> (0 < k)%nat -> (List.length (dec f n) <= k)%nat.
Proof.
  induction f as [| f IH]; intros n k H K; cbn [dec]; [cbn; lia |].
  destruct (N.ltb_spec n 10); [cbn; lia |].
  rewrite app_length. cbn [List.length]. destruct k as [| [| k]]; [lia | cbn in H; lia |].
  specialize (IH (n / 10)%N (S k)). rewrite pow10_S in H.
  assert ((n / 10 < 10 ^ N.of_nat (S k))%N) by (apply N.div_lt_upper_bound; lia). specialize (IH H1). lia.
Qed.

Definition digits6 (n : N) : list N := (repeat 0%N (6 - List.length (digits_of n)) ++ digits_of n)%list.
Lemma pad6_eq n : pad6 n = show (digits6 n).
Proof. reflexivity. Qed.
Lemma ok6 n : ok (digits6 n).
Proof.
  apply Forall_app. split; [| apply dec_ok]. apply Forall_forall. intros x Hx. apply repeat_spec in Hx. subst. lia.
Qed.
Lemma val_zeros k l : val (repeat 0%N k ++ l)%list = val l.
Proof. induction k as [| k IH]; [reflexivity |]. cbn [repeat app val]. rewrite IH. lia. Qed.
Lemma val6 n : val (digits6 n) = n.
Proof. unfold digits6. rewrite val_zeros. apply digits_val. Qed.
Lemma nonempty6 n : digits6 n <> [].
Proof.
  unfold digits6, digits_of. cbn [dec]. destruct (n <? 10)%N; intros E; apply app_eq_nil in E; destruct E as [_ E]; [discriminate |].
  apply app_eq_nil in E. destruct E as [_ E]. discriminate.
Qed.
Lemma show_length l : String.length (show l) = List.length l.
Proof. induction l as [| d l IH]; [reflexivity |]. cbn. f_equal. exact IH. Qed.
Lemma width6 n : (n < 10 ^ 6)%N -> String.length (pad6 n) = 6%nat.
Proof.
  intros H. rewrite pad6_eq, show_length. unfold digits6. rewrite app_length, repeat_length.
  pose proof (dec_length (S (N.to_nat (N.size n))) n 6 H ltac:(lia)) as L. fold (digits_of n) in L. lia.
Qed.

Lemma code_chr d : (d < 10)%N -> N_of_ascii (chr d) = (48 + d)%N.
Proof. intros H. unfold chr. apply N_ascii_embedding. lia. Qed.
Lemma digit_chr d : (d < 10)%N -> digit (chr d) = Some d.
Proof.
  intros H. unfold digit. rewrite code_chr by exact H.
  destruct (N.leb_spec 48 (48 + d)); [| lia]. destruct (N.leb_spec (48 + d) 57); [| lia]. cbn [andb]. f_equal. lia.
Qed.
Lemma int_from_show l : ok l -> forall acc, int_from acc (show l) = Some (acc * 10 ^ N.of_nat (List.length l) + val l)%N.
Proof.
  induction 1 as [| d l Hd H IH]; intros acc; [cbn; f_equal; lia |].
  cbn [show int_from]. rewrite digit_chr by exact Hd. rewrite IH. f_equal. cbn [val List.length]. rewrite pow10_S. lia.
Qed.
Lemma int_pad6 n : int_ (pad6 n) = Some n.
Proof.
  rewrite pad6_eq. pose proof (nonempty6 n) as E. pose proof (int_from_show (digits6 n) (ok6 n) 0%N) as H.
  rewrite val6 in H. destruct (digits6 n) as [| d l] eqn:Dn; [congruence |].
  change (int_ (show (d :: l))) with (int_from 0 (show (d :: l))). rewrite H. reflexivity.
Qed.

(* ------------------------------ file names ------------------------------ *)
Lemma digit_not c d : (d < 10)%N -> digit c = None -> Ascii.eqb c (chr d) = false.
Proof. intros H E. destruct (Ascii.eqb_spec c (chr d)) as [-> |]; [rewrite digit_chr in E by exact H; discriminate | reflexivity]. Qed.
Lemma starts_digit c p l t : digit c = None -> ok l -> l <> [] -> starts (String c p) (show l ++ t) = false.
Proof.
  intros C O E. destruct l as [| d l]; [congruence |]. inversion O; subst. unfold starts. cbn [show append strip].
  rewrite digit_not by assumption. reflexivity.
Qed.
Lemma first_piece_show c p l t : digit c = None -> ok l -> first_piece (String c p) (show l ++ String c p ++ t) = show l.
Proof.
  intros C. assert (S0 : forall p t, strip p (p ++ t) = Some t).
  { clear. induction p as [| a p IH]; intros t; [reflexivity |]. cbn [append strip]. rewrite Ascii.eqb_refl. apply IH. }
  induction l as [| d l IH]; intros O.
  - cbn [show append]. cbn [first_piece]. unfold starts. cbn [strip]. rewrite Ascii.eqb_refl, S0. reflexivity.
  - cbn [show append first_piece]. inversion O; subst.
    unfold starts. cbn [strip]. rewrite digit_not by assumption. f_equal. apply IH. assumption.
Qed.
Lemma last_piece_digits c p l t cur : digit c = None -> ok l ->
  last_piece (String c p) O cur (show l ++ t) = last_piece (String c p) O cur t.
Proof.
  intros C. induction l as [| d l IH]; intros O; [reflexivity |]. inversion O; subst.
  cbn [show append last_piece]. unfold starts. cbn [strip]. rewrite digit_not by assumption. apply IH. assumption.
Qed.
Lemma runs_digits l t cur : ok l -> runs cur (show l ++ t) = runs (cur ++ show l) t.
Proof.
  revert cur. induction l as [| d l IH]; intros cur O; cbn [show append].
  - assert (E : cur ++ "" = cur) by (induction cur as [| a cur IHc]; [reflexivity | cbn; f_equal; exact IHc]). rewrite E. reflexivity.
  - inversion O; subst. cbn [runs]. rewrite digit_chr by assumption. rewrite IH by assumption. f_equal.
    induction cur as [| a cur IHc]; [reflexivity |]. cbn. f_equal. exact IHc.
Qed.

Lemma parse s n : In s schemes ->
  int_ (first_piece ("." ++ ext s) (last_piece (prefix_ s) O (file_name s n) (file_name s n))) = Some n.
Proof.
  intros H. unfold file_name. rewrite pad6_eq.
  assert (F : last_piece (prefix_ s) O (file_name s n) (file_name s n) = show (digits6 n) ++ "." ++ ext s).
  { unfold file_name. rewrite pad6_eq.
    repeat (destruct H as [<- | H]; [cbn -[digits6 show]; rewrite last_piece_digits by (reflexivity || apply ok6); reflexivity |]). destruct H. }
  unfold file_name in F. rewrite pad6_eq in F. rewrite F.
  pose proof (first_piece_show "." (ext s) (digits6 n) "" eq_refl (ok6 n)) as P.
  assert (E : forall x, x ++ "" = x) by (induction x as [| a x IH]; [reflexivity | cbn; f_equal; exact IH]).
  rewrite E in P. cbn [append] in P |- *. rewrite P. rewrite <- pad6_eq. apply int_pad6.
Qed.
Lemma runs_name s n : In s schemes -> runs "" (file_name s n) = [pad6 n].
Proof.
  intros H. unfold file_name. rewrite pad6_eq. pose proof (nonempty6 n) as E.
  assert (T : forall x : unit, runs (show (digits6 n)) (String "." "nc") = [show (digits6 n)]).
  { intros _. destruct (digits6 n) as [| d l]; [congruence |]. reflexivity. }
  repeat (destruct H as [<- | H]; [cbn -[digits6 show]; rewrite runs_digits by apply ok6; apply T; exact tt |]). destruct H.
Qed.
Lemma ends_append p t : ends p (t ++ p) = true.
Proof.
  induction t as [| a t IH]; cbn [append].
  - destruct p as [| a p]; [reflexivity |]. cbn [ends]. rewrite String.eqb_refl. reflexivity.
  - cbn [ends]. rewrite IH. apply Bool.orb_true_r.
Qed.
Lemma glob_name s n : In s schemes -> glob_match s (file_name s n) = true.
Proof.
  intros H. unfold glob_match, file_name.
  repeat (destruct H as [<- | H]; [cbn -[pad6 ends]; apply (ends_append ".nc" (pad6 n)) |]). destruct H.
Qed.
Lemma name_inj s n m : In s schemes -> file_name s n = file_name s m -> n = m.
Proof. intros H E. pose proof (parse s n H) as P. pose proof (parse s m H) as Q. rewrite E in P. congruence. Qed.

Lemma cmp_chr d e : (d < 10)%N -> (e < 10)%N -> Ascii.compare (chr d) (chr e) = N.compare d e.
Proof.
  intros Hd He. unfold Ascii.compare. rewrite !code_chr by assumption.
  destruct (N.compare_spec d e); [apply N.compare_eq_iff | apply N.compare_lt_iff | apply N.compare_gt_iff]; lia.
Qed.
Lemma cmp_show t l : forall m, ok l -> ok m -> List.length l = List.length m ->
  String.compare (show l ++ t) (show m ++ t) = match N.compare (val l) (val m) with Eq => String.compare t t | c => c end.
Proof.
  induction l as [| d l IH]; intros [| e m] L M E; try discriminate; [reflexivity |].
  inversion L; subst. inversion M; subst. injection E as E. cbn [show append String.compare]. rewrite cmp_chr by assumption.
  cbn [val]. rewrite IH by assumption. rewrite E.
  pose proof (val_bound l H2) as B1. pose proof (val_bound m H4) as B2. rewrite E in B1.
  remember (10 ^ N.of_nat (List.length m))%N as p.
  destruct (N.compare_spec d e) as [-> | Hlt | Hgt].
  - destruct (N.compare_spec (val l) (val m)) as [-> | Hx | Hx].
    + rewrite N.compare_refl. reflexivity.
    + assert ((e * p + val l ?= e * p + val m)%N = Lt) as -> by (apply N.compare_lt_iff; lia). reflexivity.
    + assert ((e * p + val l ?= e * p + val m)%N = Gt) as -> by (apply N.compare_gt_iff; lia). reflexivity.
  - assert ((d * p + val l ?= e * p + val m)%N = Lt) as -> by (apply N.compare_lt_iff; nia). reflexivity.
  - assert ((d * p + val l ?= e * p + val m)%N = Gt) as -> by (apply N.compare_gt_iff; nia). reflexivity.
Qed.
Lemma cmp_prefix p : forall a b, String.compare (p ++ a) (p ++ b) = String.compare a b.
Proof.
  induction p as [| c p IH]; intros a b; [reflexivity |]. cbn [append String.compare].
  assert (Ascii.compare c c = Eq) as -> by (apply N.compare_refl). apply IH.
Qed.
Lemma str_refl t : String.compare t t = Eq.
Proof. induction t as [| c t IH]; [reflexivity |]. cbn. assert (Ascii.compare c c = Eq) as -> by (apply N.compare_refl). exact IH. Qed.
Lemma name_leb s n m : String.length (pad6 n) = String.length (pad6 m) -> String.leb (file_name s n) (file_name s m) = N.leb n m.
Proof.
  intros E. unfold String.leb, file_name. rewrite !cmp_prefix. rewrite !pad6_eq in *. rewrite !show_length in E.
  rewrite cmp_show by (apply ok6 || exact E). rewrite !val6, str_refl. unfold N.leb. destruct (n ?= m)%N; reflexivity.
Qed.

(* -------------------------------- sorting -------------------------------- *)
Lemma sorted_unique {A} (R : A -> A -> Prop) l : forall m, Permutation l m -> StronglySorted R l -> StronglySorted R m ->
  (forall x y, In x l -> In y l -> R x y -> R y x -> x = y) -> l = m.
Proof.
  induction l as [| x l IH]; intros m P S T K.
  - apply Permutation_nil in P. congruence.
  - destruct m as [| y m]; [symmetry in P; apply Permutation_nil in P; discriminate |].
    inversion S; subst. inversion T; subst.
    assert (x = y).
    { destruct (Permutation_in x P (or_introl eq_refl)) as [E | E]; [congruence |].
      destruct (Permutation_in y (Permutation_sym P) (or_introl eq_refl)) as [F | F]; [congruence |].
      rewrite Forall_forall in H2, H4. apply K; [left; reflexivity | right; exact F | apply H2; exact F | apply H4; exact E]. }
    subst y. f_equal. apply IH; [eapply Permutation_cons_inv; exact P | assumption | assumption |].
    intros a b Ha Hb. apply K; right; assumption.
Qed.

Section R.
Context {content : Type}.
Variable s : scheme.
Hypothesis Hs : In s schemes.
Notation entry := (N * content)%type.
Definition nf (e : entry) : string * content := (file_name s (fst e), snd e).

Fixpoint nset (n : N) (c : content) (es : list entry) : list entry :=
  match es with [] => [(n, c)] | (m, v) :: r => if N.eqb n m then (m, c) :: r else (m, v) :: nset n c r end.
Fixpoint nget (n : N) (es : list entry) : option content :=
  match es with [] => None | (m, v) :: r => if N.eqb n m then Some v else nget n r end.
Lemma nget_nset n k c es : nget n (nset k c es) = if N.eqb n k then Some c else nget n es.
Proof.
  induction es as [| [m v] es IH]; cbn; [reflexivity |].
  destruct (N.eqb_spec k m); cbn; destruct (N.eqb_spec n m); destruct (N.eqb_spec n k); subst; try congruence; auto.
Qed.
Lemma nset_keys n c es k : In k (map fst (nset n c es)) <-> k = n \/ In k (map fst es).
Proof.
  induction es as [| [m v] es IH]; cbn; [intuition |]. destruct (N.eqb_spec n m); cbn; [subst; intuition | rewrite IH; intuition].
Qed.
Lemma nset_nodup n c es : NoDup (map fst es) -> NoDup (map fst (nset n c es)).
Proof.
  induction es as [| [m v] es IH]; cbn; intros H; [repeat constructor; intros [] |].
  inversion H; subst. destruct (N.eqb_spec n m); cbn; [constructor; assumption |].
  constructor; [rewrite nset_keys; intros [-> | X]; contradiction | apply IH; assumption].
Qed.
Lemma nget_In n v es : NoDup (map fst es) -> (nget n es = Some v <-> In (n, v) es).
Proof.
  induction es as [| [m w] es IH]; cbn; intros H; [split; [discriminate | intros []] |].
  inversion H; subst. destruct (N.eqb_spec n m).
  - subst. split; [intros E; injection E as <-; left; reflexivity |]. intros [E | I]; [congruence |].
    exfalso. apply H2. apply (in_map fst) in I. exact I.
  - rewrite IH by assumption. split; [right; assumption |]. intros [E | I]; [congruence | exact I].
Qed.
Lemma nget_none n es : nget n es = None <-> ~ In n (map fst es).
Proof.
  induction es as [| [m w] es IH]; cbn; [split; auto |]. destruct (N.eqb_spec n m); [split; [discriminate | intros H; exfalso; auto] |].
  rewrite IH. split; intros H; [intros [E | I]; [congruence | auto] | auto].
Qed.

Lemma matching_pset n c d : forall es, matching content s d = map nf es ->
  matching content s (save_file content s n c d) = map nf (nset n c es).
Proof.
  induction d as [| [k v] d IH]; intros es E.
  - destruct es; [| discriminate]. unfold save_file, matching. cbn [pset filter fst]. rewrite glob_name by exact Hs. reflexivity.
  - unfold save_file, matching in *. cbn [pset filter fst] in *. destruct (glob_match s k) eqn:G.
    + destruct es as [| [m w] es]; [discriminate |]. cbn [map] in E. injection E as E1 E2 E3. cbn [fst snd] in *.
      destruct (String.eqb_spec (file_name s n) k) as [X | X].
      * cbn [filter fst]. rewrite G. assert (n = m) by (apply (name_inj s); [exact Hs | congruence]). subst.
        cbn [nset]. rewrite N.eqb_refl. cbn [map]. unfold nf at 1. cbn [fst snd]. f_equal. exact E3.
      * cbn [filter fst]. rewrite G. cbn [nset]. destruct (N.eqb_spec n m); [subst; congruence |].
        cbn [map]. subst. f_equal. apply IH. exact E3.
    + destruct (String.eqb_spec (file_name s n) k) as [X | X].
      * exfalso. subst k. rewrite glob_name in G by exact Hs. discriminate.
      * cbn [filter fst]. rewrite G. apply IH. exact E.
Qed.
Lemma after_entries saves : forall d es, matching content s d = map nf es -> NoDup (map fst es) ->
  exists es', matching content s (after_saves s saves d) = map nf es' /\ NoDup (map fst es') /\
    forall n, nget n es' = match last_saved n saves with Some c => Some c | None => nget n es end.
Proof.
  induction saves as [| [m c] l IH]; intros d es E N; cbn [after_saves last_saved].
  - exists es. auto.
  - destruct (IH (save_file content s m c d) (nset m c es)) as (es' & E1 & E2 & E3);
      [apply matching_pset; exact E | apply nset_nodup; exact N |].
    exists es'. split; [exact E1 |]. split; [exact E2 |]. intros n. rewrite E3. destruct (last_saved n l); [reflexivity |].
    rewrite nget_nset. destruct (N.eqb n m); reflexivity.
Qed.
Lemma last_saved_In n saves : last_saved n saves <> None <-> In n (map fst (saves : list entry)).
Proof.
  induction saves as [| [m c] l IH]; cbn [last_saved map fst]; [split; [congruence | intros []] |]. cbn [In].
  destruct (last_saved n l) eqn:E.
  - split; [intros _; right; apply IH; discriminate | discriminate].
  - destruct (N.eqb_spec n m).
    + split; [intros _; left; congruence | discriminate].
    + split; [congruence |]. intros [X | X]; [congruence |]. apply IH in X. congruence.
Qed.
Lemma after_all saves d : no_files s d -> exists es, matching content s (after_saves s saves d) = map nf es /\ NoDup (map fst es) /\
  forall n, nget n es = last_saved n saves.
Proof.
  intros H. destruct (after_entries saves d [] H (NoDup_nil _)) as (es & E1 & E2 & E3). exists es. split; [exact E1 |]. split; [exact E2 |].
  intros n. rewrite E3. cbn. destruct (last_saved n saves); reflexivity.
Qed.

(** The entries in increasing order. *)
Definition ele (a b : entry) : bool := N.leb (fst a) (fst b).
Definition ordered (es : list entry) : list entry := sort ele es.
Lemma ordered_perm es : Permutation (ordered es) es.
Proof. apply sort_perm. Qed.
Lemma ordered_sorted es : StronglySorted (fun a b => ele a b = true) (ordered es).
Proof.
  apply sort_sorted; unfold ele.
  - intros x y H. apply N.leb_gt in H. apply N.leb_le. lia.
  - intros x y z H1 H2. apply N.leb_le in H1, H2. apply N.leb_le. lia.
Qed.
Lemma ordered_lt es : NoDup (map fst es) -> StronglySorted N.lt (map fst (ordered es)).
Proof.
  intros N0. assert (N1 : NoDup (map fst (ordered es))).
  { apply (Permutation_NoDup (l := map fst es)); [| exact N0]. apply Permutation_map, Permutation_sym, ordered_perm. }
  pose proof (ordered_sorted es) as S. induction (ordered es) as [| a l IH]; [constructor |].
  inversion S; subst. cbn [map] in *. inversion N1; subst. constructor; [apply IH; assumption |].
  apply Forall_forall. intros x Hx. apply in_map_iff in Hx. destruct Hx as (b & <- & Hb).
  rewrite Forall_forall in H2. specialize (H2 b Hb). apply N.leb_le in H2.
  assert (fst a <> fst b) by (intros X; apply H3; rewrite X; apply in_map; exact Hb). lia.
Qed.
Lemma sorted_weak l : StronglySorted N.lt l -> StronglySorted (fun a b => N.leb a b = true) l.
Proof.
  induction 1 as [| a l S IH F]; constructor; [exact IH |]. eapply Forall_impl; [| exact F]. cbn. intros b Hb. apply N.leb_le. lia.
Qed.

Lemma ints_names es : ints content s (map nf es) = Some (map fst es).
Proof.
  induction es as [| [n c] es IH]; [reflexivity |]. cbn [map ints]. rewrite IH. unfold nf at 1 2. cbn [fst].
  rewrite parse by exact Hs. reflexivity.
Qed.
Lemma perm_names l es : Permutation l (map nf es) -> exists es', Permutation es' es /\ l = map nf es'.
Proof.
  intros P. apply Permutation_map_inv in P. destruct P as (es' & E & P). exists es'. split; [apply Permutation_sym; exact P | exact E].
Qed.
Lemma numbers_ok es l : Permutation l (map nf es) -> NoDup (map fst es) -> es <> [] ->
  saved_numbers content s l = Ok (Some (map fst (ordered es))).
Proof.
  intros P N0 NE. destruct (perm_names l es P) as (es' & P' & ->).
  assert (Q : Permutation (map fst (ordered es)) (map fst es')).
  { apply Permutation_map. eapply Permutation_trans; [apply ordered_perm | apply Permutation_sym; exact P']. }
  assert (Ssame : sort N.leb (map fst es') = map fst (ordered es)).
  { apply (sorted_unique (fun a b => N.leb a b = true)).
    - eapply Permutation_trans; [apply sort_perm | apply Permutation_sym; exact Q].
    - apply sort_sorted; [intros x y H; apply N.leb_gt in H; apply N.leb_le; lia | intros x y z H1 H2; apply N.leb_le in H1, H2; apply N.leb_le; lia].
    - apply sorted_weak, ordered_lt. exact N0.
    - intros x y _ _ H1 H2. apply N.leb_le in H1, H2. lia. }
  destruct es' as [| [n c] [| e es']].
  - apply Permutation_nil in P'. congruence.
  - cbn [map saved_numbers]. unfold nf at 1. cbn [fst]. rewrite runs_name by exact Hs. cbn [rev app]. rewrite int_pad6.
    cbn in Ssame. rewrite <- Ssame. reflexivity.
  - pose proof (ints_names ((n, c) :: e :: es')) as I. cbn [map] in I |- *. cbn [saved_numbers]. rewrite I. cbn [map] in Ssame. rewrite Ssame. reflexivity.
Qed.

Lemma str_leb_total x y : String.leb x y = false -> String.leb y x = true.
Proof.
  unfold String.leb. rewrite (String.compare_antisym x y). destruct (String.compare y x); cbn; congruence.
Qed.
Lemma str_leb_antisym x y : String.leb x y = true -> String.leb y x = true -> x = y.
Proof.
  unfold String.leb. rewrite (String.compare_antisym x y). destruct (String.compare y x) eqn:E; cbn; try congruence.
  intros _ _. symmetry. apply String.compare_eq_iff. exact E.
Qed.

Lemma files_ok es l : Permutation l (map nf es) -> NoDup (map fst es) ->
  (forall n m, In n (map fst es) -> In m (map fst es) -> String.length (pad6 n) = String.length (pad6 m)) ->
  sort (fun a b : string * content => String.leb (fst a) (fst b)) l = map nf (ordered es).
Proof.
  intros P N0 W.
  assert (Sl : StronglySorted (fun a b : string * content => String.leb (fst a) (fst b) = true) (map nf (ordered es))).
  { assert (I : forall a, In a (ordered es) -> In (fst a) (map fst es)) by (intros a Ha; apply in_map, (Permutation_in a (ordered_perm es)); exact Ha).
    pose proof (ordered_sorted es) as S. induction (ordered es) as [| a r IH]; [constructor |]. inversion S; subst. cbn [map].
    constructor; [apply IH; [intros b Hb; apply I; right; exact Hb | assumption] |].
    apply Forall_forall. intros x Hx. apply in_map_iff in Hx. destruct Hx as (b & <- & Hb). unfold nf. cbn [fst].
    rewrite name_leb by (apply W; apply I; [left; reflexivity | right; exact Hb]).
    rewrite Forall_forall in H2. apply H2. exact Hb. }
  assert (Q : Permutation (sort (fun a b : string * content => String.leb (fst a) (fst b)) l) (map nf (ordered es))).
  { eapply Permutation_trans; [apply sort_perm |]. eapply Permutation_trans; [exact P |]. apply Permutation_map, Permutation_sym, ordered_perm. }
  (* the sort of a list that is a permutation of a sorted one: insertion keeps order on these names *)
  destruct (perm_names l es P) as (es' & P' & ->).
  assert (G : forall es1, (forall a, In a es1 -> In (fst a) (map fst es)) ->
     sort (fun a b : string * content => String.leb (fst a) (fst b)) (map nf es1) = map nf (ordered es1)).
  { clear - W Hs. induction es1 as [| a r IH]; intros I; [reflexivity |]. cbn [map]. unfold sort, ordered in *. cbn [fold_right].
    rewrite IH by (intros b Hb; apply I; right; exact Hb).
    assert (J : forall r1, (forall b, In b r1 -> In (fst b) (map fst es)) ->
      insert (fun a b : string * content => String.leb (fst a) (fst b)) (nf a) (map nf r1) = map nf (insert ele a r1)).
    { induction r1 as [| b r1 IHr]; intros K; [reflexivity |]. cbn [map insert]. unfold nf at 1 2 3. cbn [fst snd].
      rewrite name_leb by (apply W; [apply I; left; reflexivity | apply K; left; reflexivity]).
      unfold ele at 1. destruct (N.leb (fst a) (fst b)); [reflexivity |]. cbn [map]. f_equal. apply IHr. intros c Hc. apply K. right. exact Hc. }
    apply J. intros b Hb. apply I. right. apply (Permutation_in b (sort_perm ele r)). exact Hb. }
  rewrite G.
  - f_equal. assert (N1 : NoDup (map fst es')) by (eapply Permutation_NoDup; [apply Permutation_map, Permutation_sym; exact P' | exact N0]).
    apply (sorted_unique (fun a b => ele a b = true)); [| apply ordered_sorted | apply ordered_sorted |].
    + eapply Permutation_trans; [apply ordered_perm |]. eapply Permutation_trans; [exact P' | apply Permutation_sym, ordered_perm].
    + intros [n c] [m d] Hx Hy H1 H2. unfold ele in *. cbn [fst] in *. apply N.leb_le in H1, H2. assert (n = m) by lia. subst m. f_equal.
      apply (Permutation_in _ (ordered_perm es')) in Hx, Hy. apply nget_In in Hx, Hy; try exact N1. congruence.
  - intros a Ha. apply in_map. apply (Permutation_in a P'). exact Ha.
Qed.

Lemma index_nth n es : NoDup (map fst es) -> match nget n es with
  | Some c => exists k, index_of n (map fst es) = Some k /\ nth_error (map nf es) k = Some (file_name s n, c)
  | None => index_of n (map fst es) = None
  end.
Proof.
  induction es as [| [m v] es IH]; intros N0; [reflexivity |]. cbn [nget map fst index_of]. inversion N0; subst.
  destruct (N.eqb_spec n m).
  - subst. exists O. split; reflexivity.
  - specialize (IH H2). destruct (nget n es).
    + destruct IH as (k & E1 & E2). exists (S k). rewrite E1. split; [reflexivity | exact E2].
    + rewrite IH. reflexivity.
Qed.
Lemma nget_ordered n es : NoDup (map fst es) -> nget n (ordered es) = nget n es.
Proof.
  intros N0. assert (N1 : NoDup (map fst (ordered es))).
  { apply (Permutation_NoDup (l := map fst es)); [| exact N0]. apply Permutation_map, Permutation_sym, ordered_perm. }
  destruct (nget n es) eqn:E.
  - apply nget_In; [exact N1 |]. apply nget_In in E; [| exact N0]. apply (Permutation_in _ (Permutation_sym (ordered_perm es))). exact E.
  - apply nget_none. intros H. apply nget_none in E. apply E.
    eapply Permutation_in; [| exact H]. apply Permutation_map, ordered_perm.
Qed.
Lemma nth_nat (l : list (string * content)) k : py_nth content l (Z.of_nat k) = match nth_error l k with Some f => Ok (OneFile content (snd f)) | None => Err IndexError end.
Proof.
  unfold py_nth. destruct (Z.ltb_spec (Z.of_nat k) 0); [lia |]. destruct (Z.ltb_spec (Z.of_nat k) 0); [lia |]. rewrite Nat2Z.id. reflexivity.
Qed.
Lemma nth_neg (l : list (string * content)) k : (0 < k)%nat -> py_nth content l (- Z.of_nat k) = match nth_error (rev l) (k - 1) with Some f => Ok (OneFile content (snd f)) | None => Err IndexError end.
Proof.
  intros K. unfold py_nth. destruct (Z.ltb_spec (- Z.of_nat k) 0); [| lia].
  destruct (Z.ltb_spec (- Z.of_nat k + Z.of_nat (List.length l)) 0).
  - assert (nth_error (rev l) (k - 1) = None) as ->; [| reflexivity]. apply nth_error_None. rewrite rev_length. lia.
  - replace (Z.to_nat (- Z.of_nat k + Z.of_nat (List.length l))) with (List.length l - k)%nat by lia.
    assert (E : nth_error (rev l) (k - 1) = nth_error l (List.length l - k)%nat).
    { destruct l as [| x l'] eqn:El; [cbn; destruct (k - 1)%nat; reflexivity |]. rewrite <- El in *. 
      assert (Hlen : (0 < List.length l)%nat) by (rewrite El; cbn; lia).
      rewrite (nth_error_nth' (rev l) x) by (rewrite rev_length; lia). rewrite (nth_error_nth' l x) by lia.
      rewrite rev_nth by lia. do 2 f_equal. lia. }
    rewrite E. reflexivity.
Qed.

Lemma read_ok saves d l1 l2 : no_files s d -> lists s (after_saves s saves d) l1 -> lists s (after_saves s saves d) l2 ->
  same_width saves -> saves <> [] ->
  exists ns, exactly_saved ns saves /\ saved_numbers content s l1 = Ok (Some ns) /\
    (forall n, read_saved content s (Some (Z.of_N n)) l1 l2 =
       Ok (match last_saved n saves with Some c => OneFile content c | None => EmptyDataset content end)) /\
    (forall k, (0 < k)%nat -> read_saved content s (Some (- Z.of_nat k)%Z) l1 l2 =
       match nth_error (rev ns) (k - 1) with
       | Some n => match last_saved n saves with Some c => Ok (OneFile content c) | None => Err IndexError end
       | None => Err IndexError
       end) /\
    (exists cs, read_saved content s None l1 l2 = Ok (AllFiles content cs) /\ map Some cs = map (fun n => last_saved n saves) ns).
Proof.
  intros D L1 L2 W NE. destruct (after_all saves d D) as (es & E1 & E2 & E3). unfold lists in *. rewrite E1 in L1, L2.
  assert (NEs : es <> []).
  { intros ->. destruct saves as [| [n c] r]; [congruence |]. specialize (E3 n). cbn [nget] in E3.
    assert (last_saved n ((n, c) :: r) <> None) by (apply last_saved_In; left; reflexivity). congruence. }
  assert (K : forall n, In n (map fst es) <-> In n (map fst saves)).
  { intros n. rewrite <- (last_saved_In n saves), <- E3. destruct (nget n es) eqn:G.
    - split; [discriminate |]. intros _. apply nget_In in G; [| exact E2]. apply (in_map fst) in G. exact G.
    - apply nget_none in G. split; [contradiction | congruence]. }
  pose proof (numbers_ok es l1 L1 E2 NEs) as Nums.
  assert (Fl : sort (fun a b : string * content => String.leb (fst a) (fst b)) l2 = map nf (ordered es)).
  { apply files_ok; [exact L2 | exact E2 |]. intros n m Hn Hm. apply W; apply K; assumption. }
  assert (l2 <> []) as NE2 by (intros ->; apply Permutation_nil in L2; destruct es; [congruence | discriminate]).
  assert (N1 : NoDup (map fst (ordered es))).
  { apply (Permutation_NoDup (l := map fst es)); [| exact E2]. apply Permutation_map, Permutation_sym, ordered_perm. }
  assert (NEo : map fst (ordered es) <> []).
  { intros X. apply map_eq_nil in X. pose proof (ordered_perm es) as P. rewrite X in P. apply Permutation_nil in P. congruence. }
  exists (map fst (ordered es)). split; [| split; [exact Nums | split; [| split]]].
  - split; [apply ordered_lt; exact E2 |]. intros n. rewrite <- K. split; intros H; (eapply Permutation_in; [| exact H]).
    + apply Permutation_map, ordered_perm.
    + apply Permutation_map, Permutation_sym, ordered_perm.
  - intros n. unfold read_saved. rewrite Nums. cbn [rbind]. rewrite Fl. destruct l2 as [| f2 l2]; [congruence |].
    destruct (map fst (ordered es)) as [| n0 ns] eqn:Mo; [congruence |]. rewrite <- Mo.
    destruct (Z.ltb_spec (Z.of_N n) 0); [lia |]. rewrite N2Z.id. rewrite <- E3, <- nget_ordered by exact E2.
    pose proof (index_nth n (ordered es)) as I. rewrite Mo in *. specialize (I N1). destruct (nget n (ordered es)).
    + destruct I as (k & I1 & I2). rewrite I1, nth_nat, I2. reflexivity.
    + rewrite I. reflexivity.
  - intros k Hk. unfold read_saved. rewrite Nums. cbn [rbind]. rewrite Fl. destruct l2 as [| f2 l2]; [congruence |].
    destruct (map fst (ordered es)) as [| n0 ns] eqn:Mo; [congruence |]. rewrite <- Mo.
    destruct (Z.ltb_spec (- Z.of_nat k) 0); [| lia]. rewrite nth_neg by exact Hk.
    rewrite <- !map_rev, !nth_error_map. destruct (nth_error (rev (ordered es)) (k - 1)) as [[m c] |] eqn:G; [| reflexivity].
    cbn [option_map fst nf snd]. apply nth_error_In in G. apply in_rev in G. apply (Permutation_in _ (ordered_perm es)) in G.
    apply nget_In in G; [| exact E2]. rewrite E3 in G. rewrite G. reflexivity.
  - exists (map snd (ordered es)). unfold read_saved. rewrite Nums. cbn [rbind]. rewrite Fl. destruct l2 as [| f2 l2]; [congruence |].
    split; [rewrite map_map; reflexivity |]. rewrite !map_map. apply map_ext_in. intros [n c] Hn. cbn [fst snd]. symmetry.
    rewrite <- E3. apply nget_In; [exact E2 |]. apply (Permutation_in _ (ordered_perm es)). exact Hn.
Qed.

Lemma numbers_any saves d l1 : no_files s d -> lists s (after_saves s saves d) l1 -> saves <> [] ->
  exists ns, exactly_saved ns saves /\ saved_numbers content s l1 = Ok (Some ns).
Proof.
  intros D L1 NE. destruct (after_all saves d D) as (es & E1 & E2 & E3). unfold lists in *. rewrite E1 in L1.
  assert (NEs : es <> []).
  { intros ->. destruct saves as [| [n c] r]; [congruence |]. specialize (E3 n). cbn [nget] in E3.
    assert (last_saved n ((n, c) :: r) <> None) by (apply last_saved_In; left; reflexivity). congruence. }
  exists (map fst (ordered es)). split; [| apply numbers_ok; assumption].
  split; [apply ordered_lt; exact E2 |]. intros n. rewrite <- (last_saved_In n saves), <- E3, <- nget_ordered by exact E2.
  destruct (nget n (ordered es)) eqn:G.
  - split; [discriminate |]. intros _. destruct (in_dec N.eq_dec n (map fst (ordered es))) as [I | I]; [exact I |]. apply nget_none in I. congruence.
  - apply nget_none in G. split; [contradiction | congruence].
Qed.
Lemma nothing_saved d l1 l2 iv : no_files s d -> lists s d l1 -> lists s d l2 ->
  saved_numbers content s l1 = Ok None /\ read_saved content s iv l1 l2 = Ok (NoFiles content).
Proof.
  unfold no_files, lists. intros -> P Q. apply Permutation_sym, Permutation_nil in P, Q. subst. split; reflexivity.
Qed.
End R.

Lemma below_million {content} (saves : list (N * content)) : (forall n, In n (map fst saves) -> (n < 10 ^ 6)%N) -> same_width saves.
Proof. intros H n m Hn Hm. rewrite !width6 by (apply H; assumption). reflexivity. Qed.

(** Witnesses. *)
Definition srf : scheme := {| pre := ""; prefix_ := "surface"; ext := "nc" |}.
Lemma million : let d := after_saves srf [(999999, "old"); (1000000, "new")]%N [] in
  saved_numbers string srf d = Ok (Some [999999; 1000000]%N) /\ read_saved string srf (Some 999999%Z) d d = Ok (OneFile string "new").
Proof. split; reflexivity. Qed.
