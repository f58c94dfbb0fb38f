(** Proofs for plots (C113). *)
From Coq Require Import Reals ZArith List Lia Lra Sorted.
From Verif Require Import Common Plot_model Plot_spec.
Import ListNotations.

Section P.
Variables data crater : Type.
Notation op := (op data crater).
Notation world := (world data crater).
Notation history := (history data crater).
Notation step := (step data crater).

(* --- files --- *)
Lemma file_put : forall A i (x : A) l, file i (put i x l) = Some (i, x).
Proof.
  intros A i x l. induction l as [|[j y] l IH]; cbn [put].
  - cbn [file]. now rewrite Nat.eqb_refl.
  - destruct (i <? j)%nat eqn:E1; cbn [file]; [now rewrite Nat.eqb_refl|].
    destruct (i =? j)%nat eqn:E2; cbn [file]; [now rewrite Nat.eqb_refl|]. now rewrite E2.
Qed.
Lemma file_put_other : forall A i k (x : A) l, k <> i -> file k (put i x l) = file k l.
Proof.
  intros A i k x l N. induction l as [|[j y] l IH]; cbn [put].
  - cbn [file]. destruct (Nat.eqb_spec k i); [contradiction|auto].
  - destruct (i <? j)%nat eqn:E1; [|destruct (i =? j)%nat eqn:E2]; cbn [file].
    + destruct (Nat.eqb_spec k i); [contradiction|auto].
    + apply Nat.eqb_eq in E2. subst j. destruct (Nat.eqb_spec k i); [contradiction|auto].
    + now rewrite IH.
Qed.
Lemma numbers_put : forall A i (x : A) l n, In n (numbers (put i x l)) <-> n = i \/ In n (numbers l).
Proof.
  intros A i x l n. unfold numbers. induction l as [|[j y] l IH]; cbn [put].
  - cbn. intuition.
  - destruct (i <? j)%nat eqn:E1; [|destruct (i =? j)%nat eqn:E2]; cbn [map fst In].
    + intuition.
    + apply Nat.eqb_eq in E2. subst j. intuition.
    + rewrite IH. intuition.
Qed.
Lemma ordered_put : forall A i (x : A) l, ordered l -> ordered (put i x l).
Proof.
  intros A i x l. unfold ordered, numbers. induction l as [|[j y] l IH]; intros H; cbn [put].
  - cbn. repeat constructor.
  - cbn [map fst] in H. inversion H as [|? ? H1 H2]; subst.
    destruct (i <? j)%nat eqn:E1; [|destruct (i =? j)%nat eqn:E2]; cbn [map fst].
    + apply Nat.ltb_lt in E1. constructor; [exact H|]. constructor; [exact E1|].
      eapply Forall_impl; [|exact H2]. intros a Ha. lia.
    + apply Nat.eqb_eq in E2. subst. now constructor.
    + apply Nat.ltb_ge in E1. apply Nat.eqb_neq in E2. constructor; [now apply IH|].
      apply Forall_forall. intros n Hn. apply (numbers_put A i x l) in Hn.
      destruct Hn as [-> | Hn]; [lia|]. rewrite Forall_forall in H2. now apply H2.
Qed.
Lemma file_In : forall A i (l : files A), In i (numbers l) <-> exists x, file i l = Some (i, x).
Proof.
  intros A i l. unfold numbers. induction l as [|[j y] l IH]; cbn.
  - split; [intros []|intros (x & H); discriminate].
  - destruct (Nat.eqb_spec i j) as [->|N].
    + split; [intros _; eauto|auto].
    + rewrite <- IH. intuition congruence.
Qed.
Lemma file_num : forall A i (l : files A) j y, file i l = Some (j, y) -> j = i.
Proof.
  intros A i l. induction l as [|[k z] l IH]; intros j y H; cbn in H; [discriminate|].
  destruct (Nat.eqb_spec i k) as [->|N]; [now inversion H|eauto].
Qed.
Lemma file_None : forall A i (l : files A), ~ In i (numbers l) <-> file i l = None.
Proof.
  intros A i l. rewrite file_In. destruct (file i l) as [[j y]|] eqn:E.
  - split; [|discriminate]. intros H. exfalso. apply H. pose proof (file_num _ _ _ _ _ E). subst. eauto.
  - split; auto. intros _ (x & H). discriminate.
Qed.
Lemma last_spec : forall A (l : files A), ordered l -> l <> [] ->
  exists n x, nth_error (rev l) 0 = Some (n, x) /\ last_number l = Some n /\ file n l = Some (n, x) /\
              In n (numbers l) /\ forall m, In m (numbers l) -> (m <= n)%nat.
Proof.
  intros A l H N. destruct (exists_last N) as (l' & [n x] & ->).
  exists n, x. unfold last_number. rewrite rev_unit. cbn [nth_error].
  assert (O : forall m, In m (numbers l') -> (m < n)%nat).
  { clear N. unfold ordered, numbers in *. induction l' as [|[j y] l' IH]; intros m; cbn; [intros []|].
    cbn [map fst app] in H. inversion H as [|? ? H1 H2]; subst.
    intros [<-|I].
    - rewrite Forall_forall in H2. apply H2. rewrite map_app. apply in_or_app. right. cbn. auto.
    - apply IH; auto. }
  assert (F : file n (l' ++ [(n, x)])%list = Some (n, x)).
  { clear H N. induction l' as [|[j y] l' IH]; cbn; [now rewrite Nat.eqb_refl|].
    destruct (Nat.eqb_spec n j) as [->|NE].
    - specialize (O j). cbn in O. specialize (O (or_introl eq_refl)). lia.
    - apply IH. intros m I. apply O. cbn. auto. }
  repeat split; auto.
  - unfold numbers. rewrite map_app. apply in_or_app. right. cbn. auto.
  - intros m I. unfold numbers in I. rewrite map_app in I. apply in_app_or in I. destruct I as [I|I].
    + specialize (O m I). lia.
    + cbn in I. destruct I as [<-|[]]. auto.
Qed.

(* --- histories --- *)
Lemma history_snoc : forall w l a, history w (l ++ [a])%list = step (history w l) a.
Proof. intros. unfold Plot_model.history. now rewrite fold_left_app. Qed.
Lemma surface_after_app : forall s0 l1 l2,
  surface_after data crater s0 (l1 ++ l2)%list = surface_after data crater (surface_after data crater s0 l1) l2.
Proof. intros s0 l1. revert s0. induction l1 as [|[s o e|i] l1 IH]; intros s0 l2; cbn; auto. Qed.

Lemma mem_history : forall w s0 l, fresh data crater w s0 -> w_surf _ _ (history w l) = surface_after data crater s0 l.
Proof.
  intros w s0 l (H & _). induction l as [|a l IH] using rev_ind; [exact H|].
  rewrite history_snoc, surface_after_app. destruct a; cbn; auto.
Qed.
Lemma ordered_history : forall w s0 l, fresh data crater w s0 -> ordered (f_surf _ _ (history w l)).
Proof.
  intros w s0 l (_ & H & _). induction l as [|a l IH] using rev_ind.
  - cbn. rewrite H. constructor.
  - rewrite history_snoc. destruct a; cbn; auto. now apply ordered_put.
Qed.
Lemma numbers_history : forall w s0 l n, fresh data crater w s0 ->
  (In n (numbers (f_surf _ _ (history w l))) <-> was_saved data crater l n).
Proof.
  intros w s0 l n (_ & H & _). unfold was_saved. induction l as [|a l IH] using rev_ind.
  - cbn. rewrite H. tauto.
  - rewrite history_snoc, in_app_iff. destruct a; cbn [Plot_model.step f_surf save].
    + cbn. rewrite IH. intuition discriminate.
    + rewrite numbers_put, IH. cbn. split; [intros [-> | ?]; auto|intros [?|[E|[]]]; [auto|left; congruence]].
Qed.
Lemma file_history : forall w s0 l n d, fresh data crater w s0 ->
  (file n (f_surf _ _ (history w l)) = Some (n, d) <-> state_saved data crater s0 l n d).
Proof.
  intros w s0 l n d F. revert d. induction l as [|a l IH] using rev_ind; intros d.
  - destruct F as (_ & H & _). cbn. rewrite H. split; [discriminate|].
    intros (l1 & l2 & E & _). destruct l1; discriminate.
  - rewrite history_snoc. destruct a as [s o e|i]; cbn [Plot_model.step f_surf save].
    + rewrite IH. split.
      * intros (l1 & l2 & -> & N & E). exists l1, (l2 ++ [Change _ _ s o e])%list. repeat split; auto.
        -- now rewrite <- app_assoc.
        -- unfold was_saved. rewrite in_app_iff. intros [I|[I|[]]]; [auto|discriminate].
      * intros (l1 & l2 & E & N & Ed). destruct (exists_last (l := l2)) as (l2' & b & E2).
        { intros ->. apply app_inj_tail in E. destruct E as (_ & E). discriminate. }
        subst l2. change (l1 ++ Save data crater n :: l2' ++ [b])%list with (l1 ++ (Save data crater n :: l2') ++ [b])%list in E.
        rewrite app_assoc in E. apply app_inj_tail in E. destruct E as (-> & <-).
        exists l1, l2'. repeat split; auto. intros I. apply N. unfold was_saved in *. apply in_or_app. auto.
    + destruct (Nat.eq_dec n i) as [->|NE].
      * rewrite file_put. rewrite (mem_history w s0 l F). split.
        -- intros [= <-]. exists l, []. repeat split; auto.
        -- intros (l1 & l2 & E & N & ->). f_equal. f_equal.
           destruct l2 as [|b l2].
           ++ apply app_inj_tail in E. destruct E as (-> & _). reflexivity.
           ++ exfalso. apply N. destruct (exists_last (l := b :: l2)) as (l2' & c & E2); [discriminate|].
              rewrite E2 in E |- *. change (l1 ++ Save data crater i :: l2' ++ [c])%list with (l1 ++ (Save data crater i :: l2') ++ [c])%list in E.
              rewrite app_assoc in E. apply app_inj_tail in E. destruct E as (_ & <-).
              unfold was_saved. apply in_or_app. right. cbn. auto.
      * rewrite file_put_other by exact NE. rewrite IH. split.
        -- intros (l1 & l2 & -> & N & E). exists l1, (l2 ++ [Save _ _ i])%list. repeat split; auto.
           ++ now rewrite <- app_assoc.
           ++ unfold was_saved. rewrite in_app_iff. intros [I|[I|[]]]; [auto|congruence].
        -- intros (l1 & l2 & E & N & Ed). destruct (exists_last (l := l2)) as (l2' & b & E2).
           { intros ->. apply app_inj_tail in E. destruct E as (_ & E). congruence. }
           subst l2. change (l1 ++ Save data crater n :: l2' ++ [b])%list with (l1 ++ (Save data crater n :: l2') ++ [b])%list in E.
           rewrite app_assoc in E. apply app_inj_tail in E. destruct E as (-> & <-).
           exists l1, l2'. repeat split; auto. intros I. apply N. unfold was_saved in *. apply in_or_app. auto.
Qed.

Lemma last_history : forall w s0 l n, fresh data crater w s0 ->
  (last_number (f_surf _ _ (history w l)) = Some n <-> last_interval data crater l n).
Proof.
  intros w s0 l n F. pose proof (ordered_history w s0 l F) as O.
  assert (forall m, In m (numbers (f_surf _ _ (history w l))) <-> was_saved data crater l m) as Hn
    by (intros m; now apply (numbers_history w s0)).
  destruct (f_surf _ _ (history w l)) as [|p fs] eqn:E.
  - cbn. split; [discriminate|]. intros (I & _). apply Hn in I. destruct I.
  - destruct (last_spec _ (p :: fs) O) as (k & x & _ & L & _ & I & M); [discriminate|].
    rewrite L. unfold last_interval. split.
    + intros [= <-]. split; [now apply Hn|]. intros m S. apply M. now apply Hn.
    + intros (S & B). apply Hn in I. apply Hn in S. f_equal. apply M in S. apply B in I. lia.
Qed.

(* --- what is shown --- *)
Lemma shown_last : forall w s0 l n, fresh data crater w s0 -> last_interval data crater l n ->
  surface_shown data crater (history w l) (Some (Z.of_nat n)) =
  Ok (surface_after data crater s0 l, Some (Z.of_nat n)).
Proof.
  intros w s0 l n F L. unfold surface_shown. apply (last_history w s0 l n F) in L. rewrite L, Z.eqb_refl.
  now rewrite (mem_history w s0 l F).
Qed.
Lemma nonempty_last : forall w s0 l n, fresh data crater w s0 -> was_saved data crater l n ->
  exists k, last_number (f_surf _ _ (history w l)) = Some k /\ f_surf _ _ (history w l) <> [].
Proof.
  intros w s0 l n F S. apply (numbers_history w s0 l n F) in S.
  pose proof (ordered_history w s0 l F) as O.
  destruct (f_surf _ _ (history w l)) as [|p fs] eqn:E; [destruct S|].
  destruct (last_spec _ (p :: fs) O) as (k & x & _ & L & _); [discriminate|].
  exists k. split; [exact L|discriminate].
Qed.
Lemma shown_earlier : forall w s0 l n d, fresh data crater w s0 -> state_saved data crater s0 l n d ->
  ~ last_interval data crater l n ->
  surface_shown data crater (history w l) (Some (Z.of_nat n)) = Ok (d, Some (Z.of_nat n)).
Proof.
  intros w s0 l n d F S NL. unfold surface_shown.
  assert (W : was_saved data crater l n).
  { destruct S as (l1 & l2 & -> & _). unfold was_saved. apply in_or_app. right. cbn. auto. }
  destruct (nonempty_last w s0 l n F W) as (k & L & NE). rewrite L.
  destruct (Z.eqb_spec (Z.of_nat n) (Z.of_nat k)) as [E|NK].
  - apply Nat2Z.inj in E. subst k. exfalso. apply NL. now apply (last_history w s0 l n F).
  - apply (file_history w s0 l n d F) in S. unfold read_files.
    destruct (f_surf _ _ (history w l)) as [|p fs] eqn:E; [contradiction|].
    assert ((Z.of_nat n <? 0)%Z = false) as -> by (apply Z.ltb_ge; lia).
    cbn [rbind]. rewrite Nat2Z.id. rewrite S. reflexivity.
Qed.
Lemma shown_end : forall w s0 l n d, fresh data crater w s0 -> last_interval data crater l n ->
  state_saved data crater s0 l n d ->
  surface_shown data crater (history w l) (Some (-1)%Z) = Ok (d, Some (Z.of_nat n)).
Proof.
  intros w s0 l n d F L S. unfold surface_shown.
  pose proof L as L0. apply (last_history w s0 l n F) in L0. rewrite L0.
  destruct (Z.eqb_spec (-1) (Z.of_nat n)); [lia|].
  apply (file_history w s0 l n d F) in S. pose proof (ordered_history w s0 l F) as O.
  unfold read_files. destruct (f_surf _ _ (history w l)) as [|p fs] eqn:E; [discriminate|].
  destruct (last_spec _ (p :: fs) O) as (k & x & N0 & Lk & Fk & _); [discriminate|].
  rewrite Lk in L0. inversion L0; subst k.
  change ((-1 <? 0)%Z) with true. cbn iota. change (Z.to_nat (- (-1) - 1)) with 0%nat. rewrite N0. cbn [rbind].
  rewrite Fk in S. inversion S; subst. reflexivity.
Qed.
Lemma shown_unsaved : forall w s0 l, fresh data crater w s0 ->
  (forall i, (forall m, ~ was_saved data crater l m) -> surface_shown data crater (history w l) (Some i) = Err TypeError) /\
  (forall n m, ~ was_saved data crater l n -> was_saved data crater l m ->
     surface_shown data crater (history w l) (Some (Z.of_nat n)) = Err AttributeError).
Proof.
  intros w s0 l F. split.
  - intros i N. unfold surface_shown.
    destruct (last_number (f_surf _ _ (history w l))) as [k|] eqn:E; [|reflexivity].
    apply (last_history w s0 l k F) in E. destruct E as (E & _). now apply N in E.
  - intros n m N M. destruct (nonempty_last w s0 l m F M) as (k & L & NE). unfold surface_shown. rewrite L.
    destruct (Z.eqb_spec (Z.of_nat n) (Z.of_nat k)) as [E|NK].
    + apply Nat2Z.inj in E. subst k. apply (last_history w s0 l n F) in L. destruct L as (L & _). contradiction.
    + unfold read_files. destruct (f_surf _ _ (history w l)) as [|p fs] eqn:E; [contradiction|].
      assert ((Z.of_nat n <? 0)%Z = false) as -> by (apply Z.ltb_ge; lia).
      rewrite Nat2Z.id. cbn [rbind]. rewrite <- (numbers_history w s0 l n F), E in N.
      apply file_None in N. now rewrite N.
Qed.

(** The plot of a simulation without an interval. *)
Variable six : Z -> string.
Lemma shown_now : forall (w : world) now,
  surface_shown data crater (save _ _ now w) (Some (Z.of_nat now)) = Ok (w_surf _ _ w, Some (Z.of_nat now)).
Proof.
  intros w now. unfold surface_shown. cbn [save f_surf w_surf].
  assert (NE : put now (w_surf data crater w) (f_surf _ _ w) <> []).
  { destruct (f_surf _ _ w) as [|[j y] r]; cbn [put]; [discriminate|].
    destruct (now <? j)%nat; [discriminate|destruct (now =? j)%nat; discriminate]. }
  unfold last_number. destruct (rev (put now (w_surf _ _ w) (f_surf _ _ w))) as [|[j y] r] eqn:E.
  - exfalso. apply NE. rewrite <- (rev_involutive (put _ _ _)), E. reflexivity.
  - destruct (Z.eqb_spec (Z.of_nat now) (Z.of_nat j)); [reflexivity|].
    unfold read_files. pose proof (file_put _ now (w_surf _ _ w) (f_surf _ _ w)) as FP.
    destruct (put now (w_surf _ _ w) (f_surf _ _ w)) as [|p q] eqn:EP; [contradiction|].
    assert ((Z.of_nat now <? 0)%Z = false) as -> by (apply Z.ltb_ge; lia).
    rewrite Nat2Z.id, FP. reflexivity.
Qed.
Lemma plot_now : forall has prefix ext now (w : world) st variable bar m width saved d,
  drawn has st variable bar m width = Ok d ->
  simulation_plot data crater six has prefix ext now w st variable None bar m width saved =
  (save _ _ now w,
   Ok (mkPicture data (w_surf _ _ w) d
         (if saved then Some (surface_file six prefix ext st (d_variable d) (Some (Z.of_nat now))) else None))) /\
  file now (f_surf _ _ (save _ _ now w)) = Some (now, w_surf _ _ w).
Proof.
  intros has prefix ext now w st variable bar m width saved d D. split.
  - unfold simulation_plot, surface_plot. rewrite shown_now. cbn [rbind fst snd]. rewrite D. reflexivity.
  - cbn [save f_surf]. apply file_put.
Qed.

(* --- counting --- *)
Lemma counting_earlier : forall (w : world) i fe, read_files i (f_emp _ _ w) = Ok (Some fe) ->
  is_current (f_emp _ _ w) i = false ->
  counting_shown data crater w (Some i) = Err AttributeError \/ counting_shown data crater w (Some i) = Err IndexError.
Proof.
  intros w i fe R C. unfold counting_shown. rewrite C, Bool.andb_false_r.
  destruct (read_files i (f_obs _ _ w)) as [fo|e] eqn:E; cbn [rbind].
  - rewrite R. cbn [rbind]. left. destruct (is_current (f_obs _ _ w) i); [reflexivity|].
    destruct fo as [[j c]|]; reflexivity.
  - right. unfold read_files in E. destruct (f_obs _ _ w); [discriminate|].
    destruct (i <? 0)%Z; [|discriminate]. destruct (nth_error _ _); inversion E; subst; reflexivity.
Qed.
Lemma counting_earlier_number : forall (w : world) n c, file n (f_emp _ _ w) = Some (n, c) ->
  last_number (f_emp _ _ w) <> Some n ->
  counting_shown data crater w (Some (Z.of_nat n)) = Err AttributeError.
Proof.
  intros w n c F L. destruct (counting_earlier w (Z.of_nat n) (n, c)) as [H|H]; auto.
  - unfold read_files. destruct (f_emp _ _ w); [discriminate|].
    assert ((Z.of_nat n <? 0)%Z = false) as -> by (apply Z.ltb_ge; lia). now rewrite Nat2Z.id, F.
  - unfold is_current. destruct (last_number (f_emp _ _ w)) as [k|]; [|reflexivity].
    apply Z.eqb_neq. intros E. apply Nat2Z.inj in E. congruence.
  - exfalso. clear F L. unfold counting_shown in H.
    assert (G : forall A (l : files A), exists f, read_files (Z.of_nat n) l = Ok f).
    { intros A l. unfold read_files. destruct l; eauto.
      assert ((Z.of_nat n <? 0)%Z = false) as -> by (apply Z.ltb_ge; lia). eauto. }
    destruct (G _ (f_obs _ _ w)) as (fo & Eo). destruct (G _ (f_emp _ _ w)) as (fe & Ee).
    rewrite Eo, Ee in H. cbn [rbind] in H.
    destruct (andb _ _); [discriminate|].
    destruct (is_current (f_obs _ _ w) (Z.of_nat n)); [|destruct fo as [[j d]|]];
      (destruct (is_current (f_emp _ _ w) (Z.of_nat n)); [discriminate|destruct fe; discriminate]).
Qed.
Lemma counting_end : forall (w : world), f_emp _ _ w <> [] ->
  counting_shown data crater w (Some (-1)%Z) = Err AttributeError \/
  counting_shown data crater w (Some (-1)%Z) = Err IndexError.
Proof.
  intros w N. assert (exists f, read_files (-1) (f_emp _ _ w) = Ok (Some f)) as (f & R).
  { unfold read_files. destruct (f_emp _ _ w) as [|p r]; [contradiction|].
    change (-1 <? 0)%Z with true. cbn iota. change (Z.to_nat (- (-1) - 1)) with 0%nat.
    destruct (rev (p :: r)) as [|q s] eqn:E.
    - exfalso. assert (p :: r = []) as H by (rewrite <- (rev_involutive (p :: r)), E; reflexivity). discriminate.
    - cbn. eauto. }
  apply (counting_earlier w (-1)%Z f R). unfold is_current. destruct (last_number (f_emp _ _ w)); [|reflexivity].
  apply Z.eqb_neq. lia.
Qed.
Lemma counting_observed : forall (w : world) n c, file n (f_obs _ _ w) = Some (n, c) ->
  last_number (f_obs _ _ w) <> Some n -> file n (f_emp _ _ w) = None -> last_number (f_emp _ _ w) <> Some n ->
  counting_shown data crater w (Some (Z.of_nat n)) = Ok (Some c, None, Some (Z.of_nat n)).
Proof.
  intros w n c F L G M. unfold counting_shown.
  assert (B : forall A (l : files A), last_number l <> Some n -> is_current l (Z.of_nat n) = false).
  { intros A l H. unfold is_current. destruct (last_number l); [|reflexivity]. apply Z.eqb_neq.
    intros E. apply Nat2Z.inj in E. congruence. }
  rewrite (B _ _ L), (B _ _ M). cbn [andb].
  assert (Rd : forall A (l : files A), read_files (Z.of_nat n) l = Ok (file n l)).
  { intros A l. unfold read_files. destruct l; auto.
    assert ((Z.of_nat n <? 0)%Z = false) as -> by (apply Z.ltb_ge; lia). now rewrite Nat2Z.id. }
  rewrite !Rd, F, G. reflexivity.
Qed.
Lemma counting_current : forall (w : world) n,
  counting_shown data crater w None = Ok (Some (w_obs _ _ w), Some (w_emp _ _ w), None) /\
  (last_number (f_obs _ _ w) = Some n -> last_number (f_emp _ _ w) = Some n ->
   counting_shown data crater w (Some (Z.of_nat n)) = Ok (Some (w_obs _ _ w), Some (w_emp _ _ w), Some (Z.of_nat n))).
Proof.
  intros w n. split; [reflexivity|]. intros O E. unfold counting_shown, is_current. rewrite O, E, Z.eqb_refl. reflexivity.
Qed.

Lemma counting_same_file : forall has prefix own ext (w : world) st st' variable i bar m width saved c1 c2 c3 lw a b,
  counting_plot data crater six has prefix own ext w st variable i bar m width saved c1 c2 c3 lw = Ok a ->
  counting_plot data crater six has prefix own ext w st' variable i bar m width saved c1 c2 c3 lw = Ok b ->
  c_file _ _ a = c_file _ _ b /\ c_layers _ _ a = c_layers _ _ b.
Proof.
  intros has prefix own ext w st st' variable i bar m width saved c1 c2 c3 lw a b. unfold counting_plot.
  destruct (counting_shown data crater w i) as [[[obs emp] i']|e]; cbn [rbind]; [|discriminate].
  destruct (surface_plot data crater six has prefix ext w st _ _ _ _ _ _ _) as [p|]; cbn [rbind]; [|discriminate].
  destruct (surface_plot data crater six has prefix ext w st' _ _ _ _ _ _ _) as [q|]; cbn [rbind]; [|discriminate].
  intros Ha Hb. inversion Ha. inversion Hb. cbn. split; reflexivity.
Qed.

(* --- layers --- *)
Lemma layers_look : forall ec oc bc obs emp lw,
  map (look crater) (layers crater ec oc bc obs emp lw) = (wanted crater ec emp false ++ wanted crater oc obs false ++ wanted crater bc obs true)%list.
Proof.
  intros ec oc bc obs emp lw. unfold layers, add_layer, wanted.
  destruct ec; destruct oc; destruct bc; destruct emp as [[|]|]; destruct obs as [[|]|]; reflexivity.
Qed.
Lemma layers_width : forall ec oc bc obs emp lw,
  match layers crater ec oc bc obs emp (Some lw) with
  | [] => True
  | a :: r => l_width _ a = lw /\ forall b, In b r -> l_width _ b = 0.1%R
  end.
Proof.
  intros ec oc bc obs emp lw. unfold layers, add_layer.
  destruct ec; destruct oc; destruct bc; destruct emp as [[|]|]; destruct obs as [[|]|]; cbn;
    try exact I; (split; [reflexivity|]); intros b H; repeat (destruct H as [<-|H]; [reflexivity|]); destruct H.
Qed.
End P.

(* --- the drawing --- *)
Lemma drawn_ok : forall has variable bar m width,
  match variable with Some v => has v = true | None => True end ->
  drawn has Map variable bar (Some m) width =
    Ok (mkDrawing (Some match variable with Some v => v | None => "face_elevation"%string end) false bar (Rmax m width)) /\
  drawn has Hillshade variable bar (Some m) width =
    Ok (mkDrawing variable true (match variable with Some _ => bar | None => false end) (Rmax m width)).
Proof.
  intros has variable bar m width H. unfold drawn. destruct variable as [v|]; [rewrite H|]; cbn; split; try reflexivity;
    destruct bar; reflexivity.
Qed.
Lemma drawn_missing : forall has st v bar m width, has v = false -> drawn has st (Some v) bar m width = Err ValueError.
Proof. intros. unfold drawn. now rewrite H. Qed.
Lemma drawn_other : forall has s variable bar m width,
  (forall v, variable = Some v -> has v = true) ->
  drawn has (Other s) variable bar m width = Err (if bar then UnboundLocalError else ValueError).
Proof.
  intros has s variable bar m width H. unfold drawn. destruct variable as [v|]; [rewrite (H v eq_refl)|]; destruct bar; reflexivity.
Qed.
Lemma drawn_minimum : forall has st variable bar width, exists e, drawn has st variable bar None width = Err e.
Proof.
  intros has st variable bar width. unfold drawn. destruct variable as [v|]; [destruct (has v)|];
    destruct st; destruct bar; cbn; eauto.
Qed.

(* --- names --- *)
Lemma app_inv_l : forall a b c : string, (a ++ b = a ++ c)%string -> b = c.
Proof. induction a; cbn; intros b c H; [exact H|]. inversion H. auto. Qed.
Lemma str_length_app : forall a b : string, String.length (a ++ b) = (String.length a + String.length b)%nat.
Proof. induction a; cbn; intros b; auto. Qed.
Lemma app_inv_r : forall c a b : string, (a ++ c = b ++ c)%string -> a = b.
Proof.
  intros c. induction a as [|x a IH]; intros b H.
  - destruct b as [|y b]; [reflexivity|]. exfalso. apply (f_equal String.length) in H.
    rewrite !str_length_app in H. cbn in H. lia.
  - destruct b as [|y b].
    + exfalso. apply (f_equal String.length) in H. rewrite !str_length_app in H. cbn in H. lia.
    + cbn in H. inversion H. f_equal. auto.
Qed.
Lemma str_app_assoc : forall a b c : string, ((a ++ b) ++ c = a ++ (b ++ c))%string.
Proof. induction a; cbn; intros; auto. now rewrite IHa. Qed.
Lemma files_same_interval : forall six prefix ext st st' v v' i,
  (st = Map \/ st = Hillshade) -> (st' = Map \/ st' = Hillshade) ->
  surface_file six prefix ext st v i = surface_file six prefix ext st' v' i -> st = st' /\ v = v'.
Proof.
  intros six prefix ext st st' v v' i S S' H. unfold surface_file in H.
  apply app_inv_l in H. apply app_inv_l in H.
  rewrite <- !str_app_assoc in H. do 3 apply app_inv_r in H.
  destruct S as [-> | ->]; destruct S' as [-> | ->]; cbn in H; try discriminate; (split; [reflexivity|]);
    destruct v, v'; try discriminate; try reflexivity; inversion H; reflexivity.
Qed.
Lemma files_intervals : forall six prefix ext st v i j, (forall a b, six a = six b -> a = b) ->
  surface_file six prefix ext st v (Some i) = surface_file six prefix ext st v (Some j) -> i = j.
Proof.
  intros six prefix ext st v i j Inj H. unfold surface_file in H.
  do 4 apply app_inv_l in H. rewrite <- !str_app_assoc in H. do 2 apply app_inv_r in H. now apply Inj.
Qed.

(* --- the scale bar --- *)
Open Scope R_scope.
Lemma fold_max : forall l x, let m := fold_left Z.max l x in In m (x :: l) /\ forall y, In y (x :: l) -> (y <= m)%Z.
Proof.
  induction l as [|a l IH]; intros x; cbn -[Z.max In].
  - split; [now left|]. intros y [<-|[]]. lia.
  - destruct (IH (Z.max x a)) as (I & B). split.
    + destruct I as [I|I]; [|right; right; exact I].
      rewrite <- I. destruct (Z.max_spec x a) as [(_ & ->)|(_ & ->)]; [right; left|left]; reflexivity.
    + intros y [<-|[<-|Hy]].
      * specialize (B (Z.max x a) (or_introl eq_refl)). lia.
      * specialize (B (Z.max x a) (or_introl eq_refl)). lia.
      * apply B. now right.
Qed.
Lemma scale_spec : forall xmax v, scale_length xmax = Ok v ->
  In v nice_values /\ IZR v <= xmax / 2 / sqrt 2 /\
  forall u, In u nice_values -> IZR u <= xmax / 2 / sqrt 2 -> (u <= v)%Z.
Proof.
  intros xmax v H. unfold scale_length, largest in H.
  destruct (filter _ nice_values) as [|x r] eqn:E; [discriminate|]. inversion H as [Hv]. clear H.
  destruct (fold_max r x) as (I & B). cbn zeta in *. rewrite Hv in *.
  rewrite <- E in I. apply filter_In in I. destruct I as (I1 & I2).
  destruct (Rle_dec (IZR v) (xmax / 2 / sqrt 2)); [|discriminate]. repeat split; auto.
  intros u U1 U2. apply B. rewrite <- E. apply filter_In. split; auto.
  destruct (Rle_dec (IZR u) (xmax / 2 / sqrt 2)); [reflexivity|contradiction].
Qed.
Lemma nice_least : forall v, In v nice_values -> (1 <= v)%Z.
Proof. intros v H. cbn in H. repeat (destruct H as [<-|H]; [lia|]). destruct H. Qed.
Lemma scale_fails : forall xmax, scale_length xmax = Err ValueError <-> xmax / 2 / sqrt 2 < 1.
Proof.
  intros xmax. unfold scale_length, largest.
  destruct (filter _ nice_values) as [|x r] eqn:E.
  - split; auto. intros _. apply Rnot_le_lt. intros L.
    assert (In 1%Z (filter (fun v => if Rle_dec (IZR v) (xmax / 2 / sqrt 2) then true else false) nice_values)) as I.
    { apply filter_In. split; [cbn; auto|]. destruct (Rle_dec 1 (xmax / 2 / sqrt 2)); [reflexivity|contradiction]. }
    rewrite E in I. destruct I.
  - split; [discriminate|]. intros L. exfalso.
    assert (In x (x :: r)) as I by (now left). rewrite <- E in I. apply filter_In in I. destruct I as (I1 & I2).
    destruct (Rle_dec (IZR x) (xmax / 2 / sqrt 2)) as [G|]; [|discriminate].
    apply nice_least in I1. apply IZR_le in I1. lra.
Qed.
Lemma scale_inside : forall s v, 0 < s -> scale_length s = Ok v ->
  let '(x, y, wd, h) := scale_rectangle (- s) s (- s) s v in
  wd = IZR v /\ 0 < h /\ 0 <= x /\ x + wd < s /\ - s < y /\ y + h < 0.
Proof.
  intros s v P H. apply scale_spec in H. destruct H as (I & L & _). apply nice_least in I. apply IZR_le in I.
  assert (Q : 1.4 < sqrt 2).
  { rewrite <- (sqrt_square 1.4) by lra. apply sqrt_lt_1; lra. }
  assert (L' : IZR v <= s / 2 / 1.4).
  { eapply Rle_trans; [exact L|]. unfold Rdiv. apply Rmult_le_compat_l; [lra|]. apply Rinv_le_contravar; lra. }
  unfold scale_rectangle. cbn zeta. repeat split; lra.
Qed.
Lemma scale_told : forall v, In v nice_values ->
  match scale_text v with (k, Metres) => k = v | (k, Kilometres) => (k * 1000)%Z = v end.
Proof. intros v H. cbn in H. repeat (destruct H as [<-|H]; [reflexivity|]). destruct H. Qed.

(* --- more on intervals and files --- *)
Section More.
Variables data crater : Type.
Variable six : Z -> string.
Notation world := (world data crater).
Notation history := (history data crater).
Lemma put_length A i (x : A) l : (List.length (put i x l) <= S (List.length l))%nat.
Proof. induction l as [|[j y] l IH]; cbn [put]; [cbn; lia|]. destruct (i <? j)%nat, (i =? j)%nat; cbn in *; lia. Qed.
Lemma history_length : forall w s0 l, fresh data crater w s0 -> (List.length (f_surf _ _ (history w l)) <= List.length l)%nat.
Proof.
  intros w s0 l F. induction l as [|a l IH] using rev_ind.
  - destruct F as (_ & F & _). cbn. rewrite F. cbn. lia.
  - unfold Plot_model.history in *. rewrite fold_left_app, app_length. cbn [List.length fold_left].
    destruct a; cbn [step f_surf save]; [lia|]. pose proof (put_length _ i (w_surf _ _ (fold_left (step data crater) l w)) (f_surf _ _ (fold_left (step data crater) l w))). lia.
Qed.
Lemma shown_too_early : forall w s0 l i m, fresh data crater w s0 -> was_saved data crater l m ->
  (i < - Z.of_nat (List.length l))%Z -> surface_shown data crater (history w l) (Some i) = Err IndexError.
Proof.
  intros w s0 l i m F M L. destruct (nonempty_last data crater w s0 l m F M) as (k & K & NE). unfold surface_shown. rewrite K.
  destruct (Z.eqb_spec i (Z.of_nat k)); [lia|]. pose proof (history_length w s0 l F) as H. unfold read_files.
  destruct (f_surf _ _ (history w l)) as [|p fs]; [contradiction|].
  assert ((i <? 0)%Z = true) as -> by (apply Z.ltb_lt; lia).
  assert (nth_error (rev (p :: fs)) (Z.to_nat (- i - 1)) = None) as ->.
  { apply nth_error_None. rewrite rev_length. lia. }
  reflexivity.
Qed.
Lemma saved_lists : forall n (w : world),
  (w_obs _ _ w <> [] -> file n (f_obs _ _ (save _ _ n w)) = Some (n, w_obs _ _ w)) /\
  (w_emp _ _ w <> [] -> file n (f_emp _ _ (save _ _ n w)) = Some (n, w_emp _ _ w)) /\
  (w_obs _ _ w = [] -> f_obs _ _ (save _ _ n w) = f_obs _ _ w) /\
  (w_emp _ _ w = [] -> f_emp _ _ (save _ _ n w) = f_emp _ _ w) /\
  (forall m, m <> n -> file m (f_surf _ _ (save _ _ n w)) = file m (f_surf _ _ w) /\
     file m (f_obs _ _ (save _ _ n w)) = file m (f_obs _ _ w) /\ file m (f_emp _ _ (save _ _ n w)) = file m (f_emp _ _ w)).
Proof.
  intros n w. cbn [save f_obs f_emp f_surf]. unfold put_craters.
  split; [|split; [|split; [|split]]].
  - intros N. destruct (w_obs _ _ w); [contradiction|apply file_put].
  - intros N. destruct (w_emp _ _ w); [contradiction|apply file_put].
  - intros ->. reflexivity.
  - intros ->. reflexivity.
  - intros m N. destruct (w_obs _ _ w), (w_emp _ _ w); rewrite ?file_put_other by exact N; auto.
Qed.
Lemma plot_saved : forall has prefix ext w s0 l st variable bar mn width n d dr f, fresh data crater w s0 ->
  state_saved data crater s0 l n d -> drawn has st variable bar mn width = Ok dr ->
  (~ last_interval data crater l n ->
   surface_plot data crater six has prefix ext (history w l) st variable (Some (Z.of_nat n)) bar mn width true f =
   Ok (mkPicture data d dr (Some (surface_file six prefix ext st (d_variable dr) (Some (Z.of_nat n)))))) /\
  (last_interval data crater l n ->
   surface_plot data crater six has prefix ext (history w l) st variable (Some (-1)%Z) bar mn width true f =
   Ok (mkPicture data d dr (Some (surface_file six prefix ext st (d_variable dr) (Some (Z.of_nat n)))))).
Proof.
  intros has prefix ext w s0 l st variable bar mn width n d dr f F S D. unfold surface_plot. split; intros L.
  - rewrite (shown_earlier data crater w s0 l n d F S L). cbn [rbind fst snd]. rewrite D. reflexivity.
  - rewrite (shown_end data crater w s0 l n d F L S). cbn [rbind fst snd]. rewrite D. reflexivity.
Qed.
Lemma counting_none : forall (w : world) n, file n (f_obs _ _ w) = None -> file n (f_emp _ _ w) = None ->
  last_number (f_obs _ _ w) <> Some n -> last_number (f_emp _ _ w) <> Some n ->
  counting_shown data crater w (Some (Z.of_nat n)) = Ok (None, None, Some (Z.of_nat n)).
Proof.
  intros w n F G L M. unfold counting_shown.
  assert (B : forall A (l : files A), last_number l <> Some n -> is_current l (Z.of_nat n) = false).
  { intros A l H. unfold is_current. destruct (last_number l); [|reflexivity]. apply Z.eqb_neq.
    intros E. apply Nat2Z.inj in E. congruence. }
  rewrite (B _ _ L), (B _ _ M). cbn [andb].
  assert (Rd : forall A (l : files A), read_files (Z.of_nat n) l = Ok (file n l)).
  { intros A l. unfold read_files. destruct l; auto.
    assert ((Z.of_nat n <? 0)%Z = false) as -> by (apply Z.ltb_ge; lia). now rewrite Nat2Z.id. }
  rewrite !Rd, F, G. reflexivity.
Qed.
Lemma counting_plot_now : forall has prefix own ext (w : world) st variable bar mn width saved ec oc bc lw dr,
  drawn has st variable bar mn width = Ok dr ->
  exists p, counting_plot data crater six has prefix own ext w st variable None bar mn width saved ec oc bc lw = Ok p /\
    c_data _ _ p = w_surf _ _ w /\
    map (look crater) (c_layers _ _ p) = (wanted crater ec (Some (w_emp _ _ w)) false ++ wanted crater oc (Some (w_obs _ _ w)) false
                                  ++ wanted crater bc (Some (w_obs _ _ w)) true)%list /\
    c_file _ _ p = (if saved then Some (counting_file six prefix own ext st variable None) else None).
Proof.
  intros has prefix own ext w st variable bar mn width saved ec oc bc lw dr D. unfold counting_plot. cbn [counting_shown rbind].
  unfold surface_plot. cbn [surface_shown rbind fst snd]. rewrite D. cbn [rbind]. eexists. split; [reflexivity|].
  cbn [c_data c_layers c_file p_data]. split; [reflexivity|]. split; [apply layers_look|reflexivity].
Qed.
Lemma counting_plot_end : forall has prefix own ext (w : world) st variable bar mn width saved ec oc bc lw dr n c d k,
  ordered (f_obs _ _ w) ->
  drawn has st variable bar mn width = Ok dr -> f_emp _ _ w = [] -> last_number (f_obs _ _ w) = Some n ->
  file n (f_obs _ _ w) = Some (n, c) -> last_number (f_surf _ _ w) = Some k -> k <> n -> file n (f_surf _ _ w) = Some (n, d) ->
  exists p, counting_plot data crater six has prefix own ext w st variable (Some (-1)%Z) bar mn width saved ec oc bc lw = Ok p /\
    c_data _ _ p = d /\
    map (look crater) (c_layers _ _ p) = (wanted crater oc (Some c) false ++ wanted crater bc (Some c) true)%list /\
    c_file _ _ p = (if saved then Some (counting_file six prefix own ext st variable (Some (Z.of_nat n))) else None).
Proof.
  intros has prefix own ext w st variable bar mn width saved ec oc bc lw dr n c d k O D E L F K NK G.
  unfold counting_plot. unfold counting_shown. unfold is_current at 1. rewrite L.
  assert ((Z.of_nat n =? -1)%Z = false) as -> by (apply Z.eqb_neq; lia). cbn [andb].
  assert (is_current (f_obs _ _ w) (-1) = false) as -> by (unfold is_current; rewrite L; apply Z.eqb_neq; lia).
  rewrite E. cbn [is_current last_number rev read_files].
  assert (read_files (-1) (f_obs _ _ w) = Ok (Some (n, c))) as ->.
  { unfold read_files. destruct (f_obs _ _ w) as [|q r] eqn:Q; [discriminate|].
    change ((-1 <? 0)%Z) with true. cbn iota. change (Z.to_nat (- (-1) - 1)) with 0%nat.
    destruct (last_spec _ (q :: r) O) as (k' & x & N0 & Lk & Fk & _); [discriminate|].
    rewrite L in Lk. injection Lk as <-. rewrite F in Fk. injection Fk as <-. rewrite N0. reflexivity. }
  cbn [rbind]. unfold surface_plot, surface_shown. rewrite K.
  assert ((Z.of_nat n =? Z.of_nat k)%Z = false) as -> by (apply Z.eqb_neq; lia).
  assert (read_files (Z.of_nat n) (f_surf _ _ w) = Ok (Some (n, d))) as ->.
  { unfold read_files. destruct (f_surf _ _ w); [discriminate|].
    assert ((Z.of_nat n <? 0)%Z = false) as -> by (apply Z.ltb_ge; lia). now rewrite Nat2Z.id, G. }
  cbn [rbind fst snd]. rewrite D. cbn [rbind]. eexists. split; [reflexivity|].
  cbn [c_data c_layers c_file p_data]. split; [reflexivity|]. split; [|reflexivity].
  rewrite layers_look. unfold wanted at 1. destruct ec; reflexivity.
Qed.
End More.
Lemma round_nice : nice_values = round_lengths. Proof. reflexivity. Qed.
Lemma scale_unit v : snd (scale_text v) = Kilometres <-> (1000 <= v)%Z.
Proof. unfold scale_text. destruct (Z.ltb_spec v 1000); cbn; split; intros; try discriminate; try reflexivity; lia. Qed.
