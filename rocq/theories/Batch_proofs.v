(** Proofs for C114. *)
From Coq Require Import List Bool Arith Permutation Lia.
From Verif Require Import Sorting Batch_model Batch_spec.
Import ListNotations.

Lemma file_put i l fs j m : file (put i l fs) j m <-> (j = i /\ m = l) \/ (j <> i /\ file fs j m).
Proof.
  unfold file, put. cbn [In]. rewrite filter_In. cbn [fst].
  rewrite negb_true_iff, Nat.eqb_neq. split.
  - intros [E | [H N]]; [left; injection E; auto | right; auto].
  - intros [[-> ->] | [N H]]; auto.
Qed.

Lemma file_write i l fs j m : file (write_file i l fs) j m <->
  (j = i /\ l <> [] /\ m = to_xarray l) \/ ((j <> i \/ l = []) /\ file fs j m).
Proof.
  unfold write_file. destruct l as [|c l]; [|rewrite file_put].
  - split; [auto|]. intros [(_ & N & _) | (_ & F)]; [elim N; reflexivity | exact F].
  - split.
    + intros [[-> ->] | [N F]]; [left; repeat split; discriminate | right; auto].
    + intros [(-> & _ & ->) | ([N | N] & F)]; [left; auto | right; auto | discriminate N].
Qed.

Lemma write_other i l fs j : j <> i -> same_file fs (write_file i l fs) j.
Proof.
  intros N m. rewrite file_write. split; [intros [(-> & _) | (_ & F)]; [elim N; reflexivity | exact F] | auto].
Qed.
Lemma write_none i fs j : same_file fs (write_file i [] fs) j.
Proof. intro m. reflexivity. Qed.
Lemma write_holds i l fs : l <> [] -> holds (write_file i l fs) i l.
Proof.
  intro N. split.
  - exists (to_xarray l). split; [apply file_write; auto | apply sort_perm].
  - intros m F. apply file_write in F. destruct F as [(_ & _ & ->) | ([N' | N'] & _)];
      [apply sort_perm | elim N'; reflexivity | contradiction].
Qed.
Lemma same_trans a b c i : same_file a b i -> same_file b c i -> same_file a c i.
Proof. intros A B l. rewrite (B l). apply A. Qed.
Lemma same_holds a b i cs : same_file a b i -> holds a i cs -> holds b i cs.
Proof.
  intros S [(l & F & P) A]. split; [exists l; split; [apply S; exact F | exact P]|].
  intros m M. apply A, S, M.
Qed.

Lemma turn_interval t s : interval (turn t s) = interval s + 1. Proof. reflexivity. Qed.
Lemma turn_e t s : e_files (turn t s) = write_file (interval s + 1) (fst t) (e_files s). Proof. reflexivity. Qed.
Lemma turn_o t s : o_files (turn t s) = write_file (interval s + 1) (snd t) (o_files s). Proof. reflexivity. Qed.

Definition turns ts s := fold_left (fun s t => turn t s) ts s.

Lemma turns_interval ts : forall s, interval (turns ts s) = interval s + length ts.
Proof. induction ts as [|t r IH]; intro s; cbn [turns fold_left length]; [lia|]. fold (turns r (turn t s)). rewrite IH, turn_interval. lia. Qed.

Lemma turns_early ts : forall s j, j <= interval s ->
  same_file (e_files s) (e_files (turns ts s)) j /\ same_file (o_files s) (o_files (turns ts s)) j.
Proof.
  induction ts as [|t r IH]; intros s j L; [split; intro; reflexivity|].
  change (turns (t :: r) s) with (turns r (turn t s)).
  destruct (IH (turn t s) j) as [A B]; [rewrite turn_interval; lia|].
  split; (eapply same_trans; [|eassumption]); [rewrite turn_e | rewrite turn_o]; apply write_other; lia.
Qed.
Lemma turns_late ts : forall s j, interval s + length ts < j ->
  same_file (e_files s) (e_files (turns ts s)) j /\ same_file (o_files s) (o_files (turns ts s)) j.
Proof.
  induction ts as [|t r IH]; intros s j L; [split; intro; reflexivity|].
  change (turns (t :: r) s) with (turns r (turn t s)). cbn [length] in L.
  destruct (IH (turn t s) j) as [A B]; [rewrite turn_interval; lia|].
  split; (eapply same_trans; [|eassumption]); [rewrite turn_e | rewrite turn_o]; apply write_other; lia.
Qed.

Lemma turns_nth ts : forall s k cs seen, nth_error ts k = Some (cs, seen) ->
  (cs <> [] -> holds (e_files (turns ts s)) (interval s + k + 1) cs) /\
  (cs = [] -> same_file (e_files s) (e_files (turns ts s)) (interval s + k + 1)) /\
  (seen <> [] -> holds (o_files (turns ts s)) (interval s + k + 1) seen) /\
  (seen = [] -> same_file (o_files s) (o_files (turns ts s)) (interval s + k + 1)).
Proof.
  induction ts as [|t r IH]; intros s [|k] cs seen H; try discriminate H.
  - injection H as ->. change (turns ((cs, seen) :: r) s) with (turns r (turn (cs, seen) s)).
    destruct (turns_early r (turn (cs, seen) s) (interval s + 0 + 1)) as [A B]; [rewrite turn_interval; lia|].
    rewrite turn_e in A. rewrite turn_o in B. cbn [fst snd] in A, B.
    replace (interval s + 1) with (interval s + 0 + 1) in A, B by lia.
    repeat split.
    all: try (intro N; eapply same_holds; [exact A | apply write_holds; exact N]).
    all: try (intro N; eapply same_holds; [exact B | apply write_holds; exact N]).
    all: try (apply (same_trans _ _ _ _ (write_none _ _ _)); subst; assumption).
    + apply (same_holds _ _ _ _ A (write_holds _ _ _ H)).
    + apply (same_holds _ _ _ _ A (write_holds _ _ _ H)).
    + subst cs. apply A.
    + subst cs. apply A.
    + apply (same_holds _ _ _ _ B (write_holds _ _ _ H)).
    + apply (same_holds _ _ _ _ B (write_holds _ _ _ H)).
    + subst seen. apply B.
    + subst seen. apply B.
  - change (turns (t :: r) s) with (turns r (turn t s)).
    destruct (IH (turn t s) k cs seen H) as (A & B & C & D).
    rewrite turn_interval in A, B, C, D.
    replace (interval s + 1 + k + 1) with (interval s + S k + 1) in A, B, C, D by lia.
    split; [exact A|]. split; [|split; [exact C|]]; intro E.
    + apply (same_trans _ (e_files (turn t s))); [rewrite turn_e; apply write_other; lia | apply B, E].
    + apply (same_trans _ (o_files (turn t s))); [rewrite turn_o; apply write_other; lia | apply D, E].
Qed.

Definition before (s : sim) : sim := let s1 := start s in if is_new s1 then save Both s1 else s1.
Lemma run_turns ts s : run ts s = turns ts (before s). Proof. reflexivity. Qed.
Lemma before_interval s : interval (before s) = first_interval s.
Proof. unfold before, start, first_interval. destruct (started s); cbn; destruct (is_new s); reflexivity. Qed.
Lemma before_files s j : j <> first_interval s ->
  same_file (e_files s) (e_files (before s)) j /\ same_file (o_files s) (o_files (before s)) j.
Proof.
  unfold before, start, first_interval. destruct (started s); cbn; destruct (is_new s); cbn; intro N;
  split; try (apply write_other; exact N); intro; reflexivity.
Qed.

Lemma run_nth ts s k cs seen : nth_error ts k = Some (cs, seen) ->
  let s' := step s (ORun ts) in let i := first_interval s + k + 1 in
  (cs <> [] -> holds (e_files s') i cs) /\ (cs = [] -> same_file (e_files s) (e_files s') i) /\
  (seen <> [] -> holds (o_files s') i seen) /\ (seen = [] -> same_file (o_files s) (o_files s') i).
Proof.
  intros H s' i. subst s' i. cbn [step]. rewrite run_turns.
  destruct (turns_nth ts (before s) k cs seen H) as (A & B & C & D). rewrite before_interval in A, B, C, D.
  destruct (before_files s (first_interval s + k + 1)) as [E F]; [lia|].
  split; [exact A|]. split; [|split; [exact C|]]; intro N.
  - apply (same_trans _ _ _ _ E), B, N.
  - apply (same_trans _ _ _ _ F), D, N.
Qed.

Lemma run_others ts s j : j < first_interval s \/ first_interval s + length ts < j ->
  let s' := step s (ORun ts) in
  same_file (e_files s) (e_files s') j /\ same_file (o_files s) (o_files s') j.
Proof.
  intros L s'. subst s'. cbn [step]. rewrite run_turns.
  destruct (before_files s j) as [E F]; [lia|].
  destruct L as [L | L].
  - destruct (turns_early ts (before s) j) as [A B]; [rewrite before_interval; lia|].
    split; eapply same_trans; eassumption.
  - destruct (turns_late ts (before s) j) as [A B]; [rewrite before_interval; lia|].
    split; eapply same_trans; eassumption.
Qed.

Lemma turns_last ts : forall s cs seen, emplaced (turns (ts ++ [(cs, seen)]) s) = cs /\
  observed (turns (ts ++ [(cs, seen)]) s) = seen.
Proof. intros. unfold turns. rewrite fold_left_app. cbn. auto. Qed.
Lemma run_last ts s cs seen : let s' := step s (ORun (ts ++ [(cs, seen)])) in
  emplaced s' = cs /\ observed s' = seen /\ interval s' = first_interval s + length ts + 1.
Proof.
  cbn [step]. rewrite run_turns. destruct (turns_last ts (before s) cs seen) as [A B].
  split; [exact A|]. split; [exact B|]. rewrite turns_interval, before_interval, app_length. cbn. lia.
Qed.

(** Files and lists *)
Lemma read_iff l c : In c (read l) <-> count_occ Nat.eq_dec l c = 1.
Proof.
  unfold read. rewrite filter_In, Nat.eqb_eq. split; [tauto|]. intro E. split; [|exact E].
  apply (count_occ_In Nat.eq_dec). lia.
Qed.
Lemma count_perm (l m : list nat) c : Permutation l m -> count_occ Nat.eq_dec l c = count_occ Nat.eq_dec m c.
Proof. induction 1; cbn; try lia; repeat destruct Nat.eq_dec; lia. Qed.
Lemma filter_all {A} (f : A -> bool) l : (forall x, In x l -> f x = true) -> filter f l = l.
Proof. induction l as [|x r IH]; intro H; [reflexivity|]. cbn. rewrite (H x) by (left; auto). rewrite IH; [reflexivity|]. intros; apply H; right; auto. Qed.
Lemma read_nodup l : NoDup l -> read l = l.
Proof.
  intro N. apply filter_all. intros x I'. rewrite (NoDup_count_occ' Nat.eq_dec) in N.
  apply Nat.eqb_eq, N, I'.
Qed.

Lemma latest_in fs e : latest fs = Some e -> In e fs /\ forall j l, In (j, l) fs -> j <= fst e.
Proof.
  revert e. induction fs as [|a r IH]; intros e H; [discriminate H|]. cbn [latest] in H.
  destruct (latest r) as [e'|] eqn:L.
  - destruct (IH e' eq_refl) as [A B]. destruct (fst e' <? fst a) eqn:C.
    + apply Nat.ltb_lt in C. injection H as <-. split; [left; auto|]. intros j l [-> | I']; [cbn; lia|].
      specialize (B j l I'). lia.
    + apply Nat.ltb_ge in C. injection H as <-. split; [right; exact A|]. intros j l [-> | I']; [cbn in *; lia|].
      exact (B j l I').
  - injection H as <-. split; [left; auto|]. intros j l [-> | I']; [cbn; lia|].
    destruct r as [|b r']; [destruct I'|]. cbn [latest] in L. destruct (latest r'); [destruct (_ <? _)|]; discriminate L.
Qed.
Lemma latest_none fs : latest fs = None -> fs = [].
Proof. destruct fs as [|a r]; [auto|]. cbn [latest]. destruct (latest r) as [e|]; [destruct (fst e <? fst a)|]; discriminate. Qed.

Lemma latest_holds fs i cs : holds fs i cs -> no_later fs i -> exists l, latest fs = Some (i, l) /\ Permutation l cs.
Proof.
  intros [(l & F & P) A] N. destruct (latest fs) as [[j m]|] eqn:L.
  - destruct (latest_in _ _ L) as [B C]. cbn in C. assert (j = i) as ->.
    { pose proof (C i l F). pose proof (N j m B). lia. }
    exists m. split; [reflexivity | apply A; exact B].
  - apply latest_none in L. subst fs. destruct F.
Qed.

Lemma turns_no_later ts : forall s, no_later (e_files s) (interval s) -> no_later (o_files s) (interval s) ->
  no_later (e_files (turns ts s)) (interval (turns ts s)) /\ no_later (o_files (turns ts s)) (interval (turns ts s)).
Proof.
  induction ts as [|t r IH]; intros s A B; [auto|].
  change (turns (t :: r) s) with (turns r (turn t s)). apply IH; rewrite turn_interval; intros j l F.
  - rewrite turn_e in F. apply file_write in F. destruct F as [(-> & _) | (_ & F)]; [lia|]. specialize (A j l F). lia.
  - rewrite turn_o in F. apply file_write in F. destruct F as [(-> & _) | (_ & F)]; [lia|]. specialize (B j l F). lia.
Qed.
Lemma before_no_later s : no_later (e_files s) (first_interval s) -> no_later (o_files s) (first_interval s) ->
  no_later (e_files (before s)) (first_interval s) /\ no_later (o_files (before s)) (first_interval s).
Proof.
  unfold before, start, first_interval. destruct (started s); cbn; destruct (is_new s); cbn; intros A B; auto;
  split; intros j l F; apply file_write in F; destruct F as [(-> & _) | (_ & F)]; try lia;
  [exact (A j l F) | exact (B j l F) | exact (A j l F) | exact (B j l F)].
Qed.

Lemma resume_run ts cs seen s : no_later (e_files s) (first_interval s) -> no_later (o_files s) (first_interval s) ->
  cs <> [] -> seen <> [] -> NoDup cs -> NoDup seen ->
  let s' := session [ORun (ts ++ [(cs, seen)]); OResume] s in
  Permutation (emplaced s') cs /\ Permutation (observed s') seen.
Proof.
  intros NE NO Ne No De Do. cbn zeta. cbn [session fold_left].
  set (s1 := step s (ORun (ts ++ [(cs, seen)]))).
  destruct (run_nth (ts ++ [(cs, seen)]) s (length ts) cs seen) as (A & _ & C & _).
  { rewrite nth_error_app2, Nat.sub_diag; [reflexivity | lia]. }
  fold s1 in A, C.
  destruct (before_no_later s NE NO) as [X Y]. rewrite <- before_interval in X, Y.
  destruct (turns_no_later (ts ++ [(cs, seen)]) _ X Y) as [U V].
  rewrite <- run_turns in U, V. change (run (ts ++ [(cs, seen)]) s) with s1 in U, V.
  destruct (run_last ts s cs seen) as (_ & _ & I'). fold s1 in I'. rewrite I' in U, V.
  destruct (latest_holds _ _ _ (A Ne) U) as (l & L & P). destruct (latest_holds _ _ _ (C No) V) as (m & M & Q).
  cbn [step resume]. unfold resume. rewrite M, L. cbn [emplaced observed from_xarray]. rewrite Nat.eqb_refl.
  rewrite !read_nodup; [auto | |].
  - eapply Permutation_NoDup; [apply Permutation_sym; exact Q | exact Do].
  - eapply Permutation_NoDup; [apply Permutation_sym; exact P | exact De].
Qed.

Lemma resume_none s : (o_files s = [] -> emplaced (step s OResume) = []) /\
  (forall i j l m, latest (o_files s) = Some (i, l) -> latest (e_files s) = Some (j, m) -> i <> j ->
     emplaced (step s OResume) = []).
Proof.
  split.
  - intro E. cbn. unfold resume. rewrite E. reflexivity.
  - intros i j l m A B N. cbn. unfold resume. rewrite A, B. cbn.
    apply Nat.eqb_neq in N. rewrite N. reflexivity.
Qed.

(** Nothing invented *)
Definition within (acc : list crater) (s : sim) : Prop :=
  incl (emplaced s) acc /\ forall i l, file (e_files s) i l -> incl l acc.
Lemma within_mono a b s : incl a b -> within a s -> within b s.
Proof. intros M [A B]. split; [eapply incl_tran; eauto | intros i l F; eapply incl_tran; eauto]. Qed.
Lemma within_save k acc s : within acc s -> within acc (save k s).
Proof.
  intros [A B]. split; [exact A|]. intros i l F. cbn in F.
  destruct k; try (exact (B i l F)); apply file_write in F; destruct F as [(_ & _ & ->) | (_ & F)];
  try (exact (B i l F)); intros c I'; apply A; (eapply Permutation_in; [apply sort_perm | exact I']).
Qed.
Lemma within_turns ts : forall acc s, within acc s -> within (acc ++ List.concat (map fst ts)) (turns ts s).
Proof.
  induction ts as [|t r IH]; intros acc s W; [cbn; rewrite app_nil_r; exact W|].
  change (turns (t :: r) s) with (turns r (turn t s)). cbn [map List.concat]. rewrite app_assoc. apply IH.
  unfold turn. apply within_save. destruct W as [A B]. split; cbn.
  - apply incl_appr, incl_refl.
  - intros i l F. apply incl_appl. exact (B i l F).
Qed.
Lemma within_step acc s o : within acc s -> within (put_since acc [o]) (step s o).
Proof.
  destruct o as [cs seen|k|i|ts| |]; cbn [put_since step]; intro W.
  - destruct W as [A B]. split; cbn; [apply incl_app; [apply incl_appl; exact A | apply incl_appr, incl_refl]|].
    intros i l F. apply incl_appl. exact (B i l F).
  - apply within_save, W.
  - exact W.
  - rewrite run_turns. apply within_turns. unfold before, start.
    destruct (started s); cbn; destruct (is_new s); try exact W; apply within_save; exact W.
  - destruct W as [A B]. unfold resume. destruct (latest (o_files s)) as [[i l]|]; [|split; [intros c []|exact B]].
    split; [|exact B]. cbn. unfold from_xarray. destruct (latest (e_files s)) as [[j m]|] eqn:L; [|intros c []].
    destruct (i =? j); [|intros c []]. destruct (latest_in _ _ L) as [I' _]. intros c H.
    apply (B j m I'). unfold read in H. apply filter_In in H. tauto.
  - split; cbn; [intros c [] | intros i l []].
Qed.
Lemma put_since_cons acc o r : put_since acc (o :: r) = put_since (put_since acc [o]) r.
Proof. destruct o; reflexivity. Qed.
Lemma session_within ops : forall acc s, within acc s -> within (put_since acc ops) (session ops s).
Proof.
  induction ops as [|o r IH]; intros acc s W; [exact W|].
  rewrite put_since_cons. cbn [session fold_left]. apply IH, within_step, W.
Qed.
Lemma invented ops : let s := session ops fresh in
  incl (emplaced s) (put_since [] ops) /\ forall i l, file (e_files s) i l -> incl l (put_since [] ops).
Proof. apply (session_within ops [] fresh). split; [intros c [] | intros i l []]. Qed.

(** Craters emplaced one by one within an interval *)
Lemma accumulate s calls : let s1 := session (map (fun t => OEmplace (fst t) (snd t)) calls) s in
  emplaced s1 = emplaced s ++ List.concat (map fst calls) /\ interval s1 = interval s /\ e_files s1 = e_files s.
Proof.
  revert s. induction calls as [|[cs seen] r IH]; intro s; [cbn; rewrite app_nil_r; auto|].
  cbn [map session fold_left List.concat fst snd]. destruct (IH (step s (OEmplace cs seen))) as (A & B & C).
  unfold session in *. rewrite A, B, C. cbn. rewrite app_assoc. auto.
Qed.
Lemma one_interval s calls k : k <> Observed -> emplaced s ++ List.concat (map fst calls) <> [] ->
  let s1 := session (map (fun t => OEmplace (fst t) (snd t)) calls ++ [OSave k]) s in
  holds (e_files s1) (interval s) (emplaced s ++ List.concat (map fst calls)).
Proof.
  intros K N. cbn zeta. unfold session. rewrite fold_left_app. cbn [fold_left step].
  destruct (accumulate s calls) as (A & B & C). unfold session in A, B, C.
  destruct k; [elim K; reflexivity | |]; cbn [save e_files]; rewrite A, B; apply write_holds; exact N.
Qed.

(** Craters emplaced before a run *)
Lemma lost_before cs seen ts c : In c cs -> (forall t, In t ts -> ~ In c (fst t)) ->
  forall i l, file (e_files (session [OEmplace cs seen; ORun ts] fresh)) i l -> ~ In c l.
Proof.
  intros I' N i l F. cbn [session fold_left] in F. cbn [step] in F. rewrite run_turns in F.
  pose (b := before (emplace cs seen fresh)). change (before (step fresh (OEmplace cs seen))) with b in F.
  assert (W : forall ts s, (forall i l, file (e_files s) i l -> ~ In c l) -> (forall t, In t ts -> ~ In c (fst t)) ->
     forall i l, file (e_files (turns ts s)) i l -> ~ In c l).
  { clear. induction ts as [|t r IH]; intros s A N i l F; [exact (A i l F)|].
    change (turns (t :: r) s) with (turns r (turn t s)) in F. refine (IH _ _ _ i l F).
    - intros j m G. rewrite turn_e in G. apply file_write in G. destruct G as [(_ & _ & ->) | (_ & G)]; [|exact (A j m G)].
      intro H. apply (N t); [left; auto|]. eapply Permutation_in; [apply sort_perm | exact H].
    - intros u U. apply N. right; exact U. }
  refine (W ts b _ N i l F). intros j m [].
Qed.
Lemma lost_turns ts : forall s c t, In t ts -> In c (fst t) -> ~ In c (fst (last ts ([], []))) ->
  ~ In c (emplaced (turns ts s)).
Proof.
  intros s c t I' _ N. destruct (exists_last (l := ts)) as (r & [cs seen] & ->); [intros ->; destruct I'|].
  rewrite last_last in N. destruct (turns_last r s cs seen) as [A _]. rewrite A. exact N.
Qed.
Lemma run_replaces s ts cs seen c : In c (emplaced s) -> ~ In c cs ->
  ~ In c (emplaced (step s (ORun (ts ++ [(cs, seen)])))).
Proof. intros _ N. destruct (run_last ts s cs seen) as (A & _). rewrite A. exact N. Qed.

Lemma save_keeps k s : emplaced (step s (OSave k)) = emplaced s. Proof. reflexivity. Qed.
Lemma carried cs1 seen1 cs2 seen2 : cs1 <> [] ->
  let s := session [OEmplace cs1 seen1; OSave Both; OSetInterval 1; OEmplace cs2 seen2; OSave Both] fresh in
  holds (e_files s) 0 cs1 /\ holds (e_files s) 1 (cs1 ++ cs2).
Proof.
  intro N. cbn zeta. cbn [session fold_left step].
  set (s1 := save Both (emplace cs1 seen1 fresh)).
  assert (H1 : holds (e_files s1) 0 cs1) by (apply write_holds; exact N).
  split.
  - refine (same_holds _ _ _ _ _ H1). apply (write_other 1 (cs1 ++ cs2) (e_files s1) 0). lia.
  - apply (write_holds 1 (cs1 ++ cs2)). destruct cs1; [elim N; reflexivity | discriminate].
Qed.

Lemma twice cs seen c : count_occ Nat.eq_dec cs c > 1 ->
  let s := session [OEmplace cs seen; OSave Both; OResume] fresh in
  In c (emplaced (session [OEmplace cs seen; OSave Both] fresh)) /\ ~ In c (emplaced s).
Proof.
  intro M. cbn [session fold_left step]. split.
  - cbn. apply (count_occ_In Nat.eq_dec). lia.
  - assert (N : cs <> []) by (intros ->; cbn in M; lia).
    unfold resume. cbn [emplaced observed e_files o_files save emplace append fresh interval app].
    destruct seen as [|x y]; [intros []|].
    destruct cs as [|a b]; [elim N; reflexivity|].
    cbn [write_file]. set (L := to_xarray (a :: b)).
    assert (PL : Permutation L (a :: b)) by apply sort_perm. clearbody L.
    cbn -[to_xarray read]. intro H. apply read_iff in H. rewrite (count_perm _ _ c PL) in H. lia.
Qed.
