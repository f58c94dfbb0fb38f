(** Proofs for the places of files (C119). *)
From Coq Require Import List.
From Verif Require Import Common Paths_model Paths_spec.
Import ListNotations.
Open Scope string_scope.

Lemma walk_normal l : forall up, normal l -> fold_left walk l up = (rev l ++ up)%list.
Proof.
  induction l as [|a l IH]; intros up N; [reflexivity|]. cbn [fold_left].
  destruct (N a (or_introl eq_refl)) as (A & B). unfold walk at 2. apply String.eqb_neq in A, B. rewrite A, B.
  rewrite IH by (intros n I; apply N; right; exact I). cbn [rev]. rewrite <- app_assoc. reflexivity.
Qed.
Lemma walked l : forall up, normal up -> normal (fold_left walk l up).
Proof.
  induction l as [|a l IH]; intros up N; [exact N|]. cbn [fold_left]. apply IH. unfold walk.
  destruct (String.eqb_spec a ".."); [intros n I; apply N; destruct up; [destruct I|right; exact I]|].
  destruct (String.eqb_spec a "."); [exact N|]. intros m [<-|I]; [auto|apply N, I].
Qed.
Lemma normal_rev d : normal d -> normal (rev d).
Proof. intros N n I. apply N. apply in_rev. exact I. Qed.
Lemma locate_normal cwd p : normal cwd -> normal (locate cwd p).
Proof. intros N. destruct p as [l|l]; cbn; apply normal_rev, walked; [apply normal_rev, N|intros n []]. Qed.
Lemma locate_abs now d : normal d -> locate now (Abs d) = d.
Proof. intros N. cbn. rewrite (walk_normal d [] N), app_nil_r, rev_involutive. reflexivity. Qed.
Lemma locate_rel now d : normal d -> locate now (Rel d) = (now ++ d)%list.
Proof. intros N. cbn. rewrite (walk_normal d _ N), rev_app_distr, !rev_involutive. reflexivity. Qed.
Lemma strip_spec d : forall p, match strip d p with Some r => p = (d ++ r)%list | None => ~ inside d p end.
Proof.
  induction d as [|a d IH]; intros p; cbn; [reflexivity|]. destruct p as [|b p].
  - intros (r & E). discriminate.
  - destruct (String.eqb_spec a b) as [->|N].
    + specialize (IH p). destruct (strip d p); [cbn; congruence|]. intros (r & E). apply IH. exists r. cbn in E. congruence.
    + intros (r & E). cbn in E. congruence.
Qed.
Lemma normal_app_r a b : normal (a ++ b)%list -> normal b.
Proof. intros N n I. apply N. apply in_or_app. right. exact I. Qed.
Lemma init_place cwd g now : normal cwd ->
  let p := match g with None => cwd | Some p => locate cwd p end in
  (forall r, p = (cwd ++ r)%list -> locate now (fst (simdir_init cwd g)) = (now ++ r)%list) /\
  (~ inside cwd p -> locate now (fst (simdir_init cwd g)) = p).
Proof.
  intros N p. assert (Np : normal p) by (unfold p; destruct g; [apply locate_normal, N|exact N]).
  unfold simdir_init. fold p. pose proof (strip_spec cwd p) as S0. cbn [fst]. destruct (strip cwd p) as [r|].
  - split.
    + intros r' E. rewrite E in S0. apply app_inv_head in S0. subst r'. apply locate_rel. rewrite E in Np. apply (normal_app_r _ _ Np).
    + intros H. exfalso. apply H. exists r. exact S0.
  - split.
    + intros r E. exfalso. apply S0. exists r. exact E.
    + intros _. apply locate_abs, Np.
Qed.
Lemma inside_dec d p : {r | p = (d ++ r)%list} + {~ inside d p}.
Proof. pose proof (strip_spec d p) as S0. destruct (strip d p) as [r|]; [left; exists r; exact S0 | right; exact S0]. Qed.
Lemma text_place cwd v s : normal cwd -> new_simdir cwd v = Some s -> named cwd v = Some (locate cwd s).
Proof.
  intros N. unfold new_simdir. destruct v as [|p|p|]; cbn [set_simdir fst named]; intros E; try discriminate.
  - pose proof (init_place cwd None cwd N) as (A & B). destruct (simdir_init cwd None) as [q d] eqn:Q. cbn in E. injection E as <-. cbn [fst] in *. f_equal.
    symmetry. rewrite (A []); rewrite app_nil_r; reflexivity.
  - pose proof (init_place cwd (Some p) cwd N) as (A & B). destruct (simdir_init cwd (Some p)) as [q d] eqn:Q. cbn in E. injection E as <-. cbn [fst] in *. f_equal.
    destruct (inside_dec cwd (locate cwd p)) as [(r & R)|R]; [rewrite (A r R); exact R | symmetry; apply B, R].
  - injection E as <-. reflexivity.
Qed.
Lemma moved cwd now v s : normal cwd -> (match v with VPath _ => False | _ => True end) -> new_simdir cwd v = Some s ->
  locate now s = locate cwd s <-> now = cwd \/ ~ inside cwd (locate cwd s).
Proof.
  intros N V E. assert (exists g, s = fst (simdir_init cwd g)) as (g & ->).
  { unfold new_simdir in E. destruct v as [|p|p|]; try contradiction; try discriminate; cbn [set_simdir] in E.
    - exists None. destruct (simdir_init cwd None). cbn in *. congruence.
    - exists (Some p). destruct (simdir_init cwd (Some p)). cbn in *. congruence. }
  pose proof (init_place cwd g now N) as (A & B). pose proof (init_place cwd g cwd N) as (A' & B').
  set (p := match g with None => cwd | Some p => locate cwd p end) in *.
  destruct (inside_dec cwd p) as [(r & R)|R].
  - rewrite (A r R), (A' r R). split.
    + intros H. left. apply app_inv_tail in H. exact H.
    + intros [->|H]; [reflexivity|]. exfalso. apply H. exists r. reflexivity.
  - rewrite (B R), (B' R). split; auto.
Qed.
Lemma path_moved cwd now l : new_simdir cwd (VPath (Abs l)) = Some (Abs l) /\ locate now (Abs l) = locate cwd (Abs l) /\
  (new_simdir cwd (VPath (Rel l)) = Some (Rel l)) /\ (normal l -> locate now (Rel l) = (now ++ l)%list).
Proof. repeat split. apply locate_rel. Qed.
Lemma made cwd v old : match v with
  | VText p => snd (set_simdir cwd v old) = Some (locate cwd p)
  | _ => snd (set_simdir cwd v old) = None end.
Proof. destruct v; reflexivity. Qed.
Lemma resumed cwd v stored s : new_simdir cwd v = Some s ->
  resumed_simdir cwd v stored = Some s /\ component_simdir cwd (Some s) = Some s.
Proof. intros E. unfold resumed_simdir. rewrite E. split; reflexivity. Qed.
Lemma fold_snoc l n up : fold_left walk (l ++ [n])%list up = walk (fold_left walk l up) n.
Proof. rewrite fold_left_app. reflexivity. Qed.
Lemma written now s n : n <> ".." -> n <> "." -> written_in now s n = (locate now s ++ [n])%list.
Proof.
  intros A B. unfold written_in. apply String.eqb_neq in A, B.
  destruct s as [l|l]; cbn [below locate]; rewrite fold_snoc; unfold walk at 1; rewrite A, B; reflexivity.
Qed.
Lemma other_kind cwd old : set_simdir cwd VOther old = (old, None) /\ new_simdir cwd VOther = None.
Proof. split; reflexivity. Qed.
