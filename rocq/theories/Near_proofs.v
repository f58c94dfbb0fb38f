(** Proofs about Near_model. *)
From Coq Require Import Reals List Lra Lia Bool.
From Verif Require Import Common Geo_spec Geo_proofs Outline_model Outline_spec Place_model Place_spec Place_proofs Where_model Where_spec Where_proofs Near_model Near_spec.
Import ListNotations.
Open Scope R_scope.

Section Q.
Variable query : list (R * R) -> R * R -> nat.
Notation find := (find_nearest query).
Lemma tree_same node m s : fst (tree node (snd (tree m s))) = fst (tree node s).
Proof. destruct s as [f n kf kn], node, m; unfold tree; cbn; destruct kf, kn; reflexivity. Qed.
Lemma find_tree node s l : fst (find node s l) = match validate l with Err e => Err e | Ok (One p) => Ok (query (fst (tree node s)) p) | Ok (Several _) => Err ValueError end.
Proof. unfold find_nearest. destruct (validate l) as [[p | r] | e]; try reflexivity; destruct (tree node s); reflexivity. Qed.
Lemma find_state node s l : snd (find node s l) = match validate l with Err e => s | Ok _ => snd (tree node s) end.
Proof. unfold find_nearest. destruct (validate l) as [[p | r] | e]; try reflexivity; destruct (tree node s); reflexivity. Qed.
Lemma perform_tree node a s : fst (tree node (perform query a s)) = fst (tree node s).
Proof.
  destruct a as [m l | e]; cbn [perform].
  - rewrite find_state. destruct (validate l); [apply tree_same | reflexivity].
  - destruct e; [reflexivity | apply tree_same].
Qed.
Lemma after_tree acts : forall node s, fst (tree node (after query acts s)) = fst (tree node s).
Proof. induction acts as [| a acts IH]; intros node s; [reflexivity |]. cbn [after]. rewrite IH. apply perform_tree. Qed.
Lemma new_tree node f n : fst (tree node (new_seeker f n)) = of_mesh node f n.
Proof. destruct node; reflexivity. Qed.

(** What is kept after some acts. *)
Definition kept (node : bool) (s : seeker) : option (list (R * R)) := if node then k_nodes s else k_faces s.
Definition mesh_of (node : bool) (s : seeker) : list (R * R) := of_mesh node (faces s) (nodes s).
Lemma tree_kept node s : fst (tree node s) = match kept node s with Some t => t | None => mesh_of node s end.
Proof. destruct s as [f n kf kn], node; unfold tree; cbn; [destruct kn | destruct kf]; reflexivity. Qed.
Lemma kept_tree node m s : kept node (snd (tree m s)) = if Bool.eqb m node then Some (fst (tree node s)) else kept node s.
Proof. destruct s as [f n kf kn], node, m; unfold tree; cbn; destruct kf, kn; reflexivity. Qed.
Lemma mesh_tree node m s : mesh_of node (snd (tree m s)) = mesh_of node s.
Proof. destruct s as [f n kf kn], node, m; unfold tree; cbn; destruct kf, kn; reflexivity. Qed.
Lemma kept_perform node a s : kept node (perform query a s) = if needed node a then Some (fst (tree node s)) else kept node s.
Proof.
  destruct a as [m l | e]; cbn [perform needed].
  - rewrite find_state. destruct (validate l); [rewrite kept_tree, andb_true_r; reflexivity | rewrite andb_false_r; reflexivity].
  - destruct e; [rewrite andb_false_r; reflexivity |]. rewrite kept_tree. destruct node; reflexivity.
Qed.
Lemma kept_after acts : forall node s, kept node (after query acts s) = if existsb (needed node) acts then Some (fst (tree node s)) else kept node s.
Proof.
  induction acts as [| a acts IH]; intros node s; [reflexivity |]. cbn [after existsb]. rewrite IH, perform_tree, kept_perform.
  destruct (needed node a), (existsb (needed node) acts); reflexivity.
Qed.
Lemma regrid_find acts later f n f' n' node l :
  fst (find node (after query later (regrid f' n' (after query acts (new_seeker f n)))) l)
  = fst (find node (if existsb (needed node) acts then new_seeker f n else new_seeker f' n') l).
Proof.
  rewrite !find_tree, after_tree. replace (fst (tree node (if existsb (needed node) acts then new_seeker f n else new_seeker f' n'))) with (if existsb (needed node) acts then of_mesh node f n else of_mesh node f' n')
    by (destruct (existsb (needed node) acts); rewrite new_tree; reflexivity).
  rewrite tree_kept. unfold regrid, mesh_of, kept. cbn [faces nodes k_faces k_nodes].
  pose proof (kept_after acts node (new_seeker f n)) as K. unfold kept in K. rewrite K, new_tree. destruct node, (existsb _ acts); reflexivity.
Qed.
Lemma one_validate a p : one_place a p -> validate a = Ok (One (normalize p)).
Proof.
  intros [M N]. inversion M as [h x y E | rows E | items rows F E | x y k E | f q E | f rows E]; subst.
  - reflexivity.
  - reflexivity.
  - inversion F as [| i q items' rows' E F' ]; subst. inversion F'; subst. cbn [validate]. rewrite E. cbn. destruct p; reflexivity.
  - reflexivity.
  - elim N. right. eauto.
  - elim N. left. eauto.
Qed.
Lemma several_fails a rows node s : means a rows -> (2 <= List.length rows)%nat -> exists e, fst (find node s a) = Err e.
Proof.
  intros M L. rewrite find_tree. destruct M as [h x y | rows | items rows F | x y k | f q | f rows]; try (cbn in L; lia).
  - destruct rows as [| p [| q r]]; try (cbn in L; lia). eexists. reflexivity.
  - pose proof (each_ok _ _ F) as EA. destruct F as [| i p items rows E F]; [cbn in L; lia |]. destruct F as [| j q items rows E' F]; [cbn in L; lia |].
    destruct F as [| k q' items rows E'' F].
    + destruct i as [hi li], j as [hj lj]. cbn [snd] in E, E'. subst. destruct hi, hj; eexists; reflexivity.
    + cbn [validate]. replace (Nat.eqb (List.length (snd i)) 2) with true by (rewrite E; reflexivity). rewrite EA. cbn [rbind]. eexists. reflexivity.
  - destruct rows as [| p [| q r]]; try (cbn in L; lia). eexists. reflexivity.
Qed.
Lemma apart_normal p x : near_globe p -> apart (normalize p) x = apart p x.
Proof. intros N. unfold apart. pose proof (normalize_beyond p N) as F. unfold same_spot in F. rewrite F. reflexivity. Qed.
Hypothesis sound : sound_tree query.
Lemma found acts f n node a p : of_mesh node f n <> [] -> one_place a p -> near_globe p ->
  exists i, fst (find node (after query acts (new_seeker f n)) a) = Ok i /\ nearest_to (of_mesh node f n) p i.
Proof.
  intros N O G. rewrite find_tree, (one_validate a p O), after_tree, new_tree. eexists. split; [reflexivity |].
  destruct (sound _ (normalize p) N) as (x & X & H). exists x. split; [exact X |]. intros j y Y. rewrite <- !(apart_normal p _ G). exact (H j y Y).
Qed.
Lemma apart_same x : apart x x = 0.
Proof. unfold apart. unfold place. rewrite direction_unit. apply acos_1. Qed.
Lemma apart_zero x y : apart x y <= 0 -> place (fst x) (snd x) = place (fst y) (snd y).
Proof.
  unfold apart. intros H. assert (B : -1 <= dot (place (fst x) (snd x)) (place (fst y) (snd y)) <= 1) by (apply dot_bound; apply direction_unit).
  pose proof (acos_bound (dot (place (fst x) (snd x)) (place (fst y) (snd y)))) as [A _].
  apply dot_one; try apply direction_unit. apply acos_zero; [exact B |]. lra.
Qed.
Lemma itself acts f n node i x : nth_error (of_mesh node f n) i = Some x -> near_globe x ->
  (forall j y, nth_error (of_mesh node f n) j = Some y -> j <> i -> place (fst y) (snd y) <> place (fst x) (snd x)) ->
  fst (find node (after query acts (new_seeker f n)) (Numbers InTuple [fst x; snd x])) = Ok i.
Proof.
  intros X G D. assert (O : one_place (Numbers InTuple [fst x; snd x]) x) by (split; [destruct x; constructor | intros [(? & ? & E) | (? & ? & E)]; discriminate]).
  assert (N : of_mesh node f n <> []) by (intros E; rewrite E in X; destruct i; discriminate).
  destruct (found acts f n node _ x N O G) as (k & E & y & Y & H). rewrite E. f_equal.
  destruct (PeanoNat.Nat.eq_dec k i) as [-> | NE]; [reflexivity |]. exfalso. apply (D k y Y NE). symmetry. apply apart_zero. pose proof (H i x X) as Z. rewrite apart_same in Z. exact Z.
Qed.
End Q.

Lemma best_spec p l : match snd (best p l) with
  | None => l = []
  | Some d => exists x, nth_error l (fst (best p l)) = Some x /\ d = apart p x /\ forall j y, nth_error l j = Some y -> d <= apart p y
  end.
Proof.
  induction l as [| x l IH]; [reflexivity |]. cbn [best]. destruct (best p l) as [i [d |]]; cbn [fst snd] in *.
  - destruct IH as (z & Z & E & H). destruct (Rle_dec (apart p x) d); cbn [fst snd].
    + exists x. split; [reflexivity |]. split; [reflexivity |]. intros [| j] y Y; [injection Y as <-; lra |]. specialize (H j y Y). lra.
    + exists z. split; [exact Z |]. split; [exact E |]. intros [| j] y Y; [injection Y as <-; lra |]. exact (H j y Y).
  - subst l. exists x. split; [reflexivity |]. split; [reflexivity |]. intros [| j] y Y; [injection Y as <-; lra | destruct j; discriminate].
Qed.
Lemma search_sound : sound_tree search.
Proof.
  intros l p N. pose proof (best_spec p l) as B. unfold search, nearest_to. destruct (snd (best p l)); [| contradiction]. destruct B as (x & X & -> & H). exists x. auto.
Qed.

Lemma stale query : sound_tree query ->
  fst (find_nearest query false (regrid ex_faces2 ex_faces2 (after query [Extract false] (new_seeker ex_faces ex_faces))) (Numbers InTuple [90; 0])) = Ok 1%nat
  /\ nth_error ex_faces2 1 = None.
Proof.
  intros Q. split; [| reflexivity].
  refine (eq_trans (regrid_find query [Extract false] [] ex_faces ex_faces ex_faces2 ex_faces2 false (Numbers InTuple [90; 0])) _).
  apply (itself query Q [] ex_faces ex_faces false 1 (90, 0)); [reflexivity | unfold near_globe; cbn; lra |].
  intros [| [| j]] y Y NE; [| congruence | destruct j; discriminate]. injection Y as <-. unfold place, direction, rad. cbn [fst snd]. intros E. injection E as E1 E2.
  replace (0 * PI / 180) with 0 in * by field. replace (90 * PI / 180) with (PI / 2) in * by field. rewrite cos_0, cos_PI2 in E1. lra.
Qed.
