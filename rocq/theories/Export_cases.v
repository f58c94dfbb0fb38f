(** Concrete cases for exported tables. *)
From Coq Require Import Reals NArith Sorted Lra Lia.
From Verif Require Import Common Sorting Conf_model Crater_model Crater_spec Crater_proofs Export_model Export_spec Export_table Export_scc Export_files.
Open Scope R_scope.

Definition round_one : crater := ex_crater None None.
Definition timed_one : crater := ex_crater (Some (PFlt 3)) (Some "Tycho"%string).
Definition set_attr (n : string) (x : value) (c : crater) : crater := fst (assign ex_norm ex_str ex_trunc n x c).
Definition oval_one : crater := set_attr "measured_semiminor_axis" (VNum 5) round_one.
Definition lost_one : crater := set_attr "measured_location" VNone round_one.
Definition moved_one : crater := set_attr "measured_location" (VTup [Some 80; Some 20]) round_one.

Lemma oval_is : oval_one = mk_crater (fixed round_one) (with_axes (Some 10) (Some 5) (vars round_one)).
Proof. unfold oval_one, set_attr. cbn. unfold set_minor. cbn. decide_reals. reflexivity. Qed.
Lemma made_set n x c : ex_made c -> ex_made (set_attr n x c).
Proof. intros M. apply made_assign. exact M. Qed.
Lemma round_made : ex_made round_one. Proof. apply ex_made_crater. Qed.
Lemma timed_made : ex_made timed_one. Proof. apply ex_made_crater. Qed.
Lemma oval_made : ex_made oval_one. Proof. apply made_set, round_made. Qed.
Lemma lost_made : ex_made lost_one. Proof. apply made_set, round_made. Qed.
Lemma moved_made : ex_made moved_one. Proof. apply made_set, round_made. Qed.

Lemma plain_extra c : f_extra (fixed c) = [] -> extra_ok c.
Proof. intros E. unfold extra_ok. rewrite E. split; [constructor|intros k []]. Qed.
Lemma pair_ok c M m : v_major (vars c) = Some M -> v_minor (vars c) = Some m -> 0 < m <= M -> measured_pair c.
Proof.
  intros A B P. split; [|congruence]. unfold axes_ok. rewrite A, B. repeat split.
  - intros x Q. injection Q as <-. lra.
  - intros x Q. injection Q as <-. lra.
  - intros x y Q W. injection Q as <-. injection W as <-. lra.
Qed.
Lemma round_regular t n : regular (ex_crater t n).
Proof.
  split; [apply plain_extra; reflexivity|]. split; [repeat split; discriminate|]. apply (pair_ok _ 10 10); [reflexivity|reflexivity|lra].
Qed.
Lemma oval_regular : regular oval_one.
Proof.
  rewrite oval_is. split; [apply plain_extra; reflexivity|]. split; [repeat split; discriminate|]. apply (pair_ok _ 10 5); [reflexivity|reflexivity|lra].
Qed.
Lemma lost_bad : extra_ok lost_one /\ ~ exportable lost_one.
Proof. split; [apply plain_extra; reflexivity|]. intros (_ & _ & _ & N). apply N. reflexivity. Qed.

(** A measured ellipse behind a circle. *)
Lemma lost_shape (dataset : Type) fx st : exists c c' h t, ex_made c /\ ex_made c' /\ regular c /\ regular c' /\
  v_major (vars c') = Some 10 /\ v_minor (vars c') = Some 5 /\
  to_csv dataset fx true st "observed" (Some 1%Z) (CraterList [Some c; Some c']) None = (Some t, None) /\
  shows h [c; c'] t /\ ~ In "measured_semimajor_axis"%string h /\ ~ In "measured_semiminor_axis"%string h /\
  shown c' "measured_diameter" = ECell (XText "").
Proof.
  destruct (table_shows (dataset:=dataset) fx st "observed" (Some 1%Z) round_one [oval_one] None) as (h & t & E & S & N & K).
  - left. reflexivity.
  - constructor; [apply round_regular|]. constructor; [apply oval_regular|constructor].
  - exists round_one, oval_one, h, t. split; [apply round_made|]. split; [apply oval_made|]. split; [apply round_regular|].
    split; [apply oval_regular|]. rewrite oval_is in *. split; [reflexivity|]. split; [reflexivity|]. split; [exact E|]. split; [exact S|].
    assert (V : forall k, k = "measured_semimajor_axis"%string \/ k = "measured_semiminor_axis"%string -> csv_value k round_one = None).
    { intros k Q. unfold csv_value, csv_columns. destruct (shape_dec (v_major (vars round_one)) (v_minor (vars round_one))) as [_|Ne]; [|destruct (Ne eq_refl)].
      destruct Q as [-> | ->]; reflexivity. }
    split; [intros I; apply K in I; apply I, V; auto|]. split; [intros I; apply K in I; apply I, V; auto|].
    unfold shown, csv_value, csv_columns. cbn [vars v_major v_minor with_axes].
    destruct (shape_dec (Some 10) (Some 5)) as [Q|_]; [injection Q; lra|]. reflexivity.
Qed.

(* ---------- SCC ---------- *)
Lemma round_listable t n : listable (ex_crater t n).
Proof. exists 10, 10. repeat split; try reflexivity; try lra; discriminate. Qed.
Lemma oval_listable : listable oval_one.
Proof. rewrite oval_is. exists 10, 5. repeat split; try reflexivity; try lra; discriminate. Qed.
Lemma moved_listable : listable moved_one.
Proof. exists 10, 10. repeat split; try reflexivity; try lra; discriminate. Qed.
Lemma ex_usable : usable ex_project ex_f2t ex_one.
Proof.
  split.
  - intros l. eexists. split; [reflexivity|]. cbn. split; [reflexivity|]. split; lra.
  - intros d P. cbn. unfold ex_one. lra.
Qed.

(** A flat distance, in the same unit as the radius. *)
Definition flat (p q : R * R) : R := Rabs (fst p - fst q) + Rabs (snd p - snd q).
Lemma outside_counts (dataset : Type) fx st overlap : exists c l, ex_made c /\ listable c /\
  (exists p, v_loc (vars c) = Some p /\ 15 + 10 < flat (10, 20) p /\ measured_radius (vars c) = Some 10) /\
  to_scc dataset fx flat overlap true st (Some ((10, 20), 15)) "observed" (Some 1%Z) (CraterList [Some c]) None = (Some [l], None) /\
  s_frac l = 1.
Proof.
  assert (Sq : sqrt (10 * 10) = 10) by (apply sqrt_square; lra).
  destruct (scc_written (dataset:=dataset) fx flat overlap st (Some ((10, 20), 15)) "observed" 1%Z [moved_one] None) as (t & E & F).
  - left; reflexivity.
  - constructor; [apply moved_listable|constructor].
  - inversion F as [|? l ? t' Q F']; subst. inversion F'; subst. exists moved_one, l. split; [apply moved_made|]. split; [apply moved_listable|].
    split; [exists (80, 20); split; [reflexivity|]; split|].
    + unfold flat. cbn. rewrite Rabs_left by lra. replace (20 - 20) with 0 by lra. rewrite Rabs_R0. lra.
    + unfold measured_radius. cbn. f_equal. exact Sq.
    + split; [exact E|]. destruct Q as (_ & _ & Q). rewrite (Q (10, 20) 15 (10, 20) 10); [|reflexivity|reflexivity|unfold measured_radius; cbn; f_equal; exact Sq].
      destruct (Rlt_dec 15 (flat (10, 20) (10, 20) + 10)) as [L|]; [exfalso|reflexivity].
      unfold flat in L. cbn in L. replace (10 - 10) with 0 in L by lra. replace (20 - 20) with 0 in L by lra. rewrite Rabs_R0 in L. lra.
Qed.

Lemma shape_back (dataset : Type) fx dist overlap st : exists c t c', ex_made c /\ listable c /\
  v_major (vars c) = Some 10 /\ v_minor (vars c) = Some 5 /\
  to_scc dataset fx dist overlap true st None "observed" (Some 1%Z) (CraterList [Some c]) None = (Some t, None) /\
  from_scc (ex_maker true None) t = Ok [c'] /\ v_major (vars c') = v_minor (vars c').
Proof.
  destruct (scc_written (dataset:=dataset) fx dist overlap st None "observed" 1%Z [oval_one] None) as (t & E & F).
  - left; reflexivity.
  - constructor; [apply oval_listable|constructor].
  - assert (G : Forall2 lists [oval_one] t) by (inversion F as [|? l ? t' [Q _] F']; subst; inversion F'; subst; constructor; [exact Q|constructor]).
    destruct (scc_read ex_norm ex_hash ex_project ex_f2t ex_t2f ex_one ex_one ex_usable [oval_one] t) as (cs & R & H).
    + constructor; [apply oval_listable|constructor].
    + exact G.
    + inversion H as [|? c' ? cs' Q H']; subst. inversion H'; subst. exists oval_one, t, c'.
      split; [apply oval_made|]. split; [apply oval_listable|]. rewrite oval_is at 1 2. split; [reflexivity|]. split; [reflexivity|].
      split; [exact E|]. split; [exact R|]. apply Q.
Qed.

(* ---------- files ---------- *)
Definition two_files : list (Z * list crater) := [(1%Z, [timed_one; round_one]); (2%Z, [timed_one; oval_one])].
Definition grown_files : list (Z * list crater) := [(1%Z, [round_one]); (2%Z, [timed_one; round_one])].
Ltac hist := split; [cbn; repeat constructor; simpl; intuition discriminate|];
  intros i cs I; simpl in I; repeat destruct I as [I | I]; try contradiction; injection I as <- <-;
  rewrite ?oval_is; cbn; repeat constructor.
Lemma two_history : history two_files.
Proof. hist. Qed.
Lemma grown_history : history grown_files.
Proof. hist. Qed.
Lemma two_same : same_ids two_files.
Proof.
  intros i cs j ds I J. simpl in I, J. repeat destruct I as [I | I]; try contradiction; injection I as <- <-;
    repeat destruct J as [J | J]; try contradiction; injection J as <- <-; rewrite ?oval_is; reflexivity.
Qed.
Lemma grown_differ : ~ same_ids grown_files.
Proof.
  intros S. pose proof (S 1%Z _ 2%Z _ (or_introl eq_refl) (or_intror (or_introl eq_refl))) as Q. cbn in Q. discriminate.
Qed.
Lemma two_exported : exported_from (Together (outer_join two_files)) two_files.
Proof. split; [apply two_history|]. right. split; [reflexivity|apply two_same]. Qed.
Lemma apart_exported : exported_from (Apart (one_by_one grown_files)) grown_files.
Proof. split; [apply grown_history|]. left. reflexivity. Qed.

(** A run whose second interval has a crater more. *)
Lemma grown_stops d emplaced : exists w, export d "observed" (Together (outer_join grown_files)) emplaced None = (w, Some TypeError) /\ w = [].
Proof. eexists. split; [|reflexivity]. unfold export. cbn [String.eqb Ascii.eqb Bool.eqb]. reflexivity. Qed.

(** An entry without values is a call of maker without arguments. *)
Lemma blank_fails norm_loc hash project f2t t2f t2p p2t :
  maker norm_loc hash project f2t t2f t2p p2t false None no_args = Err TypeError.
Proof. reflexivity. Qed.
