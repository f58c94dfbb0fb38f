(** Exporting all the saved intervals. *)
From Coq Require Import Reals NArith Sorted Permutation Lia.
From Verif Require Import Common Sorting Conf_model Crater_model Crater_spec Export_model Export_spec.

Notation cid := (fun c : crater => f_id (fixed c)).

(* ---------- entries ---------- *)
Lemma entries_all cs : entries (map Some cs) = Ok cs.
Proof. induction cs as [|c cs IH]; [reflexivity|]. cbn. rewrite IH. reflexivity. Qed.
Lemma entries_blank l : In None l -> entries l = Err TypeError.
Proof.
  induction l as [|o l IH]; [contradiction|]. intros [-> | I]; [reflexivity|]. destruct o as [c|]; [|reflexivity].
  cbn. rewrite (IH I). reflexivity.
Qed.
Lemma entries_dec (l : list (option crater)) : (exists cs, l = map Some cs) \/ In None l.
Proof.
  induction l as [|o l IH]; [left; exists []; reflexivity|]. destruct o as [c|]; [|right; left; reflexivity].
  destruct IH as [[cs ->] | I]; [left; exists (c :: cs); reflexivity|right; right; exact I].
Qed.

Lemma zget_in {A} i (a : A) l : NoDup (map fst l) -> In (i, a) l -> zget i l = Some a.
Proof.
  induction l as [|[j b] l IH]; [contradiction|]. cbn. intros N I. inversion N as [|? ? N1 N2]; subst.
  destruct I as [E | I]; [injection E as -> ->; rewrite Z.eqb_refl; reflexivity|].
  destruct (Z.eqb_spec i j) as [->|]; [|apply IH; assumption]. destruct N1. apply (in_map fst) in I. exact I.
Qed.

(* ---------- the loop over the intervals ---------- *)
Lemma run_ok d kind s : (d = SCC \/ s <> NoneSaved) -> forall files,
  (forall i cs, In (i, cs) files -> read_at s i = Ok cs) ->
  export_intervals d kind s (map fst files) = (numbered kind files, None).
Proof.
  intros D. induction files as [|[i cs] files IH]; [reflexivity|]. intros R. cbn [map fst export_intervals].
  rewrite (R i cs) by (left; reflexivity). rewrite IH by (intros j ds J; apply R; right; exact J).
  cbn [numbered map fst snd]. destruct d; [|destruct s; reflexivity]. destruct s; try reflexivity. destruct D; [discriminate|congruence].
Qed.

Lemma run_stop d kind s post : (d = SCC \/ s <> NoneSaved) -> forall pre i e,
  (forall i cs, In (i, cs) pre -> read_at s i = Ok cs) -> read_at s i = Err e ->
  export_intervals d kind s (map fst pre ++ i :: post)%list = (numbered kind pre, Some e).
Proof.
  intros D. induction pre as [|[j cs] pre IH]; intros i e R E; cbn [map fst app export_intervals].
  - rewrite E. reflexivity.
  - rewrite (R j cs) by (left; reflexivity). rewrite (IH i e) by (try assumption; intros k ds J; apply R; right; exact J).
    cbn [numbered map fst snd]. destruct d; [|destruct s; reflexivity]. destruct s; try reflexivity. destruct D; [discriminate|congruence].
Qed.

(* ---------- files read one by one ---------- *)
Lemma apart_read files i cs : history files -> In (i, cs) files -> read_at (Apart (one_by_one files)) i = Ok cs.
Proof.
  intros [N _] I. cbn. rewrite (zget_in i [(i, map Some cs)]).
  - unfold table_at. cbn. rewrite Z.eqb_refl. apply entries_all.
  - unfold one_by_one. rewrite map_map. cbn. exact N.
  - apply (in_map (fun p => (fst p, [(fst p, map Some (snd p))]))) in I. exact I.
Qed.
Lemma apart_intervals files iv : intervals_of (Apart (one_by_one files)) iv = map fst files.
Proof. cbn. unfold one_by_one. rewrite map_map. reflexivity. Qed.

(* ---------- files read together ---------- *)
Definition all_ids (files : list (Z * list crater)) : list N :=
  sort N.leb (nodup N.eq_dec (map cid (List.concat (map snd files)))).
Definition joined (files : list (Z * list crater)) (cs : list crater) : list (option crater) :=
  map (fun i => find (fun c => N.eqb (cid c) i) cs) (all_ids files).
Lemma join_map files : outer_join files = map (fun p => (fst p, joined files (snd p))) files.
Proof. reflexivity. Qed.
Lemma in_all files k : In k (all_ids files) <-> exists i cs c, In (i, cs) files /\ In c cs /\ cid c = k.
Proof.
  unfold all_ids. split.
  - intros I. apply (Permutation_in _ (sort_perm _ _)) in I. apply nodup_In, in_map_iff in I.
    destruct I as (c & E & I). apply in_concat in I. destruct I as (cs & I1 & I2). apply in_map_iff in I1.
    destruct I1 as ([i ds] & E1 & I1). cbn in E1. subst. exists i, cs, c. auto.
  - intros (i & cs & c & I & J & E). apply (Permutation_in _ (Permutation_sym (sort_perm _ _))), nodup_In.
    subst. apply (in_map cid), in_concat. exists cs. split; [|exact J]. apply (in_map snd) in I. exact I.
Qed.

Lemma lt_sorted l : NoDup l -> StronglySorted (fun a b => N.leb a b = true) l -> StronglySorted N.lt l.
Proof.
  intros N S. induction S as [|a l S IH F]; [constructor|]. inversion N as [|? ? N1 N2]; subst. constructor; [apply IH; exact N2|].
  rewrite Forall_forall in *. intros b I. specialize (F b I). apply N.leb_le in F.
  destruct (N.eq_dec a b) as [->|]; [contradiction|lia].
Qed.
Lemma all_sorted files : StronglySorted N.lt (all_ids files).
Proof.
  apply lt_sorted.
  - apply (Permutation_NoDup (Permutation_sym (sort_perm _ _))), NoDup_nodup.
  - apply sort_sorted.
    + intros x y E. apply N.leb_gt in E. apply N.leb_le. lia.
    + intros x y z A B. apply N.leb_le in A, B. apply N.leb_le. lia.
Qed.
Lemma sorted_same l m : StronglySorted N.lt l -> StronglySorted N.lt m -> (forall k, In k l <-> In k m) -> l = m.
Proof.
  intros S. revert m. induction S as [|a l S IH F]; intros m S' E.
  - destruct m as [|b m]; [reflexivity|]. destruct (proj2 (E b)). left. reflexivity.
  - destruct S' as [|b m S' F']; [destruct (proj1 (E a)); left; reflexivity|].
    rewrite Forall_forall in F, F'. assert (a = b) as ->.
    { destruct (proj1 (E a) (or_introl eq_refl)) as [-> | I]; [reflexivity|].
      destruct (proj2 (E b) (or_introl eq_refl)) as [-> | J]; [reflexivity|].
      pose proof (F' a I). pose proof (F b J). lia. }
    f_equal. apply IH; [exact S'|]. intros k. specialize (E k). cbn in E. split; intros I.
    + destruct (proj1 E (or_intror I)) as [-> | ]; [|assumption]. pose proof (F k I). lia.
    + destruct (proj2 E (or_intror I)) as [-> | ]; [|assumption]. pose proof (F' k I). lia.
Qed.

Lemma find_absent cs k : find (fun c => N.eqb (cid c) k) cs = None <-> ~ In k (map cid cs).
Proof.
  split.
  - intros E I. apply in_map_iff in I. destruct I as (c & <- & I). pose proof (find_none _ _ E c I) as Q. cbn in Q.
    rewrite N.eqb_refl in Q. discriminate.
  - intros A. destruct (find _ cs) as [c|] eqn:E; [|reflexivity]. apply find_some in E. destruct E as [I E]. apply N.eqb_eq in E.
    destruct A. rewrite <- E. apply (in_map cid). exact I.
Qed.
Lemma find_each cs : NoDup (map cid cs) -> map (fun i => find (fun c => N.eqb (cid c) i) cs) (map cid cs) = map Some cs.
Proof.
  intros N. rewrite map_map. apply map_ext_in. intros c I. induction cs as [|b cs IH]; [contradiction|].
  cbn in N |- *. inversion N as [|? ? N1 N2]; subst. destruct I as [-> | I]; [rewrite N.eqb_refl; reflexivity|].
  destruct (N.eqb_spec (cid b) (cid c)) as [E|]; [|apply IH; assumption]. destruct N1. rewrite E. apply (in_map cid). exact I.
Qed.
Lemma nodup_sorted l : StronglySorted N.lt l -> NoDup l.
Proof.
  induction 1 as [|a l S IH F]; constructor; [|assumption]. intros I. rewrite Forall_forall in F. pose proof (F a I). lia.
Qed.

(** An interval that lacks a crater of another. *)
Lemma joined_all files i cs : history files -> In (i, cs) files ->
  (forall k, In k (all_ids files) -> In k (map cid cs)) -> joined files cs = map Some cs.
Proof.
  intros [_ Hs] I A. unfold joined. assert (all_ids files = map cid cs) as ->.
  { apply sorted_same; [apply all_sorted|apply (Hs i cs I)|]. intros k. split; [apply A|].
    intros J. apply in_map_iff in J. destruct J as (c & E & J). apply in_all. exists i, cs, c. auto. }
  apply find_each, nodup_sorted. apply (Hs i cs I).
Qed.
Lemma joined_blank files cs k : In k (all_ids files) -> ~ In k (map cid cs) -> In None (joined files cs).
Proof. intros I A. unfold joined. apply in_map_iff. exists k. split; [apply find_absent; exact A|exact I]. Qed.

Lemma together_at files i cs : history files -> In (i, cs) files -> read_at (Together (outer_join files)) i = entries (joined files cs).
Proof.
  intros [N _] I. cbn. unfold table_at. rewrite (zget_in i (joined files cs)); [reflexivity| |].
  - rewrite join_map, map_map. cbn. exact N.
  - rewrite join_map. apply (in_map (fun p => (fst p, joined files (snd p)))) in I. exact I.
Qed.
Lemma together_intervals files iv : intervals_of (Together (outer_join files)) iv = map fst files.
Proof. cbn. rewrite join_map, map_map. reflexivity. Qed.

Lemma missing_dec files cs : (forall k, In k (all_ids files) -> In k (map cid cs)) \/ exists k, In k (all_ids files) /\ ~ In k (map cid cs).
Proof.
  induction (all_ids files) as [|k l IH]; [left; intros k []|].
  destruct (in_dec N.eq_dec k (map cid cs)) as [I | A]; [|right; exists k; split; [left; reflexivity|exact A]].
  destruct IH as [F | (j & J & A)]; [|right; exists j; split; [right; exact J|exact A]].
  left. intros j [<- | J]; [exact I|apply F; exact J].
Qed.

(** The first interval that lacks a crater. *)
Lemma first_missing all (files : list (Z * list crater)) : (forall i cs, In (i, cs) files -> forall k, In k (all_ids all) -> In k (map cid cs)) \/
  exists pre i cs post k, files = (pre ++ (i, cs) :: post)%list /\
    (forall i cs, In (i, cs) pre -> forall k, In k (all_ids all) -> In k (map cid cs)) /\
    In k (all_ids all) /\ ~ In k (map cid cs).
Proof.
  induction files as [|[i cs] files IH]; [left; intros i cs []|].
  destruct (missing_dec all cs) as [A | (k & K & A)].
  - destruct IH as [F | (pre & j & ds & post & k & -> & P & K & N)].
    + left. intros j ds [E | J]; [injection E as <- <-; exact A|apply (F j ds J)].
    + right. exists ((i, cs) :: pre), j, ds, post, k. split; [reflexivity|]. split; [|auto].
      intros j' ds' [E | J]; [injection E as <- <-; exact A|apply (P j' ds' J)].
  - right. exists [], i, cs, files, k. split; [reflexivity|]. split; [intros ? ? []|auto].
Qed.

Lemma same_all files : history files ->
  (same_ids files <-> forall i cs, In (i, cs) files -> forall k, In k (all_ids files) -> In k (map cid cs)).
Proof.
  intros H. split.
  - intros S i cs I k K. apply in_all in K. destruct K as (j & ds & c & J & C & <-). rewrite (S i cs j ds I J). apply (in_map cid). exact C.
  - intros A i cs j ds I J. destruct H as [_ Hs]. apply sorted_same; [apply (Hs i cs I)|apply (Hs j ds J)|].
    intros k. split; intros K; apply in_map_iff in K; destruct K as (c & E & C).
    + apply (A j ds J). apply in_all. exists i, cs, c. auto.
    + apply (A i cs I). apply in_all. exists j, ds, c. auto.
Qed.

(** What can be exported from saved files. *)
Lemma reads_back s files i cs : exported_from s files -> In (i, cs) files -> read_at s i = Ok cs.
Proof.
  intros (H & [-> | [-> S]]) I; [apply apart_read; assumption|]. rewrite (together_at files i cs H I).
  rewrite (joined_all files i cs H I); [apply entries_all|]. apply (proj1 (same_all files H) S i cs I).
Qed.
Lemma intervals_back s files iv : exported_from s files -> intervals_of s iv = map fst files.
Proof. intros (H & [-> | [-> S]]); [apply apart_intervals|apply together_intervals]. Qed.
Lemma not_none s files : exported_from s files -> s <> NoneSaved.
Proof. intros (H & [-> | [-> S]]); discriminate. Qed.

Lemma loop_one d kind s files iv r : exported_from s files ->
  export_loop d ((kind, s) :: r) iv =
  (let '(w, e) := export_loop d r (last_interval (map fst files) iv) in ((numbered kind files ++ w)%list, e)).
Proof.
  intros X. cbn [export_loop]. rewrite (intervals_back s files iv X).
  rewrite (run_ok d kind s (or_intror (not_none s files X)) files (fun i cs => reads_back s files i cs X)). reflexivity.
Qed.

Theorem export_kind d kind observed emplaced files iv :
  (kind = "observed"%string /\ exported_from observed files) \/ (kind = "emplaced"%string /\ exported_from emplaced files) ->
  export d kind observed emplaced iv = (numbered kind files, None).
Proof.
  intros [[-> X] | [-> X]]; unfold export; cbn [String.eqb Ascii.eqb Bool.eqb];
    rewrite (loop_one d _ _ files iv [] X); cbn [export_loop]; rewrite app_nil_r; reflexivity.
Qed.
Theorem export_both d observed emplaced fo fe iv : exported_from observed fo -> exported_from emplaced fe ->
  export d "both" observed emplaced iv = ((numbered "observed" fo ++ numbered "emplaced" fe)%list, None).
Proof.
  intros X Y. unfold export. cbn [String.eqb Ascii.eqb Bool.eqb]. rewrite (loop_one d _ _ fo iv _ X).
  rewrite (loop_one d _ _ fe _ [] Y). cbn [export_loop]. rewrite app_nil_r. reflexivity.
Qed.
Theorem export_csv_none kind observed emplaced iv : (kind = "observed"%string /\ observed = NoneSaved) \/ (kind = "emplaced"%string /\ emplaced = NoneSaved) ->
  export CSV kind observed emplaced iv = ([], None).
Proof. intros [[-> ->] | [-> ->]]; reflexivity. Qed.
Theorem export_csv_only observed fo iv : exported_from observed fo ->
  export CSV "both" observed NoneSaved iv = (numbered "observed" fo, None).
Proof.
  intros X. unfold export. cbn [String.eqb Ascii.eqb Bool.eqb]. rewrite (loop_one CSV _ _ fo iv _ X). cbn. rewrite app_nil_r. reflexivity.
Qed.

(** Files that are joined and whose ids differ. *)
Theorem export_stops d kind files iv observed emplaced : history files -> ~ same_ids files ->
  (kind = "observed"%string /\ observed = Together (outer_join files)) \/
  (kind = "emplaced"%string /\ emplaced = Together (outer_join files)) ->
  exists pre i cs post, files = (pre ++ (i, cs) :: post)%list /\
    export d kind observed emplaced iv = (numbered kind pre, Some TypeError) /\
    exists j ds c, In (j, ds) files /\ In c ds /\ ~ In (f_id (fixed c)) (map (fun c => f_id (fixed c)) cs).
Proof.
  intros H NS K. destruct (first_missing files files) as [A | (pre & i & cs & post & k & E & P & Ik & Nk)].
  - destruct NS. apply same_all; assumption.
  - exists pre, i, cs, post. split; [exact E|]. assert (I : In (i, cs) files) by (rewrite E; apply in_or_app; right; left; reflexivity).
    split.
    + assert (L : forall r, export_loop d ((kind, Together (outer_join files)) :: r) iv = (numbered kind pre, Some TypeError)).
      { intros r. cbn [export_loop]. rewrite together_intervals.
        replace (map fst files) with (map fst pre ++ i :: map fst post)%list by (rewrite E, map_app; reflexivity).
        assert (D : d = SCC \/ Together (outer_join files) <> NoneSaved) by (right; discriminate).
        rewrite (run_stop d kind _ (map fst post) D pre i TypeError); [reflexivity| |].
        - intros j ds J. assert (I' : In (j, ds) files) by (rewrite E; apply in_or_app; left; exact J).
          rewrite (together_at files j ds H I'), (joined_all files j ds H I'); [apply entries_all|apply (P j ds J)].
        - rewrite (together_at files i cs H I). apply entries_blank. apply (joined_blank files cs k Ik Nk). }
      destruct K as [[-> ->] | [-> ->]]; unfold export; cbn [String.eqb Ascii.eqb Bool.eqb]; apply L.
    + apply in_all in Ik. destruct Ik as (j & ds & c & J & C & <-). exists j, ds, c. auto.
Qed.

(** An SCC export of a kind of which nothing is saved. *)
Theorem export_scc_none observed fo i cs iv : exported_from observed (fo ++ [(i, cs)])%list ->
  export SCC "both" observed NoneSaved iv = ((numbered "observed" (fo ++ [(i, cs)]) ++ [("emplaced"%string, i, [])])%list, None).
Proof.
  intros X. unfold export. cbn [String.eqb Ascii.eqb Bool.eqb]. rewrite (loop_one SCC _ _ _ iv _ X).
  unfold last_interval. rewrite map_app, rev_app_distr. reflexivity.
Qed.
