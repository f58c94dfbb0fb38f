(** Proofs for C126. *)
From Coq Require Import List String.
From Verif Require Import Common Conf_model Exports_model Frame_model Frame_spec.
Import ListNotations.
Open Scope string_scope.

Section Proofs.
Context {crater shape number : Type} (outline : bool -> bool -> crater -> result shape).
Lemma outlines_ok m p : forall l ss, outlines crater shape outline m p l = Ok ss <-> outlined outline m p l ss.
Proof.
  induction l as [| c l IH]; intros ss; cbn.
  - split; [intros [= <-]; constructor | intros H; inversion H; reflexivity].
  - destruct (outline m p c) as [s | e] eqn:E; cbn.
    + destruct (outlines crater shape outline m p l) as [r | e]; cbn.
      * split; [intros [= <-]; constructor; [exact E | apply IH; reflexivity] |]. intros H. inversion H as [| ? x ? y X Y]; subst.
        apply IH in Y. injection Y as ->. rewrite E in X. injection X as ->. reflexivity.
      * split; [discriminate |]. intros H. inversion H as [| ? x ? y X Y]; subst. apply IH in Y. discriminate.
    + split; [discriminate |]. intros H. inversion H as [| ? x ? y X Y]; subst. rewrite E in X. discriminate.
Qed.
Lemma outlines_err m p : forall l e, outlines crater shape outline m p l = Err e <-> first_failure outline m p l e.
Proof.
  induction l as [| c l IH]; intros e; cbn.
  - split; [discriminate | intros H; inversion H].
  - destruct (outline m p c) as [s | x] eqn:E; cbn.
    + destruct (outlines crater shape outline m p l) as [r | y]; cbn.
      * split; [discriminate |]. intros H. inversion H as [? ? ? X | ? ? ? ? X Y]; subst; [rewrite E in X; discriminate |]. apply IH in Y. discriminate.
      * split; [intros [= <-]; apply (fails_later outline m p c l s y E), IH; reflexivity |].
        intros H. inversion H as [? ? ? X | ? ? ? ? X Y]; subst; [rewrite E in X; discriminate |]. apply IH in Y. injection Y as ->. reflexivity.
    + split; [intros [= <-]; constructor; exact E |]. intros H. inversion H as [? ? ? X | ? ? ? ? X Y]; subst; rewrite E in X; [injection X as ->; reflexivity | discriminate].
Qed.
Lemma asked_one (observed : list (nat * crater)) craters l : asked observed craters l -> match craters with None => map snd observed | Some l => l end = l.
Proof. destruct craters; intros ->; reflexivity. Qed.
Lemma series observed craters m p l ss : asked observed craters l -> l <> [] ->
  (to_geoseries crater shape outline observed craters m p = Ok ss <-> outlined outline m p l ss).
Proof.
  intros A N. unfold to_geoseries. rewrite (asked_one _ _ _ A), <- outlines_ok.
  destruct (outlines crater shape outline m p l) as [r | e] eqn:E; cbn; [| tauto].
  destruct r; [| tauto]. apply outlines_ok in E. inversion E. subst. contradiction.
Qed.
Lemma series_error observed craters m p l e : asked observed craters l -> l <> [] ->
  (to_geoseries crater shape outline observed craters m p = Err e <-> first_failure outline m p l e).
Proof.
  intros A N. unfold to_geoseries. rewrite (asked_one _ _ _ A), <- outlines_err.
  destruct (outlines crater shape outline m p l) as [r | x] eqn:E; cbn; [| tauto].
  destruct r; [apply outlines_ok in E; inversion E; subst; contradiction |]. cbn. split; discriminate.
Qed.
Lemma none observed craters m p : asked observed craters [] -> to_geoseries crater shape outline observed craters m p = Err ValueError.
Proof. intros A. unfold to_geoseries. rewrite (asked_one _ _ _ A). reflexivity. Qed.

Lemma pget_in {V} k (d : pairs V) : pget k d = None <-> ~ In k (map fst d).
Proof.
  induction d as [| [a v] d IH]; cbn; [tauto |]. destruct (String.eqb_spec k a) as [-> | N]; [split; [discriminate | tauto] |].
  rewrite IH. split; [intros H [E | I]; [congruence | tauto] | tauto].
Qed.
Lemma unknown_format (r : region crater number) driver : ~ known driver -> export_region_polygon crater shape number outline r driver = Err ValueError.
Proof. intros K. unfold export_region_polygon. apply pget_in in K. rewrite K. reflexivity. Qed.
Lemma known_format driver : known driver -> exists ext, pget (upper driver) extensions = Some ext.
Proof. intros K. destruct (pget (upper driver) extensions) as [e |] eqn:E; [exists e; reflexivity |]. apply pget_in in E. contradiction. Qed.
Lemma whole_surface (r : region crater number) driver : known driver -> is_local _ _ r = false -> export_region_polygon crater shape number outline r driver = Ok [].
Proof. intros K L. unfold export_region_polygon. destruct (known_format _ K) as [e ->]. rewrite L. reflexivity. Qed.
Lemma no_region (r : region crater number) driver s : known driver -> is_local _ _ r = true -> outline false false (boundary _ _ r) = Ok s ->
  export_region_polygon crater shape number outline r driver = Err ValueError.
Proof. intros K L O. unfold export_region_polygon. destruct (known_format _ K) as [e ->]. rewrite L, O. reflexivity. Qed.
Lemma never (r : region crater number) driver : is_local _ _ r = true -> forall w, export_region_polygon crater shape number outline r driver <> Ok w.
Proof.
  intros L w. unfold export_region_polygon. destruct (pget (upper driver) extensions); [| discriminate]. rewrite L.
  destruct (outline false false (boundary crater number r)); discriminate.
Qed.
End Proofs.
Lemma gpkg : known "gpkg" /\ known "ESRI Shapefile" /\ ~ known "SQLite".
Proof.
  unfold known. split; [cbn; tauto |]. split; [cbn; tauto |]. cbn. intros H. repeat (destruct H as [H | H]; [discriminate |]). exact H.
Qed.
Lemma sketches : to_geoseries nat nat sketch [(5, 2); (9, 4)] None true false = Ok [12; 14]
  /\ asked [(5, 2); (9, 4)] None [2; 4] /\ to_geoseries nat nat sketch [] (Some [1; 0; 3]) false true = Err ValueError.
Proof. repeat split. Qed.
