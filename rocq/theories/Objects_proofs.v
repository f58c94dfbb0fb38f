(** Proofs for craters and surfaces as Python objects (C112). *)
From Verif Require Import Common Objects_model Objects_spec.
From Coq Require Import Lia.
Import ListNotations.
Open Scope string_scope.

Section P.
Variable val : Type.
Variable attributes : val -> part val.
Notation obj := (obj val).
Notation part := (part val).

Lemma mem_In : forall n l, mem n l = true <-> In n l.
Proof.
  intros n l. unfold mem. rewrite existsb_exists. split.
  - intros (x & I & E). apply String.eqb_eq in E. now subst.
  - intros I. exists n. split; auto. apply String.eqb_refl.
Qed.
Lemma mem_not : forall n l, mem n l = false <-> ~ In n l.
Proof.
  intros n l. rewrite <- mem_In. destruct (mem n l); split; intros; auto; try discriminate.
  exfalso. now apply H.
Qed.

Lemma reads : forall (o : obj) p q n, made o p q ->
  answers (fun k => read val attributes k o n) (first_found (cls val o n) (p n) (q n)).
Proof.
  intros o p q n (Hf & Hv). exists 1%nat. intros [|k] L; [lia|].
  unfold read, first_found. destruct (cls val o n); auto.
  cbn. rewrite Hf. destruct (p n); auto. rewrite Hv. destruct (q n); auto.
Qed.

Lemma bare_never : forall (o : obj) n k, getattr_ val attributes k (bare val o) n = None.
Proof.
  intros o n k. revert n. induction k; intros n; cbn; auto. now rewrite IHk.
Qed.
Lemma copy_never : forall (o : obj), cls val o "__setstate__" = None ->
  never_ends (fun k => copied val attributes k o).
Proof.
  intros o H k. unfold copied, read. change (cls val (bare val o)) with (cls val o). rewrite H.
  now rewrite bare_never.
Qed.

Lemma dir_fails : forall (o : obj) p q, made o p q ->
  cls val o "fixed" = None -> p "fixed" = None -> q "fixed" = None ->
  answers (fun k => listed val attributes k o) (Err AttributeError).
Proof.
  intros o p q M C P Q. destruct (reads o p q "fixed" M) as (b & H).
  exists b. intros k L. unfold listed. rewrite (H k L). unfold first_found. now rewrite C, P, Q.
Qed.

Lemma unknown_assign : forall put (o : obj) p q n x, made o p q -> cls val o n = None ->
  p n = None -> q n = None -> ~ In n fixed_fields ->
  set_name val put o n x = (o, None) /\ answers (fun k => read val attributes k o n) None.
Proof.
  intros put o p q n x M C P Q F. split.
  - unfold set_name. apply mem_not in F. rewrite F. destruct M as (_ & Hv). now rewrite Hv, Q.
  - destruct (reads o p q n M) as (b & H). exists b. intros k L. rewrite (H k L).
    unfold first_found. now rewrite C, P, Q.
Qed.

Lemma assign_fixed : forall put (o : obj) n x, In n fixed_fields ->
  set_name val put o n x = (o, Some AttributeError).
Proof. intros put o n x F. unfold set_name. apply mem_In in F. now rewrite F. Qed.

Lemma assign_var : forall put (o : obj) p q n x v0, made o p q -> ~ In n fixed_fields ->
  q n = Some v0 ->
  match put n x q with
  | Err e => set_name val put o n x = (o, Some e)
  | Ok q' => exists o', set_name val put o n x = (o', None) /\ made o' p q' /\
             forall m, answers (fun k => read val attributes k o' m) (first_found (cls val o m) (p m) (q' m))
  end.
Proof.
  intros put o p q n x v0 (Hf & Hv) F Q. unfold set_name. apply mem_not in F. rewrite F, Hv, Q.
  destruct (put n x q) as [q'|e]; auto.
  eexists. split; [reflexivity|]. split.
  - split; cbn; auto.
  - intros m. apply (reads (mkObj val (cls val o) (o_fixed val o) (Some q')) p q' m). split; cbn; auto.
Qed.

End P.
(* --- as_dict --- *)
Section D.
Variable val : Type.
Lemma as_dict_spec : forall (all : list (string * val)) ign skip n v,
  In (n, v) (fst (as_dict val all ign skip)) <->
  In (n, v) all /\ ~ In n (names_of ign) /\ (skip = true -> ~ In n complex_names).
Proof.
  intros all ign skip n v. unfold as_dict. cbn [fst].
  rewrite filter_In. cbn [fst]. rewrite negb_true_iff, mem_not.
  destruct skip; [rewrite in_app_iff|]; intuition discriminate.
Qed.
Lemma as_dict_order : forall (all : list (string * val)) ign skip, exists keep,
  fst (as_dict val all ign skip) = filter keep all.
Proof. intros. eexists. reflexivity. Qed.
Lemma tuple_kept : forall (all : list (string * val)) l bs, calls val all (AsTuple l) bs = AsTuple l.
Proof. intros all l bs. induction bs as [|[] bs IH]; cbn; auto. Qed.
Lemma list_grows : forall (all : list (string * val)) bs l,
  exists l', calls val all (AsList l) bs = AsList (l ++ l')%list /\
    List.length l' = (5 * count_occ Bool.bool_dec bs true)%nat /\
    (In true bs -> forall n, In n complex_names -> In n l').
Proof.
  intros all bs. induction bs as [|b bs IH]; intros l.
  - exists []. rewrite app_nil_r. repeat split; auto; intros [].
  - destruct b; cbn [calls as_dict snd].
    + destruct (IH (l ++ complex_names)%list) as (l' & E & L & _).
      exists (complex_names ++ l')%list. split; [|split].
      * rewrite E. now rewrite <- app_assoc.
      * rewrite app_length, L. cbn [count_occ]. destruct (Bool.bool_dec true true); [|congruence]. cbn [complex_names List.length]. lia.
      * intros _ n I. apply in_or_app. now left.
    + destruct (IH l) as (l' & E & L & I). exists l'. split; [exact E|split].
      * rewrite L. cbn [count_occ]. destruct (Bool.bool_dec false true); [congruence|reflexivity].
      * intros [H|H]; [discriminate|auto].
Qed.
Lemma list_loses : forall (all : list (string * val)) bs l n v, In true bs -> In n complex_names ->
  ~ In (n, v) (fst (as_dict val all (calls val all (AsList l) bs) false)).
Proof.
  intros all bs l n v B C H. apply as_dict_spec in H. destruct H as (_ & H & _). apply H.
  destruct (list_grows all bs l) as (l' & E & _ & I). rewrite E. cbn. apply in_or_app. right. auto.
Qed.

End D.
(* --- surfaces --- *)
Section Q.
Variable val : Type.
Variable attributes : val -> part val.
Notation surf := (surf val).
Lemma surface_reads : forall (s : surf) d n, s_uxds val s = Some (Some d) ->
  answers (fun k => s_read val attributes k s n)
    (if in_dec string_dec n (surface_names ++ base_names) then Ok (s_class val s n)
     else match d n with Some v => Ok v | None => Err AttributeError end).
Proof.
  intros s d n U. exists 1%nat. intros [|k] L; [lia|]. unfold s_read.
  destruct (in_dec string_dec n (surface_names ++ base_names)) as [I|I].
  - apply mem_In in I. now rewrite I.
  - apply mem_not in I. rewrite I. cbn. now rewrite U.
Qed.
Lemma surface_unloaded : forall (s : surf) n, s_uxds val s = Some None ->
  ~ In n (surface_names ++ base_names) ->
  answers (fun k => s_read val attributes k s n) (Err TypeError).
Proof.
  intros s n U I. exists 1%nat. intros [|k] L; [lia|]. unfold s_read. apply mem_not in I. rewrite I. cbn. now rewrite U.
Qed.
Lemma s_bare : forall (c : string -> val) n k, s_getattr_ val attributes k (mkSurf val c None) n = None.
Proof. intros c n k. revert n. induction k; intros n; cbn; auto. now rewrite IHk. Qed.
Lemma surface_copy : forall (s : surf), never_ends (fun k => s_copied val attributes k s).
Proof.
  intros s k. unfold s_copied, s_read.
  assert (mem "__setstate__" (surface_names ++ base_names) = false) as -> by reflexivity.
  now rewrite s_bare.
Qed.
Lemma added : forall (s : surf) d n v, s_uxds val s = Some (Some d) ->
  ~ In n (surface_names ++ base_names) ->
  answers (fun k => s_read val attributes k (add_variable val s n v) n) (Ok v).
Proof.
  intros s d n v U I. exists 1%nat. intros [|k] L; [lia|]. unfold s_read.
  apply mem_not in I. rewrite I. cbn. rewrite U. cbn. now rewrite String.eqb_refl.
Qed.
Lemma added_others : forall (s : surf) d n v m, s_uxds val s = Some (Some d) -> m <> n ->
  forall k, s_read val attributes k (add_variable val s n v) m = s_read val attributes k s m.
Proof.
  intros s d n v m U NE k. unfold s_read. destruct (mem m _); auto.
  destruct k; cbn; auto. rewrite U. cbn.
  destruct (String.eqb_spec m n); [contradiction|auto].
Qed.
Lemma shadowed : forall (s : surf) n v, In n (surface_names ++ base_names) ->
  forall k, s_read val attributes k (add_variable val s n v) n = Some (Ok (s_class val s n)).
Proof. intros s n v I k. unfold s_read. apply mem_In in I. now rewrite I. Qed.
End Q.

(* --- the names --- *)
Definition disjointb (a b : list string) : bool := forallb (fun n => negb (mem n b)) a.
Lemma disjointb_sound : forall a b, disjointb a b = true -> forall n, In n a -> ~ In n b.
Proof.
  intros a b H n I. unfold disjointb in H. rewrite forallb_forall in H. specialize (H n I).
  rewrite negb_true_iff in H. now apply mem_not.
Qed.
Definition interb (a b : list string) : list string := filter (fun n => mem n b) a.
Lemma interb_spec : forall a b n, In n a /\ In n b <-> In n (interb a b).
Proof. intros a b n. unfold interb. rewrite filter_In, mem_In. tauto. Qed.

Lemma own_fields : forall n, In n (fixed_fields ++ var_fields) -> ~ In n (crater_names ++ base_names).
Proof. apply disjointb_sound. vm_compute. reflexivity. Qed.
Lemma two_parts : forall n, In n (fixed_fields ++ lunar_fields) -> ~ In n (var_fields ++ morphology_var_fields).
Proof. apply disjointb_sound. vm_compute. reflexivity. Qed.
Lemma morphology_overlap : forall n,
  In n (fixed_fields ++ lunar_fields ++ var_fields ++ morphology_var_fields) /\
  In n (morphology_crater_names ++ crater_names ++ base_names) <->
  In n ["measured_rim_height"; "measured_floor_depth"; "emplaceable"; "face_index"; "ejecta_rmax";
        "affected_face_indices"; "affected_node_indices"; "ejecta_region"; "crater_region"].
Proof.
  intros n. rewrite interb_spec.
  assert (interb (fixed_fields ++ lunar_fields ++ var_fields ++ morphology_var_fields)
                 (morphology_crater_names ++ crater_names ++ base_names) =
          ["measured_rim_height"; "measured_floor_depth"; "emplaceable"; "face_index"; "ejecta_rmax";
           "affected_face_indices"; "affected_node_indices"; "ejecta_region"; "crater_region"]) as -> by (vm_compute; reflexivity).
  tauto.
Qed.
Lemma surface_own : forall n, In n surface_variables -> ~ In n (surface_names ++ base_names).
Proof. apply disjointb_sound. vm_compute. reflexivity. Qed.
