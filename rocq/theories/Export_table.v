(** Tables of craters. *)
From Coq Require Import Reals NArith Lra.
From Verif Require Import Common Sorting Conf_model Conf_spec Conf_base Crater_model Crater_spec Crater_proofs Export_model Export_spec Export_proofs Export_dict.
Open Scope R_scope.

Section T.
Context {dataset : Type} (fx : dataset -> option Z -> result (list crater)).
Notation csv_rows := (csv_rows dataset).
Notation item := (item dataset).

Lemma row_shown c d h : (forall k, pget k d = option_map ECell (csv_value k c)) ->
  map (fun k => match pget k d with Some e => e | None => empty_cell end) h = map (shown c) h.
Proof. intros G. apply map_ext. intro k. rewrite G. unfold shown. destruct (csv_value k c); reflexivity. Qed.

Lemma rows_given h cs : Forall regular cs -> csv_rows (Some h) (map ICrater cs) = (map (fun c => map (shown c) h) cs, None).
Proof.
  induction 1 as [|c cs Rc _ IH]; [reflexivity|]. cbn [map csv_rows]. destruct (csv_ok c Rc) as (d & -> & _ & _ & G).
  rewrite IH. rewrite (row_shown c d h G). reflexivity.
Qed.

Lemma rows_first c cs : Forall regular (c :: cs) -> exists h, csv_rows None (map ICrater (c :: cs)) =
    (map (fun k => ECell (XText k)) h :: map (fun c => map (shown c) h) (c :: cs), None) /\ NoDup h /\
    (exists r, h = "id"%string :: r) /\ forall k, In k h <-> csv_value k c <> None.
Proof.
  intros F. inversion F as [|? ? Rc Fc]; subst. cbn [map csv_rows]. destruct (csv_ok c Rc) as (d & -> & D & I & G).
  exists (map fst d). fold (map (@ICrater dataset) cs). rewrite (rows_given _ cs Fc), (row_shown c d _ G). split; [reflexivity|]. split; [exact D|].
  split; [destruct I as (n & r & ->); eexists; reflexivity|].
  intro k. pose proof (pget_none k d) as N. rewrite G in N. destruct (csv_value k c); cbn in N; split; intros H.
  - discriminate.
  - destruct (in_dec string_dec k (map fst d)); [assumption|]. destruct N as [_ N]. specialize (N n). discriminate.
  - destruct N as [N _]. exact (False_ind _ (N eq_refl H)).
  - congruence.
Qed.

Lemma only_map cs : only_craters dataset (map Some cs) = Ok (map ICrater cs).
Proof. induction cs as [|c cs IH]; [reflexivity|]. cbn [map only_craters]. rewrite IH. reflexivity. Qed.

Lemma validate_list st ty iv cs : ty = "observed"%string \/ ty = "emplaced"%string ->
  validate_export dataset fx st ty iv (CraterList (map Some cs)) = Ok (map ICrater cs).
Proof. intros [->| ->]; cbn; apply only_map. Qed.

Theorem table_shows st ty iv c cs file : ty = "observed"%string \/ ty = "emplaced"%string -> Forall regular (c :: cs) ->
  exists h t, to_csv dataset fx true st ty iv (CraterList (map Some (c :: cs))) file = (Some t, None) /\
    shows h (c :: cs) t /\ NoDup h /\ forall k, In k h <-> csv_value k c <> None.
Proof.
  intros Ty F. unfold to_csv. rewrite (validate_list st ty iv _ Ty).
  destruct (rows_first c cs F) as (h & -> & N & _ & K). eexists h, _. split; [reflexivity|]. split; [reflexivity|]. auto.
Qed.

Lemma table_empty st ty iv file : ty = "observed"%string \/ ty = "emplaced"%string ->
  to_csv dataset fx true st ty iv (CraterList []) file = (Some [], None).
Proof. intros Ty. unfold to_csv. change (@nil (option crater)) with (map (@Some crater) []). rewrite (validate_list st ty iv [] Ty). reflexivity. Qed.

Theorem table_complete c cs h : (forall k, In k h <-> csv_value k c <> None) ->
  ((forall c', In c' cs -> forall k, csv_value k c' <> None -> csv_value k c <> None) <-> complete_table h (c :: cs)).
Proof.
  intros K. split.
  - intros H c' k [<-|I] V; apply K; [exact V|]. exact (H c' I k V).
  - intros H c' I k V. apply K. exact (H c' k (or_intror I) V).
Qed.

(* ---------- failures ---------- *)
Lemma csv_fails c : extra_ok c -> ~ exportable c -> exists e, csv_dict c = Err e /\ (e = TypeError \/ e = KeyError).
Proof.
  intros X N. unfold csv_dict.
  destruct (f_loc (fixed c)) as [l|] eqn:EL.
  2:{ exists TypeError. split; [|auto]. unfold convert_tuple_vars, tuple_map. cbn [convert]. destruct (get_tuples c X) as (-> & _). rewrite EL. reflexivity. }
  destruct (v_loc (vars c)) as [m|] eqn:EM.
  2:{ exists TypeError. split; [|auto]. unfold convert_tuple_vars, tuple_map. cbn [convert]. destruct (get_tuples c X) as (-> & -> & _). rewrite EL, EM.
      destruct l. cbn. reflexivity. }
  exists KeyError. split; [|auto].
  destruct (convert_value c X) as (d & Q & D & I & G); [congruence|congruence|]. rewrite Q. cbn [rbind].
  assert (V1 : forall k, ~ In k ["longitude"; "latitude"; "measured_longitude"; "measured_latitude"; "production_D"; "production_N"; "production_N_stdev"; "production_time"; "production_time_stdev"; "location"; "measured_location"; "production_ND"]%string ->
     pget k d = keep (pget k (as_dict c))).
  { intros k NI. rewrite G. unfold spread_value. repeat match goal with |- context [String.eqb k ?s] => destruct (String.eqb_spec k s); [subst k; exfalso; apply NI; simpl; tauto|] end. reflexivity. }
  assert (Ma : pget "semimajor_axis" d = option_map (fun x => ECell (XNum x)) (f_major (fixed c))).
  { rewrite V1 by (simpl; intuition discriminate). rewrite get_as_dict by exact X. rewrite get_var, mitems_none by discriminate. rewrite (not_extra c) by (try exact X; own). cbn. destruct (f_major (fixed c)); reflexivity. }
  assert (Mb : pget "semiminor_axis" d = option_map (fun x => ECell (XNum x)) (f_minor (fixed c))).
  { rewrite V1 by (simpl; intuition discriminate). rewrite get_as_dict by exact X. rewrite get_var, mitems_none by discriminate. rewrite (not_extra c) by (try exact X; own). cbn. destruct (f_minor (fixed c)); reflexivity. }
  assert (NN : f_major (fixed c) = None \/ f_minor (fixed c) = None).
  { destruct (f_major (fixed c)) as [a|] eqn:Ea; [|auto]. destruct (f_minor (fixed c)) as [b|] eqn:Eb; [|auto]. exfalso. apply N.
    unfold exportable. rewrite Ea, Eb, EL, EM. repeat split; discriminate. }
  assert (Fin : forall d', pget "semimajor_axis" d' = pget "semimajor_axis" d -> pget "semiminor_axis" d' = pget "semiminor_axis" d ->
     match pget "semimajor_axis" d', pget "semiminor_axis" d' with
     | Some (ECell (XNum a)), Some (ECell (XNum b)) => if Req_EM_T a b then circular_item "diameter" "semimajor_axis" "semiminor_axis" a d' else Ok d'
     | Some _, Some _ => Ok d' | _, _ => Err KeyError end = Err KeyError).
  { intros d' -> ->. rewrite Ma, Mb. destruct NN as [-> | ->]; cbn; [reflexivity|]. destruct (f_major (fixed c)); reflexivity. }
  match goal with |- rbind ?m _ = _ => assert (HM : exists d', m = Ok d' /\ pget "semimajor_axis" d' = pget "semimajor_axis" d /\ pget "semiminor_axis" d' = pget "semiminor_axis" d) end.
  { destruct (pget "measured_semimajor_axis" d) as [e1|]; [|exists d; auto].
    destruct e1 as [|x1|]; try (destruct (pget "measured_semiminor_axis" d); exists d; auto; fail).
    destruct (pget "measured_semiminor_axis" d) as [e2|]; [|exists d; destruct x1; auto].
    destruct x1; try (exists d; auto; fail). destruct e2 as [|x2|]; try (exists d; auto; fail). destruct x2; try (exists d; auto; fail).
    destruct (Req_EM_T x x0); [|exists d; auto].
    destruct (circular_value "measured_diameter" "measured_semimajor_axis" "measured_semiminor_axis" x d D I) as (d' & E & _ & _ & V); try discriminate.
    exists d'. split; [exact E|]. rewrite !V. cbn. destruct (pget "semimajor_axis" d), (pget "semiminor_axis" d); auto. }
  destruct HM as (d' & -> & H1 & H2). cbn [rbind]. apply Fin; assumption.
Qed.

(** A crater that cannot be exported stops the export: the rows before it stay in the file. *)
Lemma rows_stop h pre bad post : Forall regular pre -> extra_ok bad -> ~ exportable bad ->
  exists e, csv_rows (Some h) (map ICrater (pre ++ bad :: post)) = (map (fun c => map (shown c) h) pre, Some e).
Proof.
  intros F X N. induction F as [|c pre Rc _ IH].
  - cbn [app map csv_rows]. destruct (csv_fails bad X N) as (e & -> & _). exists e. reflexivity.
  - destruct IH as (e & IH). exists e. cbn [app map csv_rows]. destruct (csv_ok c Rc) as (d & -> & _ & _ & G).
    rewrite IH, (row_shown c d h G). reflexivity.
Qed.

Theorem table_stops st ty iv c pre bad post file : ty = "observed"%string \/ ty = "emplaced"%string -> Forall regular (c :: pre) ->
  extra_ok bad -> ~ exportable bad ->
  exists h e, to_csv dataset fx true st ty iv (CraterList (map Some ((c :: pre) ++ bad :: post))) file =
     (Some (map (fun k => ECell (XText k)) h :: map (fun c => map (shown c) h) (c :: pre)), Some e).
Proof.
  intros Ty F X N. unfold to_csv. rewrite (validate_list st ty iv _ Ty). inversion F as [|? ? Rc Fc]; subst.
  cbn [app map csv_rows]. destruct (csv_ok c Rc) as (d & -> & D & I & G).
  destruct (rows_stop (map fst d) pre bad post Fc X N) as (e & Q). exists (map fst d), e.
  rewrite Q, (row_shown c d _ G). reflexivity.
Qed.

Lemma default_fails go st iv file : exists e, to_csv dataset fx go st "observed" iv FromSelf file = (file, Some e) /\
  (e = IndexError <-> observed_ st = []).
Proof.
  unfold to_csv. cbn. destruct (observed_ st) as [|p l].
  - exists IndexError. split; [reflexivity|]. tauto.
  - exists UnboundLocalError. split; [reflexivity|]. split; discriminate.
Qed.
Lemma default_emplaced go st iv file : to_csv dataset fx go st "emplaced" iv FromSelf file =
  to_csv dataset fx go st "emplaced" iv (CraterList (map Some (emplaced_ st))) file.
Proof. reflexivity. Qed.
Lemma datasets_fail st ty iv p l file : ty = "observed"%string \/ ty = "emplaced"%string ->
  to_csv dataset fx true st ty iv (DatasetDict (p :: l)) file = (Some [], Some AttributeError).
Proof. intros [->| ->]; reflexivity. Qed.
End T.
