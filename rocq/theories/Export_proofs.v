(** Proofs for exported crater tables. *)
From Coq Require Import Reals NArith Lra.
From Verif Require Import Common Sorting Conf_model Conf_spec Conf_base Crater_model Crater_spec Export_model Export_spec.
Open Scope R_scope.

Notation orelse2 := Conf_spec.orelse.

(* ---------- the dictionary of a crater ---------- *)
Definition fixed19 (f : fixedf) : pairs entry := fixed_items (mk_fixed (f_id f) (f_major f) (f_minor f) (f_orient f) (f_td f)
  (f_pd f) (f_pv f) (f_pang f) (f_pm f) (f_loc f) (f_mt f) (f_time f) []).
Lemma fixed_split f : fixed_items f = (fixed19 f ++ map (fun p => (fst p, onum (snd p))) (f_extra f))%list.
Proof. reflexivity. Qed.

Fixpoint nodupb (l : list string) : bool := match l with [] => true | k :: r => negb (existsb (String.eqb k) r) && nodupb r end.
Lemma in_b k l : existsb (String.eqb k) l = true <-> In k l.
Proof. rewrite existsb_exists. split; [intros (x & I & E); apply String.eqb_eq in E; subst; exact I|intros I; exists k; split; [exact I|apply String.eqb_refl]]. Qed.
Lemma notin_b k l : existsb (String.eqb k) l = false -> ~ In k l.
Proof. intros E I. apply in_b in I. congruence. Qed.
Lemma nodup_b l : nodupb l = true -> NoDup l.
Proof.
  induction l as [|k r IH]; [constructor|]. simpl. intros H. apply andb_true_iff in H as [A B]. constructor; [|auto].
  apply notin_b, negb_true_iff, A.
Qed.
Ltac nodup := apply nodup_b; reflexivity.
Ltac own := apply in_b; reflexivity.
Definition fixed_names : list string := map fst (fixed19 (mk_fixed 0 None None None None None None None None None None None [])).
Lemma incl_b l m : forallb (fun k => existsb (String.eqb k) m) l = true -> forall k : string, In k l -> In k m.
Proof. intros H k I. rewrite forallb_forall in H. apply in_b. exact (H k I). Qed.
Lemma fixed_own k : In k fixed_names -> In k own_names.
Proof. apply incl_b. reflexivity. Qed.
Lemma dict_fixed c : extra_ok c -> is_dict (fixed_items (fixed c)).
Proof.
  intros [N X]. rewrite fixed_split. apply dict_app.
  - unfold is_dict. nodup.
  - unfold is_dict. rewrite keys_some. exact N.
  - intros k I J. rewrite keys_some in J. apply (X k J). change (map fst (fixed19 (fixed c))) with fixed_names in I.
    exact (fixed_own k I).
Qed.
Lemma dict_var v : is_dict (var_items v).
Proof.
  unfold is_dict, var_items. destruct (old_measured v) as [[d a] b].
  destruct (v_major v), d, (v_ptime v), (v_pND v), (v_name v), (v_pseq v); nodup.
Qed.

Lemma get_as_dict c k : extra_ok c ->
  pget k (as_dict c) = orelse2 (pget k (var_items (vars c))) (orelse2 (pget k (fixed19 (fixed c)))
     (match pget k (f_extra (fixed c)) with Some o => Some (onum o) | None => None end)).
Proof.
  intros X. unfold as_dict. rewrite pget_pupdate by apply dict_var. rewrite pget_pupdate by (apply dict_fixed; exact X).
  rewrite fixed_split, pget_app, pget_some. change (pget k []) with (@None entry).
  generalize (pget k (var_items (vars c))) (pget k (fixed19 (fixed c))) (pget k (f_extra (fixed c))).
  intros [x|] [y|] [z|]; reflexivity.
Qed.
Lemma dict_as_dict c : extra_ok c -> is_dict (as_dict c).
Proof. intros X. unfold as_dict. apply dict_pupdate, dict_pupdate. constructor. Qed.

Definition id_first (d : pairs entry) : Prop := exists n r, d = ("id"%string, ECell (XId n)) :: r.
Lemma id_pset d k e : k <> "id"%string -> id_first d -> id_first (pset k e d).
Proof.
  intros N (n & r & ->). simpl. destruct (String.eqb_spec k "id"); [contradiction|]. eexists. eexists. reflexivity.
Qed.
Lemma id_pupdate e : forall d, (forall k, In k (map fst e) -> k <> "id"%string) -> id_first d -> id_first (pupdate d e).
Proof.
  unfold pupdate. induction e as [|[k x] r IH]; intros d H D; [exact D|]. cbn [fold_left fst snd]. apply IH.
  - intros k' I. apply H. right. exact I.
  - apply id_pset; [|exact D]. apply H. left. reflexivity.
Qed.
Lemma id_pdel d k : k <> "id"%string -> id_first d -> id_first (pdel k d).
Proof. intros N (n & r & ->). unfold pdel. simpl. destruct (String.eqb_spec k "id"); [contradiction|]. simpl. eexists. eexists. reflexivity. Qed.
Lemma id_as_dict c : extra_ok c -> id_first (as_dict c).
Proof.
  intros X. unfold as_dict. apply id_pupdate.
  - intros k I. pose proof (dict_var (vars c)). unfold var_items in I. destruct (old_measured (vars c)) as [[d a] b].
    destruct (v_major (vars c)), d, (v_ptime (vars c)), (v_pND (vars c)), (v_name (vars c)), (v_pseq (vars c));
      intros ->; revert I; apply notin_b; reflexivity.
  - unfold pupdate, fixed_items. cbn [app]. cbn [fold_left fst snd]. apply id_pupdate.
    + intros k I E. subst k. pose proof (dict_fixed c X) as D. inversion D; subst. apply H1. revert I. clear. intro I. simpl. do 18 right. exact I.
    + eexists. eexists. reflexivity.
Qed.

Lemma get_kept (d : pairs entry) k : is_dict d ->
  pget k (filter (fun p => kept (snd p)) d) = match pget k d with Some e => if kept e then Some e else None | None => None end.
Proof.
  intros D. induction d as [|[k' e] r IH]; [reflexivity|]. inversion D; subst. cbn [filter snd].
  assert (N : pget k' r = None) by (apply pget_none; assumption).
  destruct (kept e) eqn:K; cbn [pget]; destruct (String.eqb_spec k k') as [->|NE].
  - rewrite K. reflexivity.
  - apply IH; assumption.
  - rewrite K. rewrite IH by assumption. rewrite N. reflexivity.
  - apply IH; assumption.
Qed.
Lemma id_kept d : id_first d -> id_first (filter (fun p => kept (snd p)) d).
Proof. intros (n & r & ->). simpl. eexists. eexists. reflexivity. Qed.

(* ---------- spreading the tuples ---------- *)
Lemma spread_ok l names : forall i d, (i + List.length names <= List.length l)%nat ->
  exists d', spread (ETuple l) i names d = Ok d' /\ (is_dict d -> is_dict d') /\
    (~ In "id"%string names -> id_first d -> id_first d').
Proof.
  induction names as [|k r IH]; intros i d L; [exists d; auto|]. cbn [spread element].
  destruct (nth_error l i) as [c|] eqn:E; [|apply nth_error_None in E; simpl in L; lia].
  cbn [rbind]. destruct (IH (S i) (pset k (ECell c) d)) as (d' & Q & D & F); [simpl in L; lia|].
  exists d'. split; [exact Q|]. split; [intros; apply D, dict_pset; assumption|].
  intros NI I. apply F; [intros J; apply NI; right; exact J|]. apply id_pset; [|exact I].
  intros ->. apply NI. left. reflexivity.
Qed.
Lemma get_old_pairs v : pget "location" (var_items v) = None /\ pget "measured_location" (var_items v) = Some (opair (v_loc v)) /\
  pget "production_ND" (var_items v) = option_map (fun p => ETuple [XNum (fst (fst p)); XNum (snd (fst p)); XNum (snd p)]) (v_pND v) /\
  pget "production_time" (var_items v) = option_map (fun p => ETuple [XNum (fst p); XNum (snd p)]) (v_ptime v).
Proof.
  unfold var_items. destruct (old_measured v) as [[d a] b].
  destruct (v_major v), d, (v_ptime v), (v_pND v), (v_name v), (v_pseq v); simpl; auto.
Qed.

Lemma not_extra c k : extra_ok c -> In k own_names -> pget k (f_extra (fixed c)) = None.
Proof. intros [_ X] I. apply pget_none. intros J. exact (X k J I). Qed.

Lemma get_tuples c : extra_ok c ->
  pget "location" (as_dict c) = Some (opair (f_loc (fixed c))) /\
  pget "measured_location" (as_dict c) = Some (opair (v_loc (vars c))) /\
  pget "production_ND" (as_dict c) =
    option_map (fun p => ETuple [XNum (fst (fst p)); XNum (snd (fst p)); XNum (snd p)]) (v_pND (vars c)) /\
  pget "production_time" (as_dict c) = option_map (fun p => ETuple [XNum (fst p); XNum (snd p)]) (v_ptime (vars c)).
Proof.
  intros X. rewrite !get_as_dict by exact X. destruct (get_old_pairs (vars c)) as (-> & -> & -> & ->).
  rewrite !(not_extra c) by (try exact X; own).
  split; [reflexivity|]. split; [reflexivity|].
  split; [destruct (v_pND (vars c)); reflexivity|destruct (v_ptime (vars c)); reflexivity].
Qed.

Lemma get_parts c k : extra_ok c ->
  In k ["production_D"; "production_N"; "production_N_stdev"; "production_time_stdev"]%string -> pget k (as_dict c) = None.
Proof.
  intros X I. rewrite get_as_dict by exact X. rewrite (not_extra c k X) by (revert I; apply (incl_b _ own_names); reflexivity).
  simpl in I. unfold var_items. destruct (old_measured (vars c)) as [[d a] b].
  destruct I as [<-|[<-|[<-|[<-|[]]]]];
  destruct (v_major (vars c)), d, (v_ptime (vars c)), (v_pND (vars c)), (v_name (vars c)), (v_pseq (vars c)); reflexivity.
Qed.

(** The value of column [k] after the tuples are spread. *)
Definition spread_value (c : crater) (k : string) : option entry :=
  let base := match pget k (as_dict c) with Some e => if kept e then Some e else None | None => None end in
  let is s := String.eqb k s in
  if is "longitude" then option_map (fun p => ECell (XNum (fst p))) (f_loc (fixed c))
  else if is "latitude" then option_map (fun p => ECell (XNum (snd p))) (f_loc (fixed c))
  else if is "measured_longitude" then option_map (fun p => ECell (XNum (fst p))) (v_loc (vars c))
  else if is "measured_latitude" then option_map (fun p => ECell (XNum (snd p))) (v_loc (vars c))
  else if is "production_D" then option_map (fun p => ECell (XNum (fst (fst p)))) (v_pND (vars c))
  else if is "production_N" then option_map (fun p => ECell (XNum (snd (fst p)))) (v_pND (vars c))
  else if is "production_N_stdev" then option_map (fun p => ECell (XNum (snd p))) (v_pND (vars c))
  else if is "production_time" then option_map (fun p => ECell (XNum (fst p))) (v_ptime (vars c))
  else if is "production_time_stdev" then option_map (fun p => ECell (XNum (snd p))) (v_ptime (vars c))
  else if is "location" then None else if is "measured_location" then None else if is "production_ND" then None
  else base.

Lemma convert_value c : extra_ok c -> f_loc (fixed c) <> None -> v_loc (vars c) <> None ->
  exists d, convert_tuple_vars (as_dict c) = Ok d /\ is_dict d /\ id_first d /\ forall k, pget k d = spread_value c k.
Proof.
  intros X L M. destruct (get_tuples c X) as (T1 & T2 & T3 & T4).
  assert (P1 := get_parts c "production_D" X). assert (P2 := get_parts c "production_N" X).
  assert (P3 := get_parts c "production_N_stdev" X). assert (P4 := get_parts c "production_time_stdev" X).
  specialize (P1 ltac:(simpl; tauto)). specialize (P2 ltac:(simpl; tauto)). specialize (P3 ltac:(simpl; tauto)). specialize (P4 ltac:(simpl; tauto)).
  unfold convert_tuple_vars, tuple_map. cbn [convert]. rewrite T1, T2, T3, T4.
  set (d0 := filter _ _).
  assert (D0 : is_dict d0) by (apply dict_filter, dict_as_dict, X).
  assert (I0 : id_first d0) by (apply id_kept, id_as_dict, X).
  assert (G0 : forall k, pget k d0 = match pget k (as_dict c) with Some e => if kept e then Some e else None | None => None end)
    by (intro k; apply get_kept, dict_as_dict, X).
  clearbody d0.
  destruct (f_loc (fixed c)) as [[lon lat]|] eqn:EL; [|congruence].
  destruct (v_loc (vars c)) as [[mlon mlat]|] eqn:EM; [|congruence].
  unfold spread_value. rewrite EL, EM.
  destruct (v_pND (vars c)) as [[[pd pn] ps]|] eqn:EN; destruct (v_ptime (vars c)) as [[pt pts]|] eqn:ET;
    cbn [option_map opair spread element nth_error rbind convert fst snd];
    (eexists; split; [reflexivity|]; split; [repeat (apply dict_pset || apply dict_filter || (unfold pdel; apply dict_filter)); exact D0|];
     split; [repeat ((apply id_pset; [discriminate|]) || (apply id_pdel; [discriminate|])); exact I0|]; intro k;
     repeat rewrite ?pget_pset, ?pget_pdel; rewrite G0;
     repeat match goal with |- context [String.eqb ?q ?s] => is_var q; destruct (String.eqb_spec q s); [subst q; try reflexivity|] end;
     try reflexivity).
  all: rewrite ?T3, ?T4, ?P1, ?P2, ?P3, ?P4; reflexivity.
Qed.

(* ---------- circular craters ---------- *)
Lemma circular_value key ka kb a d : is_dict d -> id_first d -> ka <> "id"%string -> kb <> "id"%string -> key <> "id"%string ->
  exists d', circular_item key ka kb a d = Ok d' /\ is_dict d' /\ id_first d' /\
    forall k, pget k d' = if String.eqb k ka || String.eqb k kb then (if String.eqb k key then Some (ECell (XNum (2 * a))) else None)
                          else match pget k d with Some e => Some e | None => if String.eqb k key then Some (ECell (XNum (2 * a))) else None end.
Proof.
  intros D I Na Nb Nk. unfold circular_item.
  assert (D' : is_dict (pdel kb (pdel ka d))) by (unfold pdel; apply dict_filter, dict_filter, D).
  assert (I' : id_first (pdel kb (pdel ka d))) by (apply id_pdel, id_pdel; assumption).
  assert (G : forall k, pget k (pdel kb (pdel ka d)) = if String.eqb k ka || String.eqb k kb then None else pget k d).
  { intro k. rewrite !pget_pdel. destruct (String.eqb k ka), (String.eqb k kb); reflexivity. }
  destruct I' as (n & r & E). rewrite E in *. cbn [tl pget String.eqb Ascii.eqb Bool.eqb].
  change (pget "id" (("id"%string, ECell (XId n)) :: r)) with (Some (ECell (XId n))).
  inversion D' as [|? ? Nr Dr]; subst.
  eexists. split; [reflexivity|]. split.
  - apply dict_pupdate. constructor; [simpl; intros [H|[]]; congruence|constructor; [intros []|constructor]].
  - split; [apply id_pupdate; [intros k H ->; contradiction|eexists; eexists; reflexivity]|].
    intro k. rewrite pget_pupdate by exact Dr. specialize (G k). cbn [pget] in *.
    destruct (String.eqb_spec k "id") as [E2|NE].
    + subst k. rewrite (proj2 (pget_none "id" r) Nr). cbn [orelse].
      destruct (String.eqb_spec "id" ka); [congruence|]. destruct (String.eqb_spec "id" kb); [congruence|].
      cbn [orb] in *. rewrite <- G. reflexivity.
    + rewrite G. destruct (String.eqb k ka || String.eqb k kb); cbn [orelse].
      * reflexivity.
      * destruct (pget k d); reflexivity.
Qed.
