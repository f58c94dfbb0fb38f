(** The row of a crater. *)
From Coq Require Import Reals NArith Lra.
From Verif Require Import Common Sorting Conf_model Conf_spec Conf_base Crater_model Crater_spec Crater_proofs Export_model Export_spec Export_proofs.
Open Scope R_scope.

(** Measured diameter and axes as they appear in the dictionary. *)
Definition mcols (v : var) : option R * option R * option R :=
  if shape_dec (v_major v) (v_minor v) then (measured_diameter v, None, None) else (None, v_major v, v_minor v).

Definition opt_item (k : string) (o : option R) : pairs entry := match o with Some x => [(k, ECell (XNum x))] | None => [] end.

Lemma measured_items c k : measured_pair c ->
  match pget k (match v_major (vars c), fst (fst (old_measured (vars c))) with
      | None, _ => []
      | Some _, Some d => [("measured_diameter"%string, ECell (XNum d))]
      | Some _, None => [("measured_semimajor_axis"%string, onum (snd (fst (old_measured (vars c))))); ("measured_semiminor_axis"%string, onum (snd (old_measured (vars c))))]
      end) with Some e => if kept e then Some e else None | None => None end =
  let '(d, a, b) := mcols (vars c) in
  if String.eqb k "measured_diameter" then option_map (fun x => ECell (XNum x)) d
  else if String.eqb k "measured_semimajor_axis" then option_map (fun x => ECell (XNum x)) a
  else if String.eqb k "measured_semiminor_axis" then option_map (fun x => ECell (XNum x)) b else None.
Proof.
  intros [A N]. unfold mcols. destruct (v_major (vars c)) as [M|] eqn:EM.
  2:{ rewrite (N eq_refl). destruct (shape_dec None None); [|congruence]. unfold measured_diameter, measured_radius. rewrite EM. cbn.
      destruct (String.eqb k "measured_diameter"), (String.eqb k "measured_semimajor_axis"), (String.eqb k "measured_semiminor_axis"); reflexivity. }
  destruct (v_minor (vars c)) as [m|] eqn:Em.
  - rewrite (old_measured_spec _ M m A EM Em). destruct (Req_EM_T m M) as [<-|NE].
    + destruct (shape_dec (Some m) (Some m)); [|congruence]. unfold measured_diameter, measured_radius. rewrite EM, Em. cbn.
      destruct A as (P & _). rewrite sqrt_square by (specialize (P _ EM); lra).
      destruct (String.eqb k "measured_diameter"), (String.eqb k "measured_semimajor_axis"), (String.eqb k "measured_semiminor_axis"); reflexivity.
    + destruct (shape_dec (Some M) (Some m)); [congruence|]. cbn.
      destruct (String.eqb_spec k "measured_diameter") as [->|]; [reflexivity|].
      destruct (String.eqb k "measured_semimajor_axis"), (String.eqb k "measured_semiminor_axis"); reflexivity.
  - destruct (shape_dec (Some M) None); [congruence|]. unfold old_measured. rewrite EM, Em. unfold measured_radius. rewrite EM, Em. cbn.
      destruct (String.eqb_spec k "measured_diameter") as [->|]; [reflexivity|].
      destruct (String.eqb k "measured_semimajor_axis"), (String.eqb k "measured_semiminor_axis"); reflexivity.
Qed.

Definition mitems (v : var) : pairs entry :=
  match v_major v, fst (fst (old_measured v)) with
  | None, _ => []
  | Some _, Some d => [("measured_diameter"%string, ECell (XNum d))]
  | Some _, None => [("measured_semimajor_axis"%string, onum (snd (fst (old_measured v)))); ("measured_semiminor_axis"%string, onum (snd (old_measured v)))]
  end.
Definition keep (o : option entry) : option entry := match o with Some e => if kept e then Some e else None | None => None end.

Lemma get_some_item k n o : pget k (some_item n o) = if String.eqb k n then o else None.
Proof. unfold some_item. destruct o; simpl; destruct (String.eqb k n); reflexivity. Qed.

Lemma get_var v k : pget k (var_items v) =
  orelse2 (pget k [("measured_orientation", onum (v_orient v)); ("measured_location", opair (v_loc v));
    ("measured_rim_height", onum (v_rim v)); ("measured_floor_depth", onum (v_floor v));
    ("degradation_state", onum (v_deg v))]%string)
  (orelse2 (pget k (mitems v))
  (orelse2 (if String.eqb k "production_time" then option_map (fun p => ETuple [XNum (fst p); XNum (snd p)]) (v_ptime v) else None)
  (orelse2 (if String.eqb k "production_ND" then option_map (fun p => ETuple [XNum (fst (fst p)); XNum (snd (fst p)); XNum (snd p)]) (v_pND v) else None)
  (orelse2 (if String.eqb k "name" then option_map (fun s => ECell (XText s)) (v_name v) else None)
           (if String.eqb k "production_sequence" then option_map (fun z => ECell (XInt z)) (v_pseq v) else None))))).
Proof.
  unfold var_items, mitems. destruct (old_measured v) as [[d a] b]. cbn [fst snd].
  rewrite !pget_app, !get_some_item.
  destruct (v_major v), d; reflexivity.
Qed.

Lemma mitems_none v k : k <> "measured_diameter"%string -> k <> "measured_semimajor_axis"%string -> k <> "measured_semiminor_axis"%string ->
  pget k (mitems v) = None.
Proof.
  intros. apply pget_none. unfold mitems. destruct (v_major v), (fst (fst (old_measured v))); simpl; intuition.
Qed.

Lemma keep_num o : keep (Some (onum o)) = option_map ECell (option_map XNum o).
Proof. destruct o; reflexivity. Qed.
Lemma keep_text o : keep (Some (otext o)) = option_map ECell (text_value o).
Proof. destruct o as [s|]; [|reflexivity]. simpl. destruct (String.eqb s ""); reflexivity. Qed.
Lemma keep_name (o : option string) : keep (option_map (fun s => ECell (XText s)) o) = option_map ECell (text_value o).
Proof. destruct o as [s|]; [|reflexivity]. simpl. destruct (String.eqb s ""); reflexivity. Qed.

Lemma columns_keys c : map fst (csv_columns c) = skipn 3 own_names.
Proof. reflexivity. Qed.

Lemma or_none {A} (o : option A) : Conf_spec.orelse o None = o.
Proof. destruct o; reflexivity. Qed.

Lemma get_value c k : extra_ok c -> measured_pair c ->
  spread_value c k =
    if String.eqb k "semimajor_axis" then option_map (fun x => ECell (XNum x)) (f_major (fixed c))
    else if String.eqb k "semiminor_axis" then option_map (fun x => ECell (XNum x)) (f_minor (fixed c))
    else option_map ECell (csv_value k c).
Proof.
  intros X P. pose proof (measured_items c k P) as MI. fold (mitems (vars c)) in MI. fold (keep (pget k (mitems (vars c)))) in MI.
  unfold spread_value. rewrite get_as_dict by exact X. rewrite get_var.
  match goal with |- context [match ?o with Some e => if kept e then Some e else None | None => None end] =>
    change (match o with Some e => if kept e then Some e else None | None => None end) with (keep o) end.
  destruct (in_dec string_dec k own_names) as [I|NI].
  - pose proof (not_extra c k X I) as NX. rewrite NX.
    assert (V : forall o, pget k (csv_columns c) = Some o -> csv_value k c = o) by (intros o H; unfold csv_value; rewrite H; reflexivity).
    unfold own_names in I. cbn [app In] in I.
    repeat (destruct I as [<-|I]; [
      try rewrite mitems_none by discriminate;
      try (rewrite (V _ eq_refl));
      cbn in MI |- *; rewrite ?or_none;
      try reflexivity; try apply keep_num; try apply keep_text; try apply keep_name;
      try (unfold csv_value; cbn; rewrite NX; reflexivity);
      try (rewrite MI; unfold mcols; destruct (shape_dec (v_major (vars c)) (v_minor (vars c))); cbn;
           [destruct (measured_diameter (vars c)); reflexivity | destruct (v_major (vars c)), (v_minor (vars c)); reflexivity]);
      try (destruct (f_major (fixed c)); reflexivity); try (destruct (f_minor (fixed c)); reflexivity);
      try (destruct (f_loc (fixed c)); reflexivity); try (destruct (v_loc (vars c)); reflexivity);
      try (destruct (f_time (fixed c)); reflexivity);
      try (destruct (v_ptime (vars c)); reflexivity);
      try (destruct (v_pND (vars c)); reflexivity);
      try (destruct (v_pseq (vars c)); reflexivity)
      |]).
    contradiction.
  - assert (NK : forall s, In s own_names -> String.eqb k s = false).
    { intros s' I. destruct (String.eqb_spec k s') as [->|]; [contradiction|reflexivity]. }
    assert (C1 : pget k (csv_columns c) = None).
    { apply pget_none. rewrite columns_keys. intros J. apply NI. revert J. apply incl_b. reflexivity. }
    assert (C2 : pget k (fixed19 (fixed c)) = None).
    { apply pget_none. intros J. apply NI. change (map fst (fixed19 (fixed c))) with fixed_names in J. exact (fixed_own k J). }
    unfold csv_value. rewrite C1, C2.
    rewrite mitems_none by (intros ->; apply NI; own).
    cbn [pget]. rewrite !NK by own. cbn [Conf_spec.orelse].
    destruct (pget k (f_extra (fixed c))) as [o|]; [apply keep_num|reflexivity].
Qed.

Theorem csv_ok c : regular c -> exists d, csv_dict c = Ok d /\ is_dict d /\ id_first d /\
  forall k, pget k d = option_map ECell (csv_value k c).
Proof.
  intros (X & (A1 & A2 & L & M) & P). destruct (convert_value c X L M) as (d & Q & D & I & G).
  assert (G' : forall k, pget k d =
    if String.eqb k "semimajor_axis" then option_map (fun x => ECell (XNum x)) (f_major (fixed c))
    else if String.eqb k "semiminor_axis" then option_map (fun x => ECell (XNum x)) (f_minor (fixed c))
    else option_map ECell (csv_value k c)) by (intro k; rewrite G; exact (get_value c k X P)). clear G.
  unfold csv_dict. rewrite Q. cbn [rbind].
  destruct (f_major (fixed c)) as [a|] eqn:Ea; [|congruence]. destruct (f_minor (fixed c)) as [b|] eqn:Eb; [|congruence].
  assert (E1 : csv_value "measured_semimajor_axis" c = if shape_dec (v_major (vars c)) (v_minor (vars c)) then None else option_map XNum (v_major (vars c))) by reflexivity.
  assert (E2 : csv_value "measured_semiminor_axis" c = if shape_dec (v_major (vars c)) (v_minor (vars c)) then None else option_map XNum (v_minor (vars c))) by reflexivity.
  match goal with |- context [rbind ?m _] => assert (HM : m = Ok d) end.
  { rewrite (G' "measured_semimajor_axis"%string), (G' "measured_semiminor_axis"%string).
    change (String.eqb "measured_semimajor_axis" "semimajor_axis") with false. change (String.eqb "measured_semimajor_axis" "semiminor_axis") with false.
    change (String.eqb "measured_semiminor_axis" "semimajor_axis") with false. change (String.eqb "measured_semiminor_axis" "semiminor_axis") with false.
    cbv iota. rewrite E1, E2. cbn. destruct (shape_dec (v_major (vars c)) (v_minor (vars c))); [reflexivity|].
    destruct (v_major (vars c)), (v_minor (vars c)); try reflexivity. cbn. destruct (Req_EM_T r r0); [congruence|reflexivity]. }
  rewrite HM. cbn [rbind]. rewrite (G' "semimajor_axis"%string), (G' "semiminor_axis"%string). cbn.
  destruct (Req_EM_T a b) as [E|NE].
  - destruct (circular_value "diameter" "semimajor_axis" "semiminor_axis" a d D I) as (d' & Q' & D' & I' & V'); try discriminate.
    exists d'. split; [exact Q'|]. split; [exact D'|]. split; [exact I'|]. intro k. rewrite V', G'.
    destruct (String.eqb_spec k "semimajor_axis") as [->|N1].
    { unfold csv_value. cbn. rewrite Ea, Eb, E. destruct (shape_dec (Some b) (Some b)); [reflexivity|congruence]. }
    destruct (String.eqb_spec k "semiminor_axis") as [->|N2].
    { unfold csv_value. cbn. rewrite Ea, Eb, E. destruct (shape_dec (Some b) (Some b)); [reflexivity|congruence]. }
    cbn [orb]. destruct (String.eqb_spec k "diameter") as [->|N3].
    { unfold csv_value. cbn. unfold d_diameter, d_radius. rewrite Ea, Eb. reflexivity. }
    destruct (csv_value k c); reflexivity.
  - exists d. split; [reflexivity|]. split; [exact D|]. split; [exact I|]. intro k. rewrite G'.
    destruct (String.eqb_spec k "semimajor_axis") as [->|N1].
    { unfold csv_value. cbn. rewrite Ea, Eb. destruct (shape_dec (Some a) (Some b)); [congruence|reflexivity]. }
    destruct (String.eqb_spec k "semiminor_axis") as [->|N2].
    { unfold csv_value. cbn. rewrite Ea, Eb. destruct (shape_dec (Some a) (Some b)); [congruence|reflexivity]. }
    reflexivity.
Qed.
