(** Proofs for C125. *)
From Coq Require Import String Ascii List Lia Bool.
From Verif Require Import Wkt_model Wkt_spec.
Import ListNotations.
Open Scope string_scope.

Lemma app_a (a b c : string) : (a ++ b) ++ c = a ++ b ++ c.
Proof. induction a; cbn; [reflexivity | rewrite IHa; reflexivity]. Qed.

(** The state after a text that does not close the first bracket. *)
Fixpoint after (d : nat) (q : bool) (s : string) : option (nat * bool) :=
  match s with
  | EmptyString => Some (d, q)
  | String c r =>
      if Ascii.eqb c quote then after d (negb q) r
      else if q then after d q r
      else if Ascii.eqb c opening then after (S d) false r
      else if Ascii.eqb c closing then match d with O => None | S O => None | S d' => after d' false r end
      else after d false r
  end.
Lemma after_app : forall s t d q, after d q (s ++ t) = match after d q s with Some (d', q') => after d' q' t | None => None end.
Proof.
  induction s as [| c s IH]; intros t d q; [reflexivity |]. cbn [append after].
  destruct (Ascii.eqb c quote); [apply IH |]. destruct q; [apply IH |]. destruct (Ascii.eqb c opening); [apply IH |].
  destruct (Ascii.eqb c closing); [destruct d as [| [| d]]; try reflexivity; apply IH | apply IH].
Qed.
Lemma scan_after : forall s t d q d' q', after d q s = Some (d', q') ->
  scan d q (s ++ t) = match scan d' q' t with Some (a, b) => Some (s ++ a, b) | None => None end.
Proof.
  induction s as [| c s IH]; intros t d q d' q' H.
  - injection H as <- <-. cbn. destruct (scan d q t) as [[a b] |]; reflexivity.
  - cbn [append after scan] in *. destruct (Ascii.eqb c quote); [rewrite (IH t _ _ _ _ H); destruct (scan d' q' t) as [[a b] |]; reflexivity |].
    destruct q; [rewrite (IH t _ _ _ _ H); destruct (scan d' q' t) as [[a b] |]; reflexivity |].
    destruct (Ascii.eqb c opening); [rewrite (IH t _ _ _ _ H); destruct (scan d' q' t) as [[a b] |]; reflexivity |].
    destruct (Ascii.eqb c closing); [destruct d as [| [| d]]; try discriminate |]; rewrite (IH t _ _ _ _ H); destruct (scan d' q' t) as [[a b] |]; reflexivity.
Qed.
Lemma ends s t : after 0 false s = Some (1, false) -> expression (s ++ "]" ++ t) = Some (s ++ "]", t).
Proof. intros H. unfold expression. rewrite (scan_after s ("]" ++ t) _ _ _ _ H). reflexivity. Qed.
Lemma name_after : forall s d, a_name s -> after d true s = Some (d, true).
Proof.
  induction s as [| c s IH]; intros d H; [reflexivity |]. cbn [after]. destruct (Ascii.eqb_spec c quote) as [-> |].
  - exfalso. apply (H quote); left; reflexivity.
  - apply IH. intros x X Y. apply (H x X). right. exact Y.
Qed.
Lemma number_name s : a_number s -> a_name s.
Proof. intros H x [<- | []]. apply H. left. reflexivity. Qed.
Lemma number_after : forall s d, a_number s -> after d false s = Some (d, false).
Proof.
  induction s as [| c s IH]; intros d H; [reflexivity |]. cbn [after].
  destruct (Ascii.eqb_spec c quote) as [-> |]; [exfalso; apply (H quote); left; reflexivity |].
  destruct (Ascii.eqb_spec c opening) as [-> |]; [exfalso; apply (H opening); [right; left | left]; reflexivity |].
  destruct (Ascii.eqb_spec c closing) as [-> |]; [exfalso; apply (H closing); [right; right; left | left]; reflexivity |].
  apply IH. intros x X Y. apply (H x X). right. exact Y.
Qed.

Definition global_root (name radius : string) : string :=
  "GEOGCS[""GCS_" ++
  name ++
  "_global""," ++
  "    DATUM[""D_" ++
  name ++
  """," ++
  "        ELLIPSOID[""" ++
  name ++
  """," ++
  radius ++
  ",0," ++
  "            LENGTHUNIT[""metre"",1]]]," ++
  "    PRIMEM[""Reference_Meridian"",0," ++
  "        ANGLEUNIT[""degree"",0.0174532925199433]]".
Definition global_rest : string :=
  "," ++
  "    CS[ellipsoidal,2]," ++
  "        AXIS[""geodetic latitude (Lat)"",north," ++
  "            ORDER[1]," ++
  "            ANGLEUNIT[""degree"",0.0174532925199433]]," ++
  "        AXIS[""geodetic longitude (Lon)"",east," ++
  "            ORDER[2]," ++
  "            ANGLEUNIT[""degree"",0.0174532925199433]],REMARK[""Created by Cratermaker""]]".
Definition local_root (name radius lon lat : string) : string :=
  "PROJCRS[""Proj_" ++
  name ++
  "_region_location_" ++
  lon ++
  "_" ++
  lat ++
  "_Lambert_Azimuthal_Equal_Area""," ++
  "    BASEGEOGCRS[""GCS_" ++
  name ++
  "_global""," ++
  "        DATUM[""D_" ++
  name ++
  """," ++
  "            ELLIPSOID[""" ++
  name ++
  """," ++
  radius ++
  ",0," ++
  "                LENGTHUNIT[""metre"",1]]]," ++
  "        PRIMEM[""Reference_Meridian"",0," ++
  "            ANGLEUNIT[""degree"",0.0174532925199433]]]," ++
  "        CONVERSION[""Lambert Azimuthal Equal Area""," ++
  "            METHOD[""Lambert Azimuthal Equal Area (Spherical)""," ++
  "                ID[""EPSG"",1027]]," ++
  "            PARAMETER[""Latitude of natural origin""," ++
  lat ++
  "," ++
  "                ANGLEUNIT[""degree"",0.0174532925199433]," ++
  "                ID[""EPSG"",8801]]," ++
  "            PARAMETER[""Longitude of natural origin""," ++
  lon ++
  "," ++
  "                ANGLEUNIT[""degree"",0.0174532925199433]," ++
  "                ID[""EPSG"",8802]]," ++
  "            PARAMETER[""False easting"",0," ++
  "                LENGTHUNIT[""metre"",1]," ++
  "                ID[""EPSG"",8806]]," ++
  "            PARAMETER[""False northing"",0," ++
  "                LENGTHUNIT[""metre"",1]," ++
  "                ID[""EPSG"",8807]]]," ++
  "        CS[Cartesian,2]," ++
  "            AXIS[""(E)"",east," ++
  "                ORDER[1]," ++
  "                LENGTHUNIT[""metre"",1]]," ++
  "            AXIS[""(N)"",north," ++
  "                ORDER[2]," ++
  "                LENGTHUNIT[""metre"",1]]".
Definition local_rest : string :=
  ",REMARK[""Created by Cratermaker""]".
Lemma global_split name radius : global_text name radius = global_root name radius ++ "]" ++ global_rest.
Proof. unfold global_root, global_rest, global_text. rewrite ?app_a. reflexivity. Qed.
Lemma local_split name radius lon lat : local_text name radius lon lat = local_root name radius lon lat ++ "]" ++ local_rest.
Proof. unfold local_root, local_rest, local_text. rewrite ?app_a. reflexivity. Qed.

Lemma after_then s t d q d' q' r : after d q s = Some (d', q') -> after d' q' t = r -> after d q (s ++ t) = r.
Proof. intros E F. rewrite after_app, E. exact F. Qed.
Ltac walk := repeat (eapply after_then; [first [apply name_after; first [assumption | apply number_name; assumption] | apply number_after; assumption | reflexivity] |]); reflexivity.
Lemma global_expression name radius : a_name name -> a_number radius ->
  expression (global_text name radius) = Some (global_root name radius ++ "]", global_rest).
Proof. intros N R. rewrite global_split. apply ends. unfold global_root. walk. Qed.
Lemma local_expression name radius lon lat : a_name name -> a_number radius -> a_number lon -> a_number lat ->
  expression (local_text name radius lon lat) = Some (local_root name radius lon lat ++ "]", local_rest).
Proof. intros N R X Y. rewrite local_split. apply ends. unfold local_root. walk. Qed.

Lemma says_app a s t : says s t -> says (a ++ s) t.
Proof. intros (x & y & E). exists (a ++ x), y. rewrite E, app_a. reflexivity. Qed.
Lemma says_end s b t : says s t -> says (s ++ b) t.
Proof. intros (x & y & E). exists x, (y ++ b). rewrite E, !app_a. reflexivity. Qed.
Lemma says_here t b : says (t ++ b) t.
Proof. exists "", b. reflexivity. Qed.

Lemma global_says name radius : says (global_root name radius) (ellipsoid name radius).
Proof.
  unfold global_root, ellipsoid. exists ("GEOGCS[""GCS_" ++ name ++ "_global""," ++ "    DATUM[""D_" ++ name ++ """," ++ "        "). eexists.
  rewrite !app_a. reflexivity.
Qed.
Fixpoint prefix_of (t s : string) : option string :=
  match t, s with
  | EmptyString, _ => Some s
  | String a t', String b s' => if Ascii.eqb a b then prefix_of t' s' else None
  | _, EmptyString => None
  end.
Fixpoint holds (t s : string) : bool :=
  match prefix_of t s with Some _ => true | None => match s with EmptyString => false | String _ r => holds t r end end.
Lemma prefix_of_spec : forall t s r, prefix_of t s = Some r -> s = t ++ r.
Proof.
  induction t as [| a t IH]; intros s r H; [injection H as ->; reflexivity |]. destruct s as [| b s]; [discriminate |]. cbn in H.
  destruct (Ascii.eqb_spec a b) as [-> |]; [| discriminate]. cbn. rewrite (IH s r H). reflexivity.
Qed.
Lemma holds_says : forall t s, holds t s = true -> says s t.
Proof.
  intros t s. induction s as [| c s IH]; intros H; cbn [holds] in H.
  - destruct (prefix_of t "") eqn:E; [| discriminate]. exists "", s. exact (prefix_of_spec _ _ _ E).
  - destruct (prefix_of t (String c s)) eqn:E; [exists "", s0; exact (prefix_of_spec _ _ _ E) |].
    destruct (IH H) as (a & b & F). exists (String c a), b. rewrite F. reflexivity.
Qed.
Lemma says_value sp p v e r : says ((sp ++ p) ++ v ++ e ++ r) (p ++ v ++ e).
Proof. exists sp, r. rewrite !app_a. reflexivity. Qed.
Ltac seek := repeat first [apply holds_says; reflexivity | apply says_end; apply holds_says; reflexivity | apply says_app].

Lemma local_says name radius lon lat : let root := local_root name radius lon lat in
  says root (ellipsoid name radius) /\ says root (latitude_is lat) /\ says root (longitude_is lon)
  /\ forall t, In t local_axes -> says root t.
Proof.
  cbv zeta. unfold local_root. repeat split.
  - unfold ellipsoid. do 13 apply says_app. eexists "            ", _. rewrite !app_a. reflexivity.
  - repeat first [exact (says_value "            " "PARAMETER[""Latitude of natural origin""," lat "," _) | apply says_app].
  - repeat first [exact (says_value "            " "PARAMETER[""Longitude of natural origin""," lon "," _) | apply says_app].
  - intros t [<- | [<- | [<- | []]]]; seek.
Qed.
Lemma global_rest_says : forall t, In t global_axes -> says global_rest t.
Proof. intros t [<- | [<- | [<- | []]]]; unfold global_rest; seek. Qed.

Lemma kept_crs : forall es h, (kept h = None \/ kept h = Some (get_crs (target h) (place h))) -> Forall looks es ->
  fst (crs (fold_left happens es h)) = get_crs (target h) (place h).
Proof.
  induction es as [| e es IH]; intros h K F.
  - cbn. unfold crs. destruct K as [-> | ->]; reflexivity.
  - inversion F as [| ? ? L F']; subst. rewrite L. cbn [fold_left happens].
    assert (target (snd (crs h)) = target h /\ place (snd (crs h)) = place h /\ kept (snd (crs h)) = Some (get_crs (target h) (place h))) as (A & B & C).
    { unfold crs. destruct K as [-> | K']; [auto |]. rewrite K'. cbn. auto. }
    rewrite IH; [rewrite A, B; reflexivity | right; rewrite A, B; exact C | exact F'].
Qed.
Lemma kept_some : forall es h t, kept h = Some t -> fst (crs (fold_left happens es h)) = t.
Proof.
  induction es as [| e es IH]; intros h t K; [unfold crs; cbn; rewrite K; reflexivity |]. cbn [fold_left]. apply IH.
  destruct e; cbn; [unfold crs; rewrite K; exact K | exact K].
Qed.
Lemma first_look : forall es h, fst (crs (fold_left happens es (snd (crs h)))) = fst (crs h).
Proof. intros es h. apply kept_some. unfold crs. destruct (kept h) as [t |] eqn:E; [exact E | reflexivity]. Qed.

Lemma not_whole s a b : expression s = Some (a, b) -> b <> "" -> ~ whole s.
Proof. unfold whole. intros -> N E. injection E as _ E. exact (N E). Qed.
Lemma global_partial b : a_name (b_name b) -> a_number (b_radius b) ->
  exists root rest, expression (get_crs b None) = Some (root, rest) /\ get_crs b None = root ++ rest
    /\ says root (ellipsoid (b_name b) (b_radius b)).
Proof.
  intros N R. eexists _, _. split; [exact (global_expression _ _ N R) |]. split; [| apply says_end, global_says].
  unfold get_crs. rewrite global_split, app_a. reflexivity.
Qed.
Lemma global_refuted b : a_name (b_name b) -> a_number (b_radius b) ->
  ~ whole (get_crs b None)
  /\ exists root rest, expression (get_crs b None) = Some (root, rest) /\ (forall t, In t global_axes -> says rest t).
Proof.
  intros N R. pose proof (global_expression _ _ N R) as E. split; [apply (not_whole _ _ _ E); discriminate |].
  eexists _, _. split; [exact E | exact global_rest_says].
Qed.
Lemma local_partial b lon lat : a_name (b_name b) -> a_number (b_radius b) -> a_number lon -> a_number lat ->
  exists root, expression (get_crs b (Some (lon, lat))) = Some (root, ",REMARK[""Created by Cratermaker""]")
    /\ get_crs b (Some (lon, lat)) = root ++ ",REMARK[""Created by Cratermaker""]"
    /\ says root (ellipsoid (b_name b) (b_radius b)) /\ says root (latitude_is lat) /\ says root (longitude_is lon)
    /\ (forall t, In t local_axes -> says root t).
Proof.
  intros N R X Y. destruct (local_says (b_name b) (b_radius b) lon lat) as (A & B & C & D).
  eexists. split; [exact (local_expression _ _ _ _ N R X Y) |]. split; [unfold get_crs; rewrite local_split, app_a; reflexivity |].
  repeat split; try (apply says_end; assumption). intros t I. apply says_end, D, I.
Qed.
Lemma local_refuted b lon lat : a_name (b_name b) -> a_number (b_radius b) -> a_number lon -> a_number lat ->
  ~ whole (get_crs b (Some (lon, lat))).
Proof. intros N R X Y. apply (not_whole _ _ _ (local_expression _ _ _ _ N R X Y)). discriminate. Qed.
Lemma kept_system b p es : Forall looks es -> fst (crs (fold_left happens es (new_holder b p))) = get_crs b p.
Proof. intros F. rewrite kept_crs; [reflexivity | left; reflexivity | exact F]. Qed.
Lemma assigned_before b b' p es : Forall looks es -> fst (crs (fold_left happens es (set_target (new_holder b p) b'))) = get_crs b' p.
Proof. intros F. rewrite kept_crs; [reflexivity | left; reflexivity | exact F]. Qed.
Lemma target_refuted : (forall es h, fst (crs (fold_left happens es (snd (crs h)))) = fst (crs h))
  /\ (exists b b', fst (crs (fold_left happens [Looked; Targeted b'] (new_holder b None))) = get_crs b None
        /\ get_crs b None <> get_crs b' None).
Proof. split; [exact first_look |]. exists moon, mars. split; [reflexivity | discriminate]. Qed.
Ltac chars := intros c I J; cbn in I, J; repeat destruct I as [<- | I]; try contradiction; repeat destruct J as [J | J]; try contradiction; discriminate.
Lemma mars_ok : a_name (b_name mars) /\ a_number (b_radius mars).
Proof. split; chars. Qed.
Lemma mars_place : a_name (b_name mars) /\ a_number (b_radius mars) /\ a_number "43.5" /\ a_number "-12.25".
Proof. repeat split; chars. Qed.
Lemma moon_global : a_name (b_name moon) /\ a_number (b_radius moon) /\ says (get_crs moon None) "ELLIPSOID[""Moon"",1737400.000000,0,".
Proof. split; [chars |]. split; [chars |]. apply holds_says. reflexivity. Qed.
Lemma two_looks : Forall looks [Looked; Looked].
Proof. repeat constructor. Qed.
