(** Proofs about Where_model. *)
From Coq Require Import Reals Lra Lia.
From Verif Require Import Common Trig_model Geo_spec Geo_proofs Outline_model Outline_spec Outline_proofs Crater_model Place_model Place_spec Place_proofs Where_model Where_spec.
Import ListNotations.
Open Scope R_scope.

Lemma reference_ok s ref l : reference_is s ref l -> reference_of s ref = Ok (normalize l).
Proof.
  intros [_ [[h ->] | [-> E]]]; unfold reference_of; [| rewrite E; reflexivity].
  cbn [validate validate_numbers rbind single]. destruct l; reflexivity.
Qed.
Lemma distance_apart s l p : proper_location l -> near_globe p ->
  compute_one_distance (radians (fst (normalize l))) (radians (snd (normalize l))) (radians (fst (normalize p))) (radians (snd (normalize p))) (s_radius s)
  = s_radius s * apart l p.
Proof.
  intros H N. rewrite distance_angle. unfold apart. destruct (normalize_proper l H) as [_ E]. pose proof (normalize_beyond p N) as F.
  unfold same_spot in E, F. rewrite <- E, <- F. reflexivity.
Qed.

(** Reading locations. *)
Lemma each_ok items rows : Forall2 (fun (i : holder * list R) (p : R * R) => snd i = [fst p; snd p]) items rows ->
  validate_each items = Ok (map normalize rows).
Proof.
  induction 1 as [| i p items rows E F IH]; [reflexivity |]. cbn [validate_each]. rewrite E. cbn [validate_numbers rbind]. rewrite IH. cbn [rbind map].
  destruct p; reflexivity.
Qed.
Lemma read_ok a rows : means a rows -> ~ structured a -> rows <> [] -> (is_list a -> List.length rows <> 2%nat) ->
  exists o, validate a = Ok o /\ places o = map normalize rows.
Proof.
  intros M S N L. destruct M as [h x y | rows | items rows F | x y n | f p | f rows].
  - eexists. split; reflexivity.
  - destruct rows as [| p [| q r]]; [congruence | |]; eexists; split; reflexivity.
  - assert (L2 : List.length rows <> 2%nat) by (apply L; eexists; reflexivity). pose proof (each_ok _ _ F) as EA.
    destruct F as [| i p items rows E F]; [congruence |]. destruct F as [| j q items rows E' F].
    + cbn [validate]. rewrite E. cbn [List.length Nat.eqb validate_numbers rbind]. eexists. split; [reflexivity |]. destruct p; reflexivity.
    + destruct F as [| k q' items rows E'' F]; [cbn in L2; lia |]. cbn [validate]. replace (Nat.eqb (List.length (snd i)) 2) with true by (rewrite E; reflexivity). rewrite EA. cbn [rbind].
      eexists. split; reflexivity.
  - eexists. split; reflexivity.
  - exfalso. apply S. right. eauto.
  - exfalso. apply S. left. eauto.
Qed.
Lemma distances_ok s locations rows ref l : means locations rows -> ~ structured locations -> rows <> [] -> (is_list locations -> List.length rows <> 2%nat) ->
  Forall near_globe rows -> reference_is s ref l ->
  compute_distances s locations ref = Ok (map (fun p => s_radius s * apart l p) rows).
Proof.
  intros M S N L G RF. unfold compute_distances. rewrite (reference_ok _ _ _ RF). cbn [rbind]. destruct (read_ok _ _ M S N L) as (o & -> & P). cbn [rbind]. f_equal.
  fold (places o). rewrite P, map_map. destruct RF as [H _]. apply map_ext_in. intros p I. rewrite Forall_forall in G. apply (distance_apart s l p H (G p I)).
Qed.
Lemma two_rejected s i j p q ref l : snd i = [fst p; snd p] -> snd j = [fst q; snd q] -> reference_is s ref l ->
  exists e, compute_distances s (Sequences [i; j]) ref = Err e /\ (e = TypeError \/ e = ValueError).
Proof.
  intros E F RF. unfold compute_distances. rewrite (reference_ok _ _ _ RF). cbn [rbind validate]. destruct i as [hi li], j as [hj lj]. cbn [snd] in E, F. subst.
  destruct hi, hj; cbn [normalize_two rbind]; eexists; (split; [reflexivity | auto]).
Qed.
Lemma empty_rejected s ref l a : a = Rows [] \/ a = Sequences [] -> reference_is s ref l ->
  compute_distances s a ref = Err IndexError /\ compute_locations s (Flat []) (Flat []) ref = Err IndexError /\
  compute_bearings s (Rows []) ref = Ok [].
Proof.
  intros D RF. unfold compute_distances, compute_locations, compute_bearings. rewrite (reference_ok _ _ _ RF). cbn [rbind]. destruct D as [-> | ->]; repeat split.
Qed.

(** Bearings. *)
Lemma columns_list items rows : Forall2 (fun (i : holder * list R) (p : R * R) => snd i = [fst p; snd p]) items rows ->
  forallb (fun i => Nat.eqb (List.length (snd i)) 2) items = true /\ map (fun i => first_two (snd i)) items = rows.
Proof.
  induction 1 as [| i p items rows E F [IH1 IH2]]; [split; reflexivity |]. cbn [forallb map]. rewrite E, IH1, IH2. cbn. destruct p. split; reflexivity.
Qed.
Lemma columns_ok a rows : means a rows -> ~ structured a -> ~ is_dict a -> (is_list a -> rows <> []) -> columns a = Ok rows.
Proof.
  intros M S D L. destruct M as [h x y | rows | items rows F | x y n | f p | f rows]; try reflexivity.
  - assert (N : rows <> []) by (apply L; eexists; reflexivity). destruct F as [| i p items rows E F]; [congruence |].
    destruct (columns_list _ _ F) as [A B]. destruct i as [h l]. cbn [snd] in E. subst l. cbn [columns List.length]. rewrite A. cbn [Nat.leb map snd first_two]. rewrite B. destruct p; reflexivity.
  - exfalso. apply D. repeat eexists.
  - exfalso. apply S. right. eauto.
  - exfalso. apply S. left. eauto.
Qed.
Lemma bearing_bears l p : proper_location l ->
  bears l p (degrees (compute_bearing_elem (radians (fst (normalize l))) (radians (snd (normalize l))) (radians (fst p)) (radians (snd p)))).
Proof.
  intros H. destruct (normalize_proper l H) as [_ E]. unfold same_spot in E. destruct l as [lon lat]. unfold proper_location in H. cbn [snd] in H.
  rewrite normalize_inner in * by exact H. cbn [fst snd] in *. destruct (modulo_turns lon) as [k K]. rewrite !radians_rad.
  set (m := modulo (lon + 180) 360 - 180) in *. pose proof (bearing_range (rad m) (rad lat) (rad (fst p)) (rad (snd p))) as B.
  destruct (bearing_polar (rad m) (rad lat) (rad (fst p)) (rad (snd p))) as [U V]. set (b := compute_bearing_elem _ _ _ _) in *.
  assert (Sm : same_angle (rad m) (rad lon)) by (exists k; rewrite K; apply rad_turns).
  unfold bears. rewrite rad_degrees. split.
  - pose proof PI_RGT_0. unfold degrees. split.
    + apply Rmult_le_reg_r with PI; [lra |]. replace (b * 180 / PI * PI) with (b * 180) by (field; lra). lra.
    + apply Rmult_lt_reg_r with PI; [lra |]. replace (b * 180 / PI * PI) with (b * 180) by (field; lra). lra.
  - cbv zeta in *. unfold apart, place. cbn [fst snd]. unfold place in E. rewrite <- E. split; [rewrite U | rewrite V]; unfold north, east;
      rewrite (same_angle_cos _ _ Sm), (same_angle_sin _ _ Sm); reflexivity.
Qed.
Lemma bearings_ok s locations rows ref l : means locations rows -> ~ structured locations -> ~ is_dict locations -> (is_list locations -> rows <> []) ->
  reference_is s ref l -> exists bs, compute_bearings s locations ref = Ok bs /\ Forall2 (bears l) rows bs.
Proof.
  intros M S D L RF. unfold compute_bearings. rewrite (reference_ok _ _ _ RF). cbn [rbind]. rewrite (columns_ok _ _ M S D L). cbn [rbind].
  eexists. split; [reflexivity |]. destruct RF as [H _]. clear - H. induction rows as [| p r IH]; cbn [map]; [constructor |]. constructor; [apply bearing_bears, H | exact IH].
Qed.
Lemma bearings_dict s x y n ref l : reference_is s ref l -> compute_bearings s (Mapping (Some x) (Some y) n) ref = Err TypeError.
Proof. intros RF. unfold compute_bearings. rewrite (reference_ok _ _ _ RF). reflexivity. Qed.

Lemma dict_distance_only s x y n ref l : reference_is s ref l -> near_globe (x, y) ->
  compute_distances s (Mapping (Some x) (Some y) n) ref = Ok [s_radius s * apart l (x, y)] /\
  compute_bearings s (Mapping (Some x) (Some y) n) ref = Err TypeError.
Proof.
  intros RF G. split; [| apply (bearings_dict s x y n ref l RF)]. apply (distances_ok s _ [(x, y)] ref l); try exact RF.
  - constructor.
  - intros [(? & ? & X) | (? & ? & X)]; discriminate.
  - discriminate.
  - intros [? X]. discriminate.
  - constructor; [exact G | constructor].
Qed.

(** Locations from distances and bearings. *)
Lemma locations_eq s d b ref l : reference_is s ref l -> List.length (atleast_1d d) = List.length (atleast_1d b) -> atleast_1d d <> [] ->
  exists o, compute_locations s d b ref = Ok o /\
    places o = map (fun db => from_reference s (fst db) (snd db) l) (combine (atleast_1d d) (atleast_1d b)) /\
    (List.length (atleast_1d d) <> 2%nat -> is_list (given_back o) -> List.length (places o) <> 2%nat) /\ means (given_back o) (places o) /\ ~ structured (given_back o).
Proof.
  intros RF E N. unfold compute_locations. rewrite (reference_ok _ _ _ RF). cbn [rbind]. rewrite <- E, Nat.eqb_refl.
  assert (Len : List.length (combine (atleast_1d d) (atleast_1d b)) = List.length (atleast_1d d)) by (rewrite combine_length, <- E; lia).
  set (c := combine _ _) in *. assert (Nc : c <> []) by (intros X; rewrite X in Len; destruct (atleast_1d d); [congruence | discriminate]).
  set (f := fun db : R * R => _). assert (Fr : forall db, normalize (f db) = from_reference s (fst db) (snd db) l).
  { intros db. unfold f, from_reference. destruct (normalize l) as [lon1 lat1]. cbn [fst snd]. destruct (compute_location_elem _ _ _ _ _). reflexivity. }
  assert (Rd : means (Rows (map f c)) (map f c)) by constructor.
  destruct (read_ok _ _ Rd) as (o & V & P).
  { intros [(? & ? & X) | (? & ? & X)]; discriminate. }
  { intros X. apply map_eq_nil in X. contradiction. }
  { intros [? X]. discriminate. }
  exists o. split; [exact V |]. rewrite P, map_map. split; [apply map_ext; exact Fr |].
  rewrite map_length, Len. split; [auto |]. rewrite <- (map_map f normalize), <- P.
  destruct o as [p | ps]; cbn [given_back places]; (split; [| intros [(? & ? & X) | (? & ? & X)]; discriminate]).
  - destruct p as [x y]. apply means_pair.
  - apply means_list. clear. induction ps; cbn [map]; [constructor |]. constructor; [reflexivity | assumption].
Qed.
Lemma locations_ok s d b ref l : 0 < s_radius s -> reference_is s ref l -> List.length (atleast_1d d) = List.length (atleast_1d b) -> atleast_1d d <> [] ->
  exists o, compute_locations s d b ref = Ok o /\ Forall2 (goes s l) (combine (atleast_1d d) (atleast_1d b)) (places o).
Proof.
  intros P RF E N. destruct (locations_eq s d b ref l RF E N) as (o & C & Q & _). exists o. split; [exact C |]. rewrite Q. destruct RF as [H _].
  clear - P H. induction (combine (atleast_1d d) (atleast_1d b)) as [| db c IH]; cbn [map]; [constructor |]. constructor; [| exact IH]. apply from_reference_spec; assumption.
Qed.
Lemma back_and_forth s d b ref l : 0 < s_radius s -> reference_is s ref l -> List.length (atleast_1d d) = List.length (atleast_1d b) -> atleast_1d d <> [] ->
  Forall (fun x => 0 <= x <= PI * s_radius s) (atleast_1d d) ->
  exists o, compute_locations s d b ref = Ok o /\
    (List.length (atleast_1d d) <> 2%nat -> compute_distances s (given_back o) ref = Ok (atleast_1d d)) /\
    (List.length (atleast_1d d) = 2%nat -> compute_distances s (given_back o) ref = Err TypeError).
Proof.
  intros P RF E N B. destruct (locations_eq s d b ref l RF E N) as (o & C & Q & L2 & M & S). exists o. split; [exact C |]. split.
  - intros L. rewrite (distances_ok s (given_back o) (places o) ref l M S).
    + rewrite Q, map_map. f_equal. destruct RF as [H _]. clear - P H E B. revert E B. generalize (atleast_1d d) (atleast_1d b). induction l0 as [| x ds IH]; intros bs E B; [reflexivity |].
      destruct bs as [| y bs]; [discriminate |]. inversion B as [| ? ? Bx Bd]; subst. cbn [combine map fst snd]. destruct (from_reference_spec s x y l H P) as (_ & D & _). rewrite (D Bx).
      f_equal. apply IH; [cbn in E; lia | exact Bd].
    + rewrite Q. intros X. apply map_eq_nil in X. destruct (atleast_1d d), (atleast_1d b); discriminate || congruence.
    + apply L2, L.
    + rewrite Q. apply Forall_forall. intros m I. apply in_map_iff in I as (db & <- & I). destruct RF as [H _]. destruct (from_reference_spec s (fst db) (snd db) l H P) as [[A1 A2] _]. unfold near_globe. lra.
    + exact RF.
  - intros L. assert (Lp : List.length (places o) = 2%nat) by (rewrite Q, map_length, combine_length, <- E, L; reflexivity).
    destruct o as [p | [| p [| q [| r t]]]]; try discriminate Lp. unfold compute_distances. rewrite (reference_ok _ _ _ RF). reflexivity.
Qed.
Lemma unequal s d b ref l : reference_is s ref l -> List.length (atleast_1d d) <> List.length (atleast_1d b) -> compute_locations s d b ref = Err ValueError.
Proof.
  intros RF E. unfold compute_locations. rewrite (reference_ok _ _ _ RF). cbn [rbind].
  destruct (Nat.eqb _ _) eqn:X; [apply Nat.eqb_eq in X; congruence | reflexivity].
Qed.

(** The reference. *)
Lemma no_reference_all s a d b : s_local s = None ->
  compute_distances s a None = Err ValueError /\ compute_bearings s a None = Err ValueError /\ compute_locations s d b None = Err ValueError.
Proof. intros E. unfold compute_distances, compute_bearings, compute_locations, reference_of. rewrite E. repeat split. Qed.
Lemma local_reference s l a d b h : s_local s = Some l ->
  compute_distances s a None = compute_distances s a (Some (Numbers h [fst l; snd l])) /\
  compute_bearings s a None = compute_bearings s a (Some (Numbers h [fst l; snd l])) /\
  compute_locations s d b None = compute_locations s d b (Some (Numbers h [fst l; snd l])).
Proof. intros E. unfold compute_distances, compute_bearings, compute_locations, reference_of. rewrite E. destruct l. repeat split. Qed.

(** Structured data. *)
Lemma records_rejected s f rows ref l : reference_is s ref l ->
  exists e, compute_distances s (Records f rows) ref = Err e /\ (e = IndexError \/ e = TypeError).
Proof.
  intros RF. unfold compute_distances. rewrite (reference_ok _ _ _ RF). destruct rows as [| p [| q r]]; cbn; eexists; (split; [reflexivity | auto]).
Qed.
Lemma record_swapped s x y ref : 
  compute_distances s (Record1 true (x, y)) ref = compute_distances s (Numbers InTuple [x; y]) ref /\
  compute_distances s (Record1 false (x, y)) ref = compute_distances s (Numbers InTuple [y; x]) ref.
Proof. split; reflexivity. Qed.

Lemma ex_reference : reference_is ex_moon (Some (Numbers InTuple [30; 40])) (30, 40).
Proof. split; [unfold proper_location; cbn; lra |]. left. exists InTuple. reflexivity. Qed.
Lemma ex_center : reference_is ex_apollo None (23, 0).
Proof. split; [unfold proper_location; cbn; lra |]. right. split; reflexivity. Qed.
Lemma ex_three_means : means ex_three [(0, 10); (370, 20); (5, -30)].
Proof. apply means_list. repeat constructor. Qed.
Lemma ex_two_means : means ex_two [(0, 10); (10, 20)].
Proof. apply means_list. repeat constructor. Qed.

Lemma bad_pair l : List.length l <> 2%nat -> exists e, validate_numbers l = Err e.
Proof. intros H. destruct l as [| a [| b [| c l]]]; try (eexists; reflexivity). cbn in H. congruence. Qed.
Lemma bad_each items (i : holder * list R) : In i items -> List.length (snd i) <> 2%nat -> exists e, validate_each items = Err e.
Proof.
  intros I L. induction items as [| j items IH]; [destruct I |]. cbn [validate_each]. destruct I as [-> | I].
  - destruct (bad_pair _ L) as [e ->]. eexists. reflexivity.
  - destruct (IH I) as [e ->]. destruct (validate_numbers (snd j)); eexists; reflexivity.
Qed.
Lemma malformed_rejected a : malformed a -> exists e, validate a = Err e.
Proof.
  intros [h l L | items i I L N | x y n H].
  - cbn [validate]. destruct (bad_pair l L) as [e ->]. eexists. reflexivity.
  - destruct (bad_each items i I L) as [e E]. destruct items as [| j items]; [destruct I |]. destruct items as [| j' items].
    + cbn [validate]. destruct I as [-> | []]. destruct (Nat.eqb_spec (List.length (snd i)) 2); [congruence | eexists; reflexivity].
    + destruct items as [| j'' items]; [cbn in N; congruence |]. cbn [validate]. rewrite E. destruct (Nat.eqb (List.length (snd j)) 2); eexists; reflexivity.
  - cbn [validate]. destruct x, y; destruct H as [H | H]; try discriminate; destruct (Nat.eqb _ 2); eexists; reflexivity.
Qed.
Lemma malformed_distances s a ref : malformed a -> exists e, compute_distances s a ref = Err e.
Proof. intros H. destruct (malformed_rejected a H) as [e E]. unfold compute_distances. rewrite E. destruct (reference_of s ref); eexists; reflexivity. Qed.
