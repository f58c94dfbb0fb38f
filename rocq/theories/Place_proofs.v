(** Proofs about Place_model. *)
From Coq Require Import Reals NArith Lra Lia.
From Verif Require Import Common Trig_model Geo_spec Geo_proofs Outline_model Outline_spec Outline_proofs Crater_model Place_model Place_spec.
Import ListNotations.
Open Scope R_scope.

Lemma modulo_turns x : exists k : Z, modulo (x + 180) 360 - 180 = x + 360 * IZR k.
Proof. exists (- Int_part ((x + 180) / 360))%Z. unfold modulo. rewrite opp_IZR. ring. Qed.
Lemma normalize_inner lon lat : -90 <= lat <= 90 -> normalize (lon, lat) = (modulo (lon + 180) 360 - 180, lat).
Proof.
  intros H. unfold normalize. destruct (Rlt_dec 90 lat); [lra |]. destruct (Rlt_dec lat (-90)); [lra |].
  destruct (Rle_dec 90 lat); [f_equal; lra |]. destruct (Rle_dec lat (-90)); [f_equal; lra | reflexivity].
Qed.
Lemma normalize_proper l : proper_location l -> proper_location (normalize l) /\ same_spot (normalize l) l.
Proof.
  destruct l as [lon lat]. unfold proper_location, same_spot. cbn [fst snd]. intros H. rewrite normalize_inner by exact H. cbn [fst snd]. split; [exact H |].
  destruct (modulo_turns lon) as [k ->]. apply place_turns.
Qed.
Lemma normalize_beyond l : -270 <= snd l <= 270 -> same_spot (normalize l) l.
Proof.
  destruct l as [lon lat]. cbn [snd]. intros H. destruct (Rlt_dec 90 lat) as [U | U]; [| destruct (Rlt_dec lat (-90)) as [D | D]].
  - unfold normalize. destruct (Rlt_dec 90 lat); [| lra]. unfold same_spot. cbn [fst snd].
    replace (if Rle_dec 90 (180 - lat) then 90 else if Rle_dec (180 - lat) (-90) then -90 else 180 - lat) with (180 - lat)
      by (destruct (Rle_dec 90 (180 - lat)); [lra |]; destruct (Rle_dec (180 - lat) (-90)); lra).
    unfold place, direction. replace (rad (lon - 180)) with (- (PI - rad lon)) by (unfold rad; lra). replace (rad (180 - lat)) with (PI - rad lat) by (unfold rad; lra).
    rewrite sin_neg, cos_neg, !Rtrigo_facts.cos_pi_minus, !Rtrigo_facts.sin_pi_minus. f_equal. f_equal; ring.
  - unfold normalize. destruct (Rlt_dec 90 lat); [lra |]. destruct (Rlt_dec lat (-90)); [| lra]. unfold same_spot. cbn [fst snd].
    replace (if Rle_dec 90 (-180 - lat) then 90 else if Rle_dec (-180 - lat) (-90) then -90 else -180 - lat) with (-180 - lat)
      by (destruct (Rle_dec 90 (-180 - lat)); [lra |]; destruct (Rle_dec (-180 - lat) (-90)); lra).
    unfold place, direction. replace (rad (lon - 180)) with (- (PI - rad lon)) by (unfold rad; lra). replace (rad (-180 - lat)) with (- (rad lat + PI)) by (unfold rad; lra).
    rewrite !sin_neg, !cos_neg, neg_sin, neg_cos, Rtrigo_facts.cos_pi_minus, Rtrigo_facts.sin_pi_minus. f_equal; [f_equal |]; ring.
  - apply normalize_proper. unfold proper_location. cbn [snd]. lra.
Qed.
Lemma radians_rad x : radians x = rad x. Proof. reflexivity. Qed.
Lemma rad_degrees x : rad (degrees x) = x. Proof. unfold rad, degrees. field. apply PI_neq0. Qed.
Lemma rad_lat x : -90 <= x <= 90 -> latitude (rad x).
Proof. intros H. unfold latitude, rad. pose proof PI_RGT_0. nra. Qed.
Lemma degrees_lat x : latitude x -> -90 <= degrees x <= 90.
Proof.
  intros [A B]. pose proof PI_RGT_0 as P. unfold degrees. split; [apply Rmult_le_reg_r with PI | apply Rmult_le_reg_r with PI]; try exact P;
    replace (x * 180 / PI * PI) with (x * 180) by (field; lra); lra.
Qed.

(** The destination is the point reached. *)
Lemma destination lon1 lat1 d b radius lon2 lat2 : off_pole lat1 -> compute_location_elem lon1 lat1 d b radius = (lon2, lat2) ->
  direction lon2 lat2 = reached lon1 lat1 b (d / radius).
Proof.
  intros Hp E. assert (HL : latitude lat1) by (destruct Hp; split; lra). destruct (location_elem _ _ _ _ _ _ _ E) as (E2 & S & _). rewrite (direction_turns _ _ _ S).
  set (dl := d / radius) in *. pose proof (dest_cos lat1 dl b HL) as C. pose proof (dest_sin lat1 dl b HL) as D. rewrite <- E2 in C, D.
  pose proof (sin_lat2 lat1 dl b) as Sn. rewrite <- E2 in Sn. set (a := atan2 _ _) in *.
  assert (Cp : 0 < cos lat1) by (apply cos_gt_0; destruct Hp; lra). pose proof (cs lat1) as C1.
  assert (X : cos lat2 * cos a = cos dl * cos lat1 - sin lat1 * sin dl * cos b).
  { apply Rmult_eq_reg_l with (cos lat1); [| lra]. rewrite <- Rmult_assoc, C, Sn.
    replace (cos dl - sin lat1 * (sin lat1 * cos dl + cos lat1 * sin dl * cos b)) with (cos dl * (1 - sin lat1 * sin lat1) - sin lat1 * cos lat1 * sin dl * cos b) by ring.
    replace (1 - sin lat1 * sin lat1) with (cos lat1 * cos lat1) by lra. ring. }
  assert (Y : cos lat2 * sin a = sin b * sin dl) by (apply Rmult_eq_reg_l with (cos lat1); [rewrite <- Rmult_assoc, D; ring | lra]).
  unfold direction, reached, add, scale, north, east. rewrite cos_plus, sin_plus.
  replace (cos lat2 * (cos lon1 * cos a - sin lon1 * sin a)) with (cos lon1 * (cos lat2 * cos a) - sin lon1 * (cos lat2 * sin a)) by ring.
  replace (cos lat2 * (sin lon1 * cos a + cos lon1 * sin a)) with (sin lon1 * (cos lat2 * cos a) + cos lon1 * (cos lat2 * sin a)) by ring.
  rewrite X, Y, Sn. unfold direction. f_equal; [f_equal |]; ring.
Qed.

Lemma from_reference_spec s d b l : proper_location l -> 0 < s_radius s ->
  let m := from_reference s d b l in proper_location m /\
  (0 <= d <= PI * s_radius s -> s_radius s * apart l m = d) /\
  (-90 < snd l < 90 -> place (fst m) (snd m) = reached (rad (fst l)) (rad (snd l)) (rad b) (d / s_radius s)).
Proof.
  destruct l as [lon lat]. intros H P. unfold from_reference. destruct (normalize_proper (lon, lat) H) as [N1 N2].
  unfold proper_location in H. cbn [fst snd] in H. rewrite normalize_inner in * by exact H. rewrite !radians_rad.
  set (lon1 := modulo (lon + 180) 360 - 180) in *. destruct (compute_location_elem _ _ _ _ _) as [lon2 lat2] eqn:E.
  assert (L1 : latitude (rad lat)) by (apply rad_lat, H). assert (L2 : latitude lat2) by (destruct (location_elem _ _ _ _ _ _ _ E) as (-> & _ & _); apply asin_bound).
  assert (Q : proper_location (degrees lon2, degrees lat2)) by (apply degrees_lat, L2). destruct (normalize_proper _ Q) as [Q1 Q2]. cbv zeta.
  set (m := normalize (degrees lon2, degrees lat2)) in *. unfold same_spot in Q2, N2. cbn [fst snd] in Q2, N2.
  assert (Pm : place (fst m) (snd m) = direction lon2 lat2) by (rewrite Q2; unfold place; rewrite !rad_degrees; reflexivity).
  destruct (modulo_turns lon) as [k K]. fold lon1 in K. split; [exact Q1 |]. split.
  - intros D. destruct (location_distance _ _ _ _ _ _ _ L1 P D E) as [Ds _]. unfold apart. cbn [fst snd]. rewrite Pm, <- N2. unfold place. rewrite distance_angle in Ds. exact Ds.
  - cbn [fst snd]. intros Op. assert (Op' : off_pole (rad lat)) by (unfold off_pole, rad; pose proof PI_RGT_0; nra).
    rewrite Pm, (destination _ _ _ _ _ _ _ Op' E). unfold reached. unfold place in N2. rewrite N2. unfold north, east.
    rewrite K, rad_turns. assert (Sm : same_angle (rad lon + 2 * IZR k * PI) (rad lon)) by (exists k; reflexivity). rewrite (same_angle_cos _ _ Sm), (same_angle_sin _ _ Sm). reflexivity.
Qed.
(** From a pole every bearing leads to the same point. *)
Lemma from_pole s d b b' : from_reference s d b (0, 90) = from_reference s d b' (0, 90).
Proof.
  unfold from_reference. rewrite normalize_inner by lra. unfold compute_location_elem, compute_one_location. replace (radians 90) with (PI / 2) by (unfold radians; field).
  rewrite sin_PI2, cos_PI2, !Rmult_0_r, !Rmult_0_l. reflexivity.
Qed.

Section Maker.
Context (hash : option num -> option R -> option R -> option (R * R) -> option R -> option R ->
                option R -> option R -> option R -> option R -> N)
        (project : option R -> option R -> option R -> option R -> option (R * R) -> option R -> result proj)
        (f2t t2f : R -> R * string) (t2p p2t : R -> R).
Notation make := (maker normalize hash project f2t t2f t2p p2t).
Notation put := (put hash project f2t t2f t2p p2t).

Lemma finish_loc co t n M m mo ml ld lr ri fl de pt pn ps c : finish normalize hash co t n M m mo ml ld lr ri fl de pt pn ps = Ok c ->
  f_loc (fixed c) = c_loc co /\ exists l, c_loc co = Some l.
Proof. unfold finish. destruct (c_loc co) as [l |]; [| discriminate]. destruct (var_init _ _); cbn; [| discriminate]. intros E. injection E as <-. split; [reflexivity | eauto]. Qed.
Lemma compute_loc a b r d td tr pd pr pma pm v ang o rho loc co : compute project f2t t2f t2p p2t a b r d td tr pd pr pma pm v ang o rho loc = Ok co ->
  exists j, project v pma ang o loc rho = Ok j /\ c_loc co = Some (j_loc j).
Proof.
  unfold compute. destruct (project v pma ang o loc rho) as [j | e]; [| discriminate]. cbn [rbind]. destruct (sizes _ _ _ _ _ _ _ _ _) as [[[[fd' td'] pd'] mt] | e]; [| discriminate]. cbn [rbind].
  repeat (destruct (Rlt_dec _ _); [discriminate |]). intros E. injection E as <-. exists j. split; reflexivity.
Qed.
Hypothesis keeps : keeps_location project.
Lemma maker_loc chk old p c l : make chk old p = Ok c -> orelse (orelse (p_loc p) (p_ploc p)) (match old with Some o => f_loc (fixed o) | None => None end) = Some l ->
  f_loc (fixed c) = Some l \/ f_loc (fixed c) = Some (normalize l).
Proof.
  unfold maker. intros E L.
  repeat match type of E with (if ?x then _ else _) = _ => destruct x; [discriminate |] end.
  set (one := match p_major p, p_minor p with Some x, None | None, Some x => Some x | _, _ => None end) in *. clearbody one.
  destruct (match one with Some x => (Some x, Some x) | None => (p_major p, p_minor p) end) as [maj min].
  repeat match type of E with (if ?x then _ else _) = _ => destruct x; [discriminate |] end.
  destruct (match maj with Some _ => (maj, min) | None => _ end) as [maj' min'].
  repeat match type of E with (if ?x then _ else _) = _ => destruct x; [discriminate |] end.
  destruct old as [o |].
  - destruct (old_measured (vars o)) as [[od om] on]. destruct (merge_velocity p (fixed o)) as [vel ang].
    match type of E with (if ?x then _ else _) = _ => destruct x; [discriminate |] end. rewrite L in E.
    match type of E with (if ?x then _ else _) = _ => destruct x end.
    + destruct (compute _ _ _ _ _ _ _ _ _ _ _ _ _ _ _ _ _ _ _ _) as [co | e] eqn:C in E; [| discriminate]. cbn [rbind] in E. destruct (measured_axes _ _ _ _ _ _ _) as [[M m] | e]; [| discriminate]. cbn [rbind] in E.
      apply finish_loc in E as [E _]. apply compute_loc in C as (j & J & Cj). rewrite E, Cj, (keeps _ _ _ _ _ _ _ J). auto.
    + destruct (match orelse (p_mdiam p) od, p_mrad p with Some d, _ => _ | None, Some r => _ | None, None => _ end) as [lm ln] in E. destruct (measured_axes _ _ _ _ _ _ _) as [[M m] | e]; [| discriminate]. cbn [rbind] in E.
      apply finish_loc in E as [E _]. left. exact E.
  - assert (L' : orelse (p_loc p) (p_ploc p) = Some l) by (destruct (orelse (p_loc p) (p_ploc p)); [exact L | discriminate]). rewrite L' in E.
    repeat match type of E with (if ?x then Err _ else _) = _ => destruct x; [discriminate |] end.
    match type of E with (if ?x then _ else _) = _ => destruct x end.
    + destruct (match p_mdiam p, p_mrad p with Some d, _ => _ | None, Some r => _ | None, None => _ end) as [lm ln] in E. destruct (measured_axes _ _ _ _ _ _ _) as [[M m] | e]; [| discriminate]. cbn [rbind] in E.
      apply finish_loc in E as [E _]. left. exact E.
    + destruct (compute _ _ _ _ _ _ _ _ _ _ _ _ _ _ _ _ _ _ _ _) as [co | e] eqn:C in E; [| discriminate]. cbn [rbind] in E. destruct (measured_axes _ _ _ _ _ _ _) as [[M m] | e]; [| discriminate]. cbn [rbind] in E.
      apply finish_loc in E as [E _]. apply compute_loc in C as (j & J & Cj). rewrite E, Cj, (keeps _ _ _ _ _ _ _ J). auto.
Qed.
Lemma maker_sits chk old p c l : make chk old p = Ok c -> orelse (orelse (p_loc p) (p_ploc p)) (match old with Some o => f_loc (fixed o) | None => None end) = Some l ->
  proper_location l -> sits_at c l.
Proof.
  intros E L P. destruct (maker_loc chk old p c l E L) as [H | H]; eexists; (split; [exact H |]); [reflexivity | apply normalize_proper, P].
Qed.

(** The ways of giving the location. *)
Lemma put_inv s chk old p lon lat rel c : put s chk old p lon lat rel = Ok c ->
  exists l l', morph_location s chk (p_loc p) rel = Ok l /\ lonlat_location chk l (p_ploc p) lon lat = Ok l' /\ make chk old (at_location l' p) = Ok c.
Proof.
  unfold Place_model.put. destruct (morph_location _ _ _ _) as [l | e] eqn:A; [| discriminate]. cbn [rbind]. destruct (lonlat_location _ _ _ _ _) as [l' | e] eqn:B; [| discriminate]. cbn [rbind]. eauto 6.
Qed.
Lemma put_priority s chk old p lon lat rel c l : put s chk old p lon lat rel = Ok c -> proper_location l ->
  match lon, lat, rel, p_loc p, p_ploc p with
  | Some x, Some y, _, _, _ => l = (x, y)
  | None, None, Some (Dict (Some d) (Some b) r _), _, _ => exists l0, reference_point s r l0 /\ l = from_reference s d b l0
  | None, None, None, Some m, _ => l = m
  | None, None, None, None, Some m => l = m
  | None, None, None, None, None => exists o, old = Some o /\ f_loc (fixed o) = Some l
  | _, _, _, _, _ => False
  end -> sits_at c l.
Proof.
  intros E P H. apply put_inv in E as (l1 & l2 & A & B & C). apply (maker_sits _ _ _ _ l C); [| exact P]. cbn [at_location p_loc p_ploc].
  destruct lon as [x |], lat as [y |]; try contradiction; cbn [lonlat_location] in B.
  - destruct (chk && (given l1 || given (p_ploc p)))%bool; [discriminate |]. injection B as <-. subst l. reflexivity.
  - injection B as <-. destruct rel as [[| [d |] [b |] r other] |]; try contradiction; cbn [morph_location] in A.
    + destruct (chk && given (p_loc p))%bool; [discriminate |]. destruct other; [discriminate |]. destruct H as (l0 & Rf & ->).
      assert (Lo : located s d b r = Ok (from_reference s d b l0)).
      { unfold located. destruct Rf as [-> | [[-> | ->] Sl]]; [reflexivity | rewrite Sl; reflexivity | rewrite Sl; reflexivity]. }
      rewrite Lo in A. injection A as <-. reflexivity.
    + injection A as <-. destruct (p_loc p) as [m |]; [subst l; reflexivity |]. destruct (p_ploc p) as [m |]; [subst l; reflexivity |]. destruct H as (o & -> & Ho). exact Ho.
Qed.
(** Conflicts are errors. *)
Lemma morph_given s chk loc rel l : morph_location s chk loc rel = Ok l -> given l = (given loc || given rel)%bool /\ (chk = true -> given loc = true -> given rel = true -> False).
Proof.
  destruct rel as [r |]; cbn [morph_location]; [| intros E; injection E as <-; split; [destruct loc; reflexivity | discriminate]].
  destruct (chk && given loc)%bool eqn:Ch; [discriminate |]. destruct r as [| [d |] [b |] rf other]; try discriminate. destruct other; [discriminate |].
  destruct (located s d b rf); [| discriminate]. intros E. injection E as <-. split; [destruct loc; reflexivity |]. intros -> Hl _. rewrite Hl in Ch. discriminate.
Qed.
Lemma conflict s old p lon lat rel : (2 <= ways p lon lat rel)%nat -> exists e, put s true old p lon lat rel = Err e /\ (e = ValueError \/ e = TypeError).
Proof.
  intros W. unfold Place_model.put. destruct (morph_location s true (p_loc p) rel) as [l | e] eqn:A.
  2: { exists e. split; [reflexivity |]. destruct rel as [r |]; cbn [morph_location] in A; [| discriminate]. destruct (true && given (p_loc p))%bool; [injection A; auto |].
       destruct r as [| [d |] [b |] rf other]; try (injection A; auto). destruct other; [injection A; auto |]. unfold located in A. destruct rf, (s_local s); cbn [rbind] in A; try discriminate; injection A; auto. }
  cbn [rbind]. destruct (morph_given _ _ _ _ _ A) as [G N]. destruct (lonlat_location true l (p_ploc p) lon lat) as [l' | e] eqn:B.
  2: { exists e. split; [reflexivity |]. left. destruct lon, lat; cbn [lonlat_location] in B; try (injection B; auto; fail); try discriminate. destruct (true && _)%bool in B; [injection B; auto | discriminate]. }
  cbn [rbind]. exists ValueError. split; [| auto]. unfold maker. cbn [at_location p_loc p_ploc p_radius p_diameter]. destruct (true && given (p_radius p) && given (p_diameter p))%bool; [reflexivity |].
  assert (V : (given l' && given (p_ploc p))%bool = true).
  { unfold ways, count in W. destruct lon as [x |], lat as [y |]; cbn [lonlat_location] in B; try discriminate.
    - cbn [andb] in B. destruct (given l || given (p_ploc p))%bool eqn:O; [discriminate |]. apply Bool.orb_false_iff in O as [O1 O2]. rewrite G in O1. apply Bool.orb_false_iff in O1 as [O3 O4].
      rewrite O2, O3, O4 in W. cbn in W. lia.
    - injection B as <-. rewrite G. destruct (p_ploc p) as [m |]; cbn [given] in *; rewrite ?Bool.andb_true_r; [| exfalso].
      + destruct (given (p_loc p)), (given rel); cbn in *; try reflexivity. lia.
      + destruct (given (p_loc p)) eqn:O1, (given rel) eqn:O2; cbn in W; first [lia | exact (N eq_refl eq_refl eq_refl)]. }
  cbn [andb]. rewrite V. reflexivity.
Qed.
Lemma put_beyond s chk old p lon lat c : put s chk old p (Some lon) (Some lat) None = Ok c -> -270 <= lat <= 270 -> sits_at c (lon, lat).
Proof.
  intros E P. apply put_inv in E as (l1 & l2 & A & B & C). destruct (maker_loc chk old _ c (lon, lat) C) as [H | H].
  - cbn [at_location p_loc]. cbn [lonlat_location] in B. destruct (chk && (given l1 || given (p_ploc p)))%bool; [discriminate |]. injection B as <-. reflexivity.
  - eexists. split; [exact H | reflexivity].
  - eexists. split; [exact H | apply normalize_beyond, P].
Qed.
Lemma no_reference s chk old p d b : s_local s = None -> p_loc p = None ->
  put s chk old p None None (Some (Dict (Some d) (Some b) Missing false)) = Err TypeError /\
  put s chk old p None None (Some (Dict (Some d) (Some b) IsNone false)) = Err ValueError.
Proof.
  intros N L. unfold Place_model.put, morph_location, located. rewrite L, N. cbn [given]. rewrite Bool.andb_false_r. split; reflexivity.
Qed.
End Maker.
