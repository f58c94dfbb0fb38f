From Coq Require Import Reals List ZArith Lia Lra.
From Verif Require Import Common Dem_model Dem_spec Dem_lons.
Import ListNotations.
Open Scope R_scope.

(* ------------------------------ the closest ------------------------------ *)
Lemma nearest_spec x l : forall best, closest x (best :: l) (nearest_of x best l).
Proof.
  induction l as [|r l IH]; intros best; cbn [nearest_of].
  - split; [left; reflexivity|]. intros s [->|[]]. lra.
  - destruct (IH (if Rlt_dec (Rabs (x - IZR r)) (Rabs (x - IZR best)) then r else best)) as [I M]. set (n := nearest_of _ _ _) in *.
    destruct (Rlt_dec (Rabs (x - IZR r)) (Rabs (x - IZR best))) as [L|L].
    + split; [right; exact I|]. intros s [<-|H]; [|apply M; exact H]. pose proof (M r (or_introl eq_refl)). lra.
    + split; [destruct I as [I|I]; [left; exact I|right; right; exact I]|]. pose proof (M best (or_introl eq_refl)).
      intros s [<-|[<-|H1]]; [lra|lra|apply M; right; exact H1].
Qed.
Lemma nearest_map_spec x l : forall best, let m := nearest_map x best l in In m (best :: l) /\ forall s, In s (best :: l) -> Rabs (x - IZR (fst m)) <= Rabs (x - IZR (fst s)).
Proof.
  cbv zeta. induction l as [|r l IH]; intros best; cbn [nearest_map].
  - split; [left; reflexivity|]. intros s [->|[]]. lra.
  - destruct (IH (if Rlt_dec (Rabs (x - IZR (fst r))) (Rabs (x - IZR (fst best))) then r else best)) as [I M]. set (n := nearest_map _ _ _) in *.
    destruct (Rlt_dec (Rabs (x - IZR (fst r))) (Rabs (x - IZR (fst best)))) as [L|L].
    + split; [right; exact I|]. intros s [<-|H]; [|apply M; exact H]. pose proof (M r (or_introl eq_refl)). lra.
    + split; [destruct I as [I|I]; [left; exact I|right; right; exact I]|]. pose proof (M best (or_introl eq_refl)).
      intros s [<-|[<-|H1]]; [lra|lra|apply M; right; exact H1].
Qed.
Lemma cylindrical_closest res la lo : closest res [4; 16; 64; 128; 256; 512]%Z (snd (cylindrical_files res la lo)).
Proof.
  unfold cylindrical_files. destruct la as [a b], lo as [c d]. destruct (_ <? 256)%Z; cbn [snd]; apply nearest_spec.
Qed.

(* ------------------------------ cells ------------------------------ *)
Lemma floor_spec x z : floor x = z <-> IZR z <= x < IZR z + 1.
Proof.
  unfold floor. destruct (base_Int_part x) as [A B]. split; [intros <-; lra|]. intros [C D].
  assert (IZR (Int_part x) < IZR z + 1) by lra. assert (IZR z < IZR (Int_part x) + 1) by lra.
  rewrite <- plus_IZR in *. apply lt_IZR in H. apply lt_IZR in H0. lia.
Qed.
Lemma ceil_spec x z : Dem_model.ceil x = z <-> IZR z - 1 < x <= IZR z.
Proof.
  unfold Dem_model.ceil. pose proof (floor_spec (- x) (- z)%Z) as F. unfold floor in F. rewrite opp_IZR in F.
  split; intros H; [assert (E : Int_part (- x) = (- z)%Z) by lia; apply F in E; lra|]. assert (E : Int_part (- x) = (- z)%Z) by (apply F; lra). lia.
Qed.
(** The cell of a latitude, open below and closed above, and of a longitude. *)
Definition lat_cell (dlat : Z) (lat : R) : Z := (Dem_model.ceil (lat / IZR dlat) - 1)%Z.
Definition lon_cell (dlon : Z) (lon : R) : Z := floor (lon / IZR dlon).
Lemma lat_cell_spec d lat k : (0 < d)%Z -> (lat_cell d lat = k <-> IZR k * IZR d < lat <= IZR k * IZR d + IZR d).
Proof.
  intros D. apply IZR_lt in D. unfold lat_cell. pose proof (ceil_spec (lat / IZR d) (k + 1)) as C. rewrite plus_IZR in C.
  assert (E : lat = lat / IZR d * IZR d) by (field; lra). set (x := lat / IZR d) in *. split; intros H.
  - assert (F : Dem_model.ceil x = (k + 1)%Z) by lia. apply C in F. rewrite E.
    assert (IZR k * IZR d < x * IZR d) by (apply Rmult_lt_compat_r; lra). assert (x * IZR d <= (IZR k + 1) * IZR d) by (apply Rmult_le_compat_r; lra). lra.
  - assert (F : Dem_model.ceil x = (k + 1)%Z); [|lia]. apply C. rewrite E in H.
    split; [apply Rmult_lt_reg_r with (r := IZR d); lra|apply Rmult_le_reg_r with (r := IZR d); lra].
Qed.
Lemma lon_cell_spec d lon k : (0 < d)%Z -> (lon_cell d lon = k <-> IZR k * IZR d <= lon < IZR k * IZR d + IZR d).
Proof.
  intros D. apply IZR_lt in D. unfold lon_cell. pose proof (floor_spec (lon / IZR d) k) as C.
  assert (E : lon = lon / IZR d * IZR d) by (field; lra). set (x := lon / IZR d) in *. split; intros H.
  - apply C in H. rewrite E. assert (IZR k * IZR d <= x * IZR d) by (apply Rmult_le_compat_r; lra). assert (x * IZR d < (IZR k + 1) * IZR d) by (apply Rmult_lt_compat_r; lra). lra.
  - apply C. rewrite E in H. split; [apply Rmult_le_reg_r with (r := IZR d); lra|apply Rmult_lt_reg_r with (r := IZR d); lra].
Qed.
Lemma cells_between (cell : R -> Z) lo hi x : (cell lo <= cell x <= cell hi)%Z -> (cell hi <= cell lo + 1)%Z -> cell x = cell lo \/ cell x = cell hi.
Proof. lia. Qed.
Lemma lat_cell_mono d a b : (0 < d)%Z -> a <= b -> (lat_cell d a <= lat_cell d b)%Z.
Proof.
  intros D H. pose proof (proj1 (lat_cell_spec d a _ D) eq_refl). pose proof (proj1 (lat_cell_spec d b _ D) eq_refl). apply IZR_lt in D.
  destruct (Z_le_gt_dec (lat_cell d a) (lat_cell d b)) as [|G]; [assumption|]. assert (G' : (lat_cell d b + 1 <= lat_cell d a)%Z) by lia. apply IZR_le in G'. rewrite plus_IZR in G'.
  assert ((IZR (lat_cell d b) + 1) * IZR d <= IZR (lat_cell d a) * IZR d) by (apply Rmult_le_compat_r; lra). lra.
Qed.
Lemma lon_cell_mono d a b : (0 < d)%Z -> a <= b -> (lon_cell d a <= lon_cell d b)%Z.
Proof.
  intros D H. pose proof (proj1 (lon_cell_spec d a _ D) eq_refl). pose proof (proj1 (lon_cell_spec d b _ D) eq_refl). apply IZR_lt in D.
  destruct (Z_le_gt_dec (lon_cell d a) (lon_cell d b)) as [|G]; [assumption|]. assert (G' : (lon_cell d b + 1 <= lon_cell d a)%Z) by lia. apply IZR_le in G'. rewrite plus_IZR in G'.
  assert ((IZR (lon_cell d b) + 1) * IZR d <= IZR (lon_cell d a) * IZR d) by (apply Rmult_le_compat_r; lra). lra.
Qed.
Lemma lat_cell_step d a b : (0 < d)%Z -> b <= a + IZR d -> (lat_cell d b <= lat_cell d a + 1)%Z.
Proof.
  intros D H. assert (E : lat_cell d (a + IZR d) = (lat_cell d a + 1)%Z).
  { apply lat_cell_spec; [exact D|]. pose proof (proj1 (lat_cell_spec d a _ D) eq_refl). rewrite plus_IZR. lra. }
  rewrite <- E. apply lat_cell_mono; assumption.
Qed.
Lemma lon_cell_step d a b : (0 < d)%Z -> b <= a + IZR d -> (lon_cell d b <= lon_cell d a + 1)%Z.
Proof.
  intros D H. assert (E : lon_cell d (a + IZR d) = (lon_cell d a + 1)%Z).
  { apply lon_cell_spec; [exact D|]. pose proof (proj1 (lon_cell_spec d a _ D) eq_refl). rewrite plus_IZR. lra. }
  rewrite <- E. apply lon_cell_mono; assumption.
Qed.
(* ------------------------------ one tile ------------------------------ *)
Definition tiled (res : Z) : Prop := res = 512%Z \/ res = 256%Z.
Definition lat_ok (res : Z) (lat : R) : Prop := if Z.eqb res 512 then -90 < lat <= 90 else -60 < lat <= 60.
Lemma tile_lon dlon lon0 lon : (dlon = 45 \/ dlon = 120)%Z -> -360 <= lon0 -> lon_cell dlon lon = lon_cell dlon lon0 ->
  let lon' := if Rlt_dec lon0 0 then lon0 + 360 else lon0 in
  let l1 := ((floor (Rabs (lon' / IZR dlon)) * dlon) mod 360)%Z in
  between_lons (IZR l1, IZR (l1 + dlon)) lon.
Proof.
  intros D H E. cbv zeta. assert (D0 : (0 < dlon)%Z) by lia. assert (D1 := D0). apply IZR_lt in D1.
  set (lon' := if Rlt_dec lon0 0 then lon0 + 360 else lon0). assert (P : 0 <= lon') by (unfold lon'; destruct (Rlt_dec lon0 0); lra).
  rewrite Rabs_right by (apply Rle_ge, Rmult_le_pos; [exact P|left; apply Rinv_0_lt_compat; exact D1]). fold (lon_cell dlon lon').
  assert (T : exists t : Z, lon_cell dlon lon' = (lon_cell dlon lon0 + t)%Z /\ exists u : Z, (t * dlon = 360 * u)%Z).
  { unfold lon'. destruct (Rlt_dec lon0 0).
    - assert (exists t, (t * dlon = 360)%Z) as [t Ht] by (destruct D as [-> | ->]; [exists 8%Z|exists 3%Z]; reflexivity).
      exists t. split; [|exists 1%Z; lia]. apply lon_cell_spec; [exact D0|]. pose proof (proj1 (lon_cell_spec dlon lon0 _ D0) eq_refl).
      apply (f_equal IZR) in Ht. rewrite mult_IZR in Ht. rewrite plus_IZR. lra.
    - exists 0%Z. split; [lia|exists 0%Z; lia]. }
  destruct T as (t & T & u & U). rewrite T. clear T.
  pose proof (proj1 (lon_cell_spec dlon lon _ D0) eq_refl) as B. rewrite E in B. set (k := lon_cell dlon lon0) in *.
  pose proof (Z.div_mod ((k + t) * dlon) 360 ltac:(lia)) as M. set (q := ((k + t) * dlon / 360)%Z) in *. set (m := (((k + t) * dlon) mod 360)%Z) in *.
  assert (M2 : (k * dlon = 360 * (q - u) + m)%Z) by lia. apply (f_equal IZR) in M2. rewrite plus_IZR, !mult_IZR, minus_IZR in M2.
  exists (u - q)%Z. cbn [fst snd]. rewrite plus_IZR, minus_IZR. split; lra.
Qed.
Lemma tile_covers res lon0 lat0 lon lat : tiled res -> -360 <= lon0 -> lat_ok res lat0 ->
  lat_cell (snd (tile_size res)) lat = lat_cell (snd (tile_size res)) lat0 -> lon_cell (fst (tile_size res)) lon = lon_cell (fst (tile_size res)) lon0 ->
  covers (tile res (lon0, lat0)) lon lat.
Proof.
  intros T HL HA EA EL. unfold tile. cbn [fst snd].
  assert (TS : exists dlon dlat, tile_size res = (dlon, dlat) /\ (dlon = 45 \/ dlon = 120)%Z /\ (0 < dlat)%Z /\ (exists n, (0 < n)%Z /\ (n * dlat <= 90)%Z /\ - (IZR n * IZR dlat) < lat0 <= IZR n * IZR dlat)).
  { unfold tile_size, lat_ok in *. destruct T as [-> | ->]; cbn [Z.eqb Pos.eqb] in *.
    - exists 45%Z, 30%Z. split; [reflexivity|]. split; [lia|]. split; [lia|]. exists 3%Z. split; [lia|]. split; [lia|]. lra.
    - exists 120%Z, 60%Z. split; [reflexivity|]. split; [lia|]. split; [lia|]. exists 1%Z. split; [lia|]. split; [lia|]. lra. }
  destruct TS as (dlon & dlat & ES & D & D0 & n & N0 & N90 & NB). rewrite ES in *. cbn [fst snd] in *.
  assert (D1 := D0). apply IZR_lt in D1.
  pose proof (tile_lon dlon lon0 lon D HL EL) as TL. cbv zeta in TL.
  pose proof (proj1 (lat_cell_spec dlat lat _ D0) eq_refl) as B. pose proof (proj1 (lat_cell_spec dlat lat0 _ D0) eq_refl) as B0. rewrite EA in B. set (k := lat_cell dlat lat0) in *.
  assert (NB1 : - (IZR n * IZR dlat) < lat0) by apply NB. assert (NB2 : lat0 <= IZR n * IZR dlat) by apply NB.
  rewrite <- mult_IZR in NB1, NB2, B0, B.
  assert (K1 : (- n <= k)%Z).
  { assert (- IZR (n * dlat) < IZR (k * dlat) + IZR dlat) by lra. rewrite <- opp_IZR, <- plus_IZR in H. apply lt_IZR in H. nia. }
  assert (K2 : (k < n)%Z).
  { assert (H : IZR (k * dlat) < IZR (n * dlat)) by lra. apply lt_IZR in H. nia. }
  destruct (Rlt_dec 0 lat0) as [L|L].
  - assert (K0 : (0 <= k)%Z). { assert (H : 0 < IZR (k * dlat) + IZR dlat) by lra. rewrite <- plus_IZR in H. apply lt_IZR in H. nia. }
    rewrite Rabs_right by (apply Rle_ge, Rmult_le_pos; [lra|left; apply Rinv_0_lt_compat; exact D1]).
    assert (C : Dem_model.ceil (lat0 / IZR dlat - 1) = k).
    { apply ceil_spec. rewrite mult_IZR in B0. split.
      - apply Rmult_lt_reg_r with (r := IZR dlat); [exact D1|]. replace ((lat0 / IZR dlat - 1) * IZR dlat) with (lat0 - IZR dlat) by (field; lra). lra.
      - apply Rmult_le_reg_r with (r := IZR dlat); [exact D1|]. replace ((lat0 / IZR dlat - 1) * IZR dlat) with (lat0 - IZR dlat) by (field; lra). lra. }
    rewrite C. replace (90 <? k * dlat + dlat)%Z with false by (symmetry; apply Z.ltb_ge; nia). replace (90 <? k * dlat)%Z with false by (symmetry; apply Z.ltb_ge; nia).
    cbn [orb]. replace (k * dlat + dlat <? k * dlat)%Z with false by (symmetry; apply Z.ltb_ge; lia). cbn [covers]. split; [|exact TL]. rewrite plus_IZR. lra.
  - assert (K0 : (k < 0)%Z). { assert (H : IZR (k * dlat) < 0) by lra. apply lt_IZR in H. nia. }
    assert (AB : Rabs (lat0 / IZR dlat) = - lat0 / IZR dlat).
    { unfold Rdiv. rewrite Rabs_mult, (Rabs_right (/ IZR dlat)) by (left; apply Rinv_0_lt_compat; exact D1). rewrite Rabs_left1 by lra. reflexivity. }
    assert (C : floor (Rabs (lat0 / IZR dlat) + 1) = (- k)%Z).
    { rewrite AB. apply floor_spec. rewrite opp_IZR. rewrite mult_IZR in B0. split.
      - apply Rmult_le_reg_r with (r := IZR dlat); [exact D1|]. replace ((- lat0 / IZR dlat + 1) * IZR dlat) with (- lat0 + IZR dlat) by (field; lra). lra.
      - apply Rmult_lt_reg_r with (r := IZR dlat); [exact D1|]. replace ((- lat0 / IZR dlat + 1) * IZR dlat) with (- lat0 + IZR dlat) by (field; lra). lra. }
    rewrite C. replace (90 <? - k * dlat)%Z with false by (symmetry; apply Z.ltb_ge; nia). replace (90 <? - k * dlat - dlat)%Z with false by (symmetry; apply Z.ltb_ge; nia).
    cbn [orb]. replace (- k * dlat - dlat <? - k * dlat)%Z with true by (symmetry; apply Z.ltb_lt; lia). cbn [covers]. split; [|exact TL].
    rewrite minus_IZR, mult_IZR, opp_IZR. rewrite mult_IZR in B. lra.
Qed.
(* ------------------------------ a box ------------------------------ *)
Lemma in_add_file l f g : In g (add_file l f) <-> In g l \/ g = f.
Proof.
  unfold add_file. destruct (in_dec file_dec f l) as [I|I].
  - split; [left; assumption|]. intros [H| ->]; assumption.
  - rewrite in_app_iff. cbn. split; [intros [H|[H|[]]]; [left; exact H|right; symmetry; exact H]|]. intros [H|H]; [left; exact H|right; left; symmetry; exact H].
Qed.
Lemma in_folded f locs g : forall l, (In g l \/ exists loc, In loc locs /\ g = f loc) -> In g (fold_left (fun l (loc : R * R) => add_file l (f loc)) locs l).
Proof.
  induction locs as [|a locs IH]; intros l H; cbn [fold_left].
  - destruct H as [H|(? & [] & _)]. exact H.
  - apply IH. destruct H as [H|(loc & [->|I] & ->)]; [left; apply in_add_file; left; exact H|left; apply in_add_file; right; reflexivity|right; exists loc; split; [exact I|reflexivity]].
Qed.
Lemma cylindrical_cover res la lo lon lat : let '(files, r) := cylindrical_files res la lo in
  (r = 128%Z -> -60 <= fst la /\ snd la <= 60) -> ((256 <= r)%Z -> fits r la lo) -> in_box la lo lon lat -> exists f, In f files /\ covers f lon lat.
Proof.
  pose proof (cylindrical_closest res la lo) as [CI _]. destruct (cylindrical_files res la lo) as [files r] eqn:E. cbn [snd] in CI. intros H128 HF HB.
  unfold cylindrical_files in E. destruct la as [a b], lo as [c d]. set (n := nearest_of _ _ _) in E.
  assert (RN : n = r) by (destruct (n <? 256)%Z; injection E; intros; assumption). rewrite RN in E. clear n RN.
  destruct HB as [HA HO]. cbn [fst snd] in *.
  destruct (Z.ltb_spec r 256) as [L|L].
  - injection E as <-. unfold cylindrical_file. replace (256 <=? r)%Z with false by (symmetry; apply Z.leb_gt; lia).
    eexists. split; [left; reflexivity|]. destruct (Z.eqb_spec r 128) as [X|X]; cbn; [|exact I]. specialize (H128 X). lra.
  - specialize (HF L). unfold fits in HF.
    assert (T : tiled r) by (cbn in CI; unfold tiled; lia).
    destruct (tile_size r) as [dlon dlat] eqn:TS. cbn [fst snd] in HF. destruct HF as (F1 & F2 & F3 & F4).
    assert (D : (0 < dlat)%Z /\ (0 < dlon)%Z) by (unfold tile_size in TS; destruct (Z.eqb r 512); injection TS as <- <-; lia).
    assert (KA : lat_cell dlat lat = lat_cell dlat a \/ lat_cell dlat lat = lat_cell dlat b).
    { apply cells_between; [split; apply lat_cell_mono; lra || lia|apply lat_cell_step; [lia|lra]]. }
    assert (KO : lon_cell dlon lon = lon_cell dlon c \/ lon_cell dlon lon = lon_cell dlon d).
    { apply cells_between; [split; apply lon_cell_mono; lra || lia|apply lon_cell_step; [lia|lra]]. }
    assert (LO : lat_ok r a /\ lat_ok r b) by (unfold lat_ok; destruct (Z.eqb r 512); lra).
    assert (M : exists loc, In loc [(c, a); (c, b); (d, a); (d, b)] /\ covers (tile r loc) lon lat).
    { pose proof (fun x y => tile_covers r x y lon lat T) as TC. rewrite TS in TC. cbn [fst snd] in TC.
      destruct KA as [KA|KA], KO as [KO|KO]; [exists (c, a)|exists (d, a)|exists (c, b)|exists (d, b)]; (split; [cbn; tauto|]); apply TC; try assumption; try apply LO; lra. }
    destruct M as (loc & I & M). injection E as <-. exists (cylindrical_file r loc). split; [apply (in_folded (cylindrical_file r) [(c, a); (c, b); (d, a); (d, b)] (cylindrical_file r loc) [_]); right; exists loc; split; [exact I|reflexivity]|].
    unfold cylindrical_file. replace (256 <=? r)%Z with true by (symmetry; apply Z.leb_le; lia). exact M.
Qed.
(* ------------------------------ the poles ------------------------------ *)
Lemma polar_cover res la files r lat lon : polar_files res la = Ok (files, r) -> fst la <= lat <= snd la -> 0 < fst la \/ snd la < 0 ->
  (exists f, In f files /\ covers f lon lat).
Proof.
  unfold polar_files. intros H B S. destruct la as [a b]. cbn [fst snd] in *.
  destruct (Rlt_dec 0 a) as [N|N].
  - destruct (filter _ polar_maps) as [|m l] eqn:F; [discriminate|]. destruct (nearest_map res m l) as [pix t] eqn:E.
    destruct (nearest_map_spec res l m) as [I _]. rewrite E in I. rewrite <- F in I. apply filter_In in I. destruct I as [_ I]. cbn [snd] in I.
    destruct (Rle_dec (IZR t / 10) (Rabs a)) as [LE|]; [|discriminate]. rewrite Rabs_right in LE by lra.
    destruct (Z.eqb_spec (t mod 10) 0) as [Z0|]; [|discriminate]. injection H as <- <-. eexists. split; [left; reflexivity|]. cbn.
    pose proof (Z.div_mod t 10 ltac:(lia)) as DM. rewrite Z0, Z.add_0_r in DM. apply (f_equal IZR) in DM. rewrite mult_IZR in DM. lra.
  - destruct S as [S|S]; [lra|]. destruct (filter _ polar_maps) as [|m l] eqn:F; [discriminate|]. destruct (nearest_map res m l) as [pix t] eqn:E.
    destruct (nearest_map_spec res l m) as [I _]. rewrite E in I. rewrite <- F in I. apply filter_In in I. destruct I as [_ I]. cbn [snd] in I.
    destruct (Rle_dec (IZR t / 10) (Rabs b)) as [LE|]; [|discriminate]. rewrite Rabs_left in LE by lra.
    destruct (Z.eqb_spec (t mod 10) 0) as [Z0|]; [|discriminate]. injection H as <- <-. eexists. split; [left; reflexivity|]. cbn.
    pose proof (Z.div_mod t 10 ltac:(lia)) as DM. rewrite Z0, Z.add_0_r in DM. apply (f_equal IZR) in DM. rewrite mult_IZR in DM. lra.
Qed.
Lemma dem_cover pix la lo files r lon lat : dem_file_list pix la lo = Ok (files, r) ->
  (-60 <= fst la /\ snd la <= 60 -> (256 <= r)%Z -> fits r la lo) -> (60 < fst la \/ snd la < -60 \/ -60 <= fst la /\ snd la <= 60) ->
  in_box la lo lon lat -> exists f, In f files /\ covers f lon lat.
Proof.
  unfold dem_file_list. intros H HF HL HB. set (x := PI / 180 * 1737530 / pix) in H.
  assert (CY : forall y, (-60 <= fst la /\ snd la <= 60 \/ y <= 10) -> Ok (cylindrical_files y la lo) = Ok (files, r) -> exists f, In f files /\ covers f lon lat).
  { intros y Hy K. injection K as K. pose proof (cylindrical_cover y la lo lon lat) as C. pose proof (cylindrical_closest y la lo) as [_ CC]. rewrite K in C, CC. cbn [snd] in CC.
    destruct Hy as [Hy|Hy].
    - apply C; [intros _; exact Hy|apply HF; exact Hy|exact HB].
    - specialize (CC 4%Z ltac:(cbn; tauto)).
      assert (r < 128)%Z.
      { destruct (Z_lt_le_dec r 128) as [|G]; [assumption|]. apply IZR_le in G. exfalso. revert CC. rewrite (Rabs_left (y - IZR r)) by lra. unfold Rabs. destruct (Rcase_abs (y - 4)); lra. }
      apply C; [lia|lia|exact HB]. }
  destruct (Rlt_dec 10 x) as [X|X]; [|apply (CY x); [right; lra|exact H]].
  destruct (Rlt_dec 60 (fst la)) as [N|N].
  - eapply polar_cover; [exact H|apply HB|left; lra].
  - destruct (Rlt_dec (snd la) (-60)) as [S|S].
    + eapply polar_cover; [exact H|apply HB|right; lra].
    + apply (CY x); [left; lra|exact H].
Qed.
Lemma polar_closest res la files r : polar_files res la = Ok (files, r) ->
  let lat := Rabs (if Rlt_dec 0 (fst la) then fst la else snd la) in
  closest res (map fst (filter (fun m => if Rle_dec (IZR (snd m) / 10) lat then true else false) polar_maps)) r.
Proof.
  unfold polar_files. intros H. cbv zeta. destruct (Rlt_dec 0 (fst la)).
  all: destruct (filter _ polar_maps) as [|m l] eqn:F; [discriminate|]; destruct (nearest_map res m l) as [pix t] eqn:E;
    destruct (nearest_map_spec res l m) as [I M]; rewrite E in I, M; cbn [fst] in M; destruct (Z.eqb (t mod 10) 0); [|discriminate]; injection H as <- <-;
    split; [apply in_map_iff; exists (pix, t); split; [reflexivity|exact I]|intros s J; apply in_map_iff in J; destruct J as ([s' t'] & <- & J); apply (M _ J)].
Qed.
