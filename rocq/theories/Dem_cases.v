From Coq Require Import Reals List ZArith Lia Lra.
From Verif Require Import Common Trig_model Geo_spec Geo_proofs Dem_model Dem_spec Dem_proofs Dem_lons Dem_files.
Import ListNotations.
Open Scope R_scope.

Lemma PI_34 : 3 < PI <= 4.
Proof. pose proof PI2_3_2. pose proof PI_4. lra. Qed.
Lemma nearer x a b : a < b -> (a + b) / 2 < x -> Rabs (x - b) < Rabs (x - a).
Proof. intros. rewrite (Rabs_right (x - a)) by lra. unfold Rabs. destruct (Rcase_abs _); lra. Qed.
Lemma res_at x best l r : closest x (best :: l) (nearest_of x best l) -> (forall s, In s (best :: l) -> s = r \/ Rabs (x - IZR r) < Rabs (x - IZR s)) -> In r (best :: l) -> nearest_of x best l = r.
Proof. intros [I M] H R. destruct (H _ I) as [|L]; [assumption|]. specialize (M r R). lra. Qed.
Lemma nearer' x a b : a < b -> x < (a + b) / 2 -> Rabs (x - a) < Rabs (x - b).
Proof. intros. rewrite (Rabs_left (x - b)) by lra. unfold Rabs. destruct (Rcase_abs _); lra. Qed.
Lemma res_256 x : 192 < x < 384 -> nearest_of x 4 [16; 64; 128; 256; 512]%Z = 256%Z.
Proof.
  intros H. apply res_at; [apply nearest_spec| |cbn; tauto]. intros s I. cbn in I.
  destruct I as [<-|[<-|[<-|[<-|[<-|[<-|[]]]]]]]; try (left; reflexivity); right; (apply nearer; lra) || (apply nearer'; lra).
Qed.
Lemma res_128 x : 96 < x < 192 -> nearest_of x 4 [16; 64; 128; 256; 512]%Z = 128%Z.
Proof.
  intros H. apply res_at; [apply nearest_spec| |cbn; tauto]. intros s I. cbn in I.
  destruct I as [<-|[<-|[<-|[<-|[<-|[<-|[]]]]]]]; try (left; reflexivity); right; (apply nearer; lra) || (apply nearer'; lra).
Qed.
Ltac known_floor e z := replace e with z by (symmetry; apply floor_spec; unfold Rabs; repeat destruct (Rcase_abs _); lra).
Ltac known_ceil e z := replace e with z by (symmetry; apply ceil_spec; unfold Rabs; repeat destruct (Rcase_abs _); lra).
Ltac zif := repeat match goal with |- context [if orb ?a ?c then _ else _] => let v := eval compute in (orb a c) in change (orb a c) with v; cbv iota end.
Lemma tile_00 : tile 256 (0, 0) = Tile 256 60 0 South 0 120.
Proof.
  unfold tile. cbn [fst snd tile_size Z.eqb Pos.eqb]. destruct (Rlt_dec 0 0) as [L|L]; [lra|].
  known_floor (floor (Rabs (0 / 60) + 1)) 1%Z. zif.
  known_floor (floor (Rabs (0 / 120))) 0%Z. reflexivity.
Qed.
Lemma tile_corner_s : tile 256 (-180, -60) = Tile 256 90 30 South 0 120 /\ tile 256 (180, -60) = Tile 256 90 30 South 0 120.
Proof.
  unfold tile. cbn [fst snd tile_size Z.eqb Pos.eqb].
  destruct (Rlt_dec (-180) 0) as [L|L]; [|lra]. destruct (Rlt_dec 180 0) as [M|M]; [lra|]. destruct (Rlt_dec 0 (-60)) as [N|N]; [lra|].
  known_floor (floor (Rabs (-60 / 60) + 1)) 2%Z. zif.
  known_floor (floor (Rabs ((-180 + 360) / 120) + 180 / 120)) 3%Z. known_floor (floor (Rabs (180 / 120) + 180 / 120)) 3%Z. split; reflexivity.
Qed.
Lemma tile_corner_n : tile 256 (-180, 60) = Tile 256 0 60 North 120 240 /\ tile 256 (180, 60) = Tile 256 0 60 North 120 240.
Proof.
  unfold tile. cbn [fst snd tile_size Z.eqb Pos.eqb].
  destruct (Rlt_dec (-180) 0) as [L|L]; [|lra]. destruct (Rlt_dec 180 0) as [M|M]; [lra|]. destruct (Rlt_dec 0 60) as [N|N]; [|lra].
  known_ceil (Dem_model.ceil (Rabs (60 / 60) - 1)) 0%Z. zif.
  known_floor (floor (Rabs ((-180 + 360) / 120))) 1%Z. known_floor (floor (Rabs (180 / 120))) 1%Z. split; reflexivity.
Qed.
(** The middle latitudes of the whole Moon at 120 m. *)
Lemma whole_list : dem_file_list 120 (-60, 60) (-180, 180) = Ok ([Tile 256 60 0 South 0 120; Tile 256 90 30 South 0 120; Tile 256 0 60 North 120 240], 256%Z).
Proof.
  unfold dem_file_list. pose proof PI_34. destruct (Rlt_dec 10 (PI / 180 * 1737530 / 120)) as [_|N]; [|lra]. cbn [fst snd].
  destruct (Rlt_dec 60 (-60)) as [N|_]; [lra|]. destruct (Rlt_dec 60 (-60)) as [N|_]; [lra|]. f_equal.
  unfold cylindrical_files. rewrite res_256 by lra. cbn [Z.ltb Z.compare Pos.compare Pos.compare_cont fold_left]. unfold cylindrical_file. cbn [Z.leb Z.compare Pos.compare Pos.compare_cont].
  replace ((-180 + 180) / 2) with 0 by lra. replace ((-60 + 60) / 2) with 0 by lra.
  rewrite tile_00, (proj1 tile_corner_s), (proj2 tile_corner_s), (proj1 tile_corner_n), (proj2 tile_corner_n). reflexivity.
Qed.
Lemma outside_lons l1 l2 lon : IZR l2 < lon -> lon < IZR l1 + 360 -> ~ between_lons (IZR l1, IZR l2) lon.
Proof.
  intros A B (k & K1 & K2). cbn [fst snd] in *. destruct (Z_le_gt_dec 0 k) as [G|G].
  - apply IZR_le in G. lra.
  - assert (G' : (k <= -1)%Z) by lia. apply IZR_le in G'. lra.
Qed.
Lemma whole_missed : in_box (-60, 60) (-180, 180) 60 30 /\ exists files, dem_file_list 120 (-60, 60) (-180, 180) = Ok (files, 256%Z) /\ ~ exists f, In f files /\ covers f 60 30.
Proof.
  split; [unfold in_box; cbn; lra|]. eexists. split; [exact whole_list|]. intros (f & [<-|[<-|[<-|[]]]] & C); cbn in C; [lra|lra|].
  destruct C as [_ (k & K)]. cbn in K. destruct (Z_le_gt_dec k 0) as [G|G].
  - apply IZR_le in G. lra.
  - assert (G' : (1 <= k)%Z) by lia. apply IZR_le in G'. lra.
Qed.
(** Across 60 degrees north at 240 m. *)
Lemma mid_missed : in_box (55, 65) (0, 10) 5 62 /\ exists files, dem_file_list 240 (55, 65) (0, 10) = Ok (files, 128%Z) /\ ~ exists f, In f files /\ covers f 5 62.
Proof.
  split; [unfold in_box; cbn; lra|]. exists [MidLatitudes 128]. split.
  - unfold dem_file_list. pose proof PI_34. destruct (Rlt_dec 10 (PI / 180 * 1737530 / 240)) as [_|N]; [|lra]. cbn [fst snd].
    destruct (Rlt_dec 60 55) as [N|_]; [lra|]. destruct (Rlt_dec 65 (-60)) as [N|_]; [lra|]. f_equal.
    unfold cylindrical_files. rewrite res_128 by lra. reflexivity.
  - intros (f & [<-|[]] & C). cbn in C. lra.
Qed.
(** ... and at 120 m. *)
Lemma tile_55 : tile 256 (0, 55) = Tile 256 0 60 North 0 120 /\ tile 256 (10, 55) = Tile 256 0 60 North 0 120 /\ tile 256 (5, 60) = Tile 256 0 60 North 0 120.
Proof.
  unfold tile. cbn [fst snd tile_size Z.eqb Pos.eqb].
  destruct (Rlt_dec 0 0) as [M|_]; [lra|]. destruct (Rlt_dec 10 0) as [M|_]; [lra|]. destruct (Rlt_dec 5 0) as [M|_]; [lra|]. destruct (Rlt_dec 0 55) as [_|N]; [|lra]. destruct (Rlt_dec 0 60) as [_|N]; [|lra].
  known_ceil (Dem_model.ceil (Rabs (55 / 60) - 1)) 0%Z. known_ceil (Dem_model.ceil (Rabs (60 / 60) - 1)) 0%Z. zif.
  known_floor (floor (Rabs (0 / 120))) 0%Z. known_floor (floor (Rabs (10 / 120))) 0%Z. known_floor (floor (Rabs (5 / 120))) 0%Z. repeat split; reflexivity.
Qed.
Lemma tile_65 : tile 256 (0, 65) = Tile 256 30 90 North 120 240 /\ tile 256 (10, 65) = Tile 256 30 90 North 120 240.
Proof.
  unfold tile. cbn [fst snd tile_size Z.eqb Pos.eqb].
  destruct (Rlt_dec 0 0) as [M|_]; [lra|]. destruct (Rlt_dec 10 0) as [M|_]; [lra|]. destruct (Rlt_dec 0 65) as [_|N]; [|lra].
  known_ceil (Dem_model.ceil (Rabs (65 / 60) - 1)) 1%Z. zif.
  known_floor (floor (Rabs (0 / 120) + 180 / 120)) 1%Z. known_floor (floor (Rabs (10 / 120) + 180 / 120)) 1%Z. split; reflexivity.
Qed.
Lemma pole_missed : in_box (55, 65) (0, 10) 5 62 /\ dem_file_list 120 (55, 65) (0, 10) = Ok ([Tile 256 0 60 North 0 120; Tile 256 30 90 North 120 240], 256%Z) /\
  ~ exists f, In f [Tile 256 0 60 North 0 120; Tile 256 30 90 North 120 240] /\ covers f 5 62.
Proof.
  split; [unfold in_box; cbn; lra|]. split.
  - unfold dem_file_list. pose proof PI_34. destruct (Rlt_dec 10 (PI / 180 * 1737530 / 120)) as [_|N]; [|lra]. cbn [fst snd].
    destruct (Rlt_dec 60 55) as [N|_]; [lra|]. destruct (Rlt_dec 65 (-60)) as [N|_]; [lra|]. f_equal.
    unfold cylindrical_files. rewrite res_256 by lra. cbn [Z.ltb Z.compare Pos.compare Pos.compare_cont fold_left]. unfold cylindrical_file. cbn [Z.leb Z.compare Pos.compare Pos.compare_cont].
    replace ((0 + 10) / 2) with 5 by lra. replace ((55 + 65) / 2) with 60 by lra.
    destruct tile_55 as (-> & -> & ->). destruct tile_65 as (-> & ->). reflexivity.
  - intros (f & [<-|[<-|[]]] & C); cbn in C; [lra|]. destruct C as [_ (k & K)]. cbn in K. destruct (Z_le_gt_dec k 0) as [G|G].
    + apply IZR_le in G. lra.
    + assert (G' : (1 <= k)%Z) by lia. apply IZR_le in G'. lra.
Qed.
(** The finest polar map. *)
Lemma finest_fails : dem_file_list 5 (88, 90) (-180, 180) = Err ValueError.
Proof.
  unfold dem_file_list. pose proof PI_34. destruct (Rlt_dec 10 (PI / 180 * 1737530 / 5)) as [_|N]; [|lra]. cbn [fst snd].
  destruct (Rlt_dec 60 88) as [_|N]; [|lra]. unfold polar_files. cbn [fst]. destruct (Rlt_dec 0 88) as [_|N]; [|lra]. rewrite (Rabs_right 88) by lra.
  assert (F : In (5, 875)%Z (filter (fun m : Z * Z => if Rle_dec (IZR (snd m) / 10) 88 then true else false) polar_maps)).
  { apply filter_In. split; [cbn; tauto|]. cbn [snd]. destruct (Rle_dec (875 / 10) 88) as [_|N]; [reflexivity|lra]. }
  assert (S : forall m, In m (filter (fun m : Z * Z => if Rle_dec (IZR (snd m) / 10) 88 then true else false) polar_maps) -> fst m = 5%Z -> m = (5, 875)%Z).
  { intros m I E. apply filter_In in I. destruct I as [I _]. cbn in I. intuition (subst m; cbn in E; try discriminate E; reflexivity). }
  destruct (filter _ polar_maps) as [|m l]; [destruct F|]. destruct (nearest_map_spec 5 l m) as [I M]. specialize (M _ F). cbn [fst] in M.
  replace (5 - 5) with 0 in M by lra. rewrite Rabs_R0 in M.
  assert (E : fst (nearest_map 5 m l) = 5%Z).
  { apply eq_IZR. destruct (Req_dec (5 - IZR (fst (nearest_map 5 m l))) 0) as [Q|Q]; [lra|]. pose proof (Rabs_pos_lt _ Q). lra. }
  rewrite (S _ I E). reflexivity.
Qed.
(** A box that fits. *)
Lemma fits_case : fits 256 (10, 40) (-30, 60) /\ in_box (10, 40) (-30, 60) 0 20 /\ snd (cylindrical_files 256 (10, 40) (-30, 60)) = 256%Z.
Proof.
  split; [cbn; lra|]. split; [unfold in_box; cbn; lra|]. unfold cylindrical_files. rewrite res_256 by lra. reflexivity.
Qed.
Lemma longitudes_partial T lon0 lat0 r lon lat : 0 < T -> 0 <= r -> in_region T lon0 lat0 r lon lat -> lat0 = 0 \/ 90 <= Rabs lat0 + deg (r / T) ->
  between_lons (fst (location_extents T lon0 lat0 r)) lon.
Proof.
  intros HT Hr H [->|P].
  - destruct (equator_longitudes T lon0 r lon lat HT Hr H) as [E|E]; [exact E|rewrite E; apply whole_longitudes].
  - cbn [location_extents fst]. destruct (Rle_dec 90 _) as [_|N]; [apply whole_longitudes|contradiction].
Qed.
Lemma tile_covers_it res lon lat : res = 512%Z /\ -90 < lat <= 90 \/ res = 256%Z /\ -60 < lat <= 60 -> -360 <= lon -> covers (tile res (lon, lat)) lon lat.
Proof.
  intros H L. apply tile_covers; [unfold tiled; tauto|exact L| |reflexivity|reflexivity]. unfold lat_ok. destruct H as [[-> H]|[-> H]]; exact H.
Qed.
Lemma north_in : in_region 1 10 20 (rad 5) 10 25.
Proof.
  pose proof PI_RGT_0. assert (D : deg (rad 5 / 1) = 5) by (replace (rad 5 / 1) with (rad 5) by field; apply Dem_proofs.deg_rad).
  replace 25 with (20 + 1 * deg (rad 5 / 1)) by (rewrite D; lra). apply latitudes_reached; [lra|left; reflexivity|unfold rad; lra|lra|rewrite D; lra].
Qed.
Lemma refuted_case : Rabs 45 + deg (rad 30 * 1737400 / 1737400) < 90.
Proof. replace (rad 30 * 1737400 / 1737400) with (rad 30) by field. rewrite Dem_proofs.deg_rad, Rabs_right by lra. lra. Qed.
