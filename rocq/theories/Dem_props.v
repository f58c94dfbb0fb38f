(** Property theorems about region extents and the choice of elevation files (C75, C76). *)
From Coq Require Import Reals List ZArith Lra.
From Verif Require Import Common Trig_model Dem_model Dem_spec Dem_proofs Dem_lons Dem_files Dem_cases.
Import ListNotations.
Open Scope R_scope.

(** C75: every point of a region has a latitude between the two that are returned. *)
Theorem C75_latitudes_enclose T lon0 lat0 r lon lat : 0 < T -> 0 <= r -> -90 <= lat0 <= 90 -> in_region T lon0 lat0 r lon lat ->
  fst (snd (location_extents T lon0 lat0 r)) <= lat <= snd (snd (location_extents T lon0 lat0 r)).
Proof. exact (latitudes T lon0 lat0 r lon lat). Qed.
Print Assumptions C75_latitudes_enclose.
(** C75: and they are the latitudes of points of the region, or of the poles. *)
Theorem C75_latitudes_reached T lon0 lat0 r s : 0 < T -> s = 1 \/ s = -1 -> 0 <= r -> -90 <= lat0 <= 90 -> -90 <= lat0 + s * deg (r / T) <= 90 ->
  in_region T lon0 lat0 r lon0 (lat0 + s * deg (r / T)).
Proof. exact (latitudes_reached T lon0 lat0 r s). Qed.
Print Assumptions C75_latitudes_reached.
(** C75: longitudes for a centre on the equator, or a region that holds a pole.  Missing: all
    other regions (below). *)
Theorem C75_longitudes_partial T lon0 lat0 r lon lat : 0 < T -> 0 <= r -> in_region T lon0 lat0 r lon lat -> lat0 = 0 \/ 90 <= Rabs lat0 + deg (r / T) ->
  between_lons (fst (location_extents T lon0 lat0 r)) lon.
Proof. exact (longitudes_partial T lon0 lat0 r lon lat). Qed.
Print Assumptions C75_longitudes_partial.
(** C75: the half width that would be right for every region without a pole. *)
Theorem C75_right_longitudes T lon0 lat0 r lon lat : 0 < T -> 0 <= r -> Rabs lat0 + deg (r / T) < 90 -> in_region T lon0 lat0 r lon lat ->
  let w := deg (asin (sin (r / T) / cos (rad lat0))) in between_lons (lon0 - w, lon0 + w) lon.
Proof. exact (true_longitudes T lon0 lat0 r lon lat). Qed.
Print Assumptions C75_right_longitudes.
Example C75_case : in_region 1 10 20 (rad 5) 10 25.
Proof. exact north_in. Qed.
(** C75 fails for every region off the equator that holds no pole: the longitudes span the
    angular radius divided by the cosine of the latitude, which leaves out points of the region. *)
Theorem C75_longitudes_refuted T lon0 lat0 r : 0 < T -> 0 < r -> lat0 <> 0 -> Rabs lat0 + deg (r / T) < 90 ->
  exists lon lat, in_region T lon0 lat0 r lon lat /\ ~ between_lons (fst (location_extents T lon0 lat0 r)) lon.
Proof. exact (longitudes_missed T lon0 lat0 r). Qed.
Print Assumptions C75_longitudes_refuted.
Example C75_refuted_case : Rabs 45 + deg (rad 30 * 1737400 / 1737400) < 90.
Proof. exact refuted_case. Qed.

(** C76: the closest resolution that is available is used. *)
Theorem C76_closest_resolution res la lo : closest res [4; 16; 64; 128; 256; 512]%Z (snd (cylindrical_files res la lo)).
Proof. exact (cylindrical_closest res la lo). Qed.
Print Assumptions C76_closest_resolution.
(** C76: near the poles, of the maps that reach to the region. *)
Theorem C76_closest_polar res la files r : polar_files res la = Ok (files, r) ->
  let lat := Rabs (if Rlt_dec 0 (fst la) then fst la else snd la) in
  closest res (map fst (filter (fun m => if Rle_dec (IZR (snd m) / 10) lat then true else false) polar_maps)) r.
Proof. exact (polar_closest res la files r). Qed.
Print Assumptions C76_closest_polar.
(** C76: a file chosen for a location covers it, with all of the tile around it. *)
Theorem C76_tile res lon lat : res = 512%Z /\ -90 < lat <= 90 \/ res = 256%Z /\ -60 < lat <= 60 -> -360 <= lon -> covers (tile res (lon, lat)) lon lat.
Proof. exact (tile_covers_it res lon lat). Qed.
Print Assumptions C76_tile.
(** C76: the files cover the region if it lies on one side of, or between, 60 degrees north and
    south and, where tiles are used, is no larger than a tile.  Missing: larger regions and
    regions across 60 degrees (below). *)
Theorem C76_covered_partial pix la lo files r lon lat : dem_file_list pix la lo = Ok (files, r) ->
  (-60 <= fst la /\ snd la <= 60 -> (256 <= r)%Z -> fits r la lo) -> (60 < fst la \/ snd la < -60 \/ -60 <= fst la /\ snd la <= 60) ->
  in_box la lo lon lat -> exists f, In f files /\ covers f lon lat.
Proof. exact (dem_cover pix la lo files r lon lat). Qed.
Print Assumptions C76_covered_partial.
Example C76_case : fits 256 (10, 40) (-30, 60) /\ in_box (10, 40) (-30, 60) 0 20 /\ snd (cylindrical_files 256 (10, 40) (-30, 60)) = 256%Z.
Proof. exact fits_case. Qed.
(** C76 fails for wide regions: only the tiles at the centre and the four corners are listed.
    For the middle latitudes of the whole Moon at 120 m these are three of the six, one of which
    is named after latitudes 30 to 90 south. *)
Theorem C76_wide_refuted : in_box (-60, 60) (-180, 180) 60 30 /\
  exists files, dem_file_list 120 (-60, 60) (-180, 180) = Ok (files, 256%Z) /\ ~ exists f, In f files /\ covers f 60 30.
Proof. exact whole_missed. Qed.
Print Assumptions C76_wide_refuted.
(** C76 fails across 60 degrees: at 240 m the one file ends there. *)
Theorem C76_across_60_refuted : in_box (55, 65) (0, 10) 5 62 /\
  exists files, dem_file_list 240 (55, 65) (0, 10) = Ok (files, 128%Z) /\ ~ exists f, In f files /\ covers f 5 62.
Proof. exact mid_missed. Qed.
Print Assumptions C76_across_60_refuted.
(** C76 fails across 60 degrees at 120 m: the tile "30n_90n" is listed with longitudes turned by
    180 degrees as if the pole had been crossed. *)
Theorem C76_turned_tile_refuted : in_box (55, 65) (0, 10) 5 62 /\ dem_file_list 120 (55, 65) (0, 10) = Ok ([Tile 256 0 60 North 0 120; Tile 256 30 90 North 120 240], 256%Z) /\
  ~ exists f, In f [Tile 256 0 60 North 0 120; Tile 256 30 90 North 120 240] /\ covers f 5 62.
Proof. exact pole_missed. Qed.
Print Assumptions C76_turned_tile_refuted.
(** C76 fails at the poles for pixels of 5 m: the name of the file cannot be made from 87.5. *)
Theorem C76_finest_refuted : dem_file_list 5 (88, 90) (-180, 180) = Err ValueError.
Proof. exact finest_fails. Qed.
Print Assumptions C76_finest_refuted.
