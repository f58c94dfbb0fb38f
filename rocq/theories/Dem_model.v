(** Model of region extents and of the choice of LOLA elevation files:
    cratermaker/components/surface/__init__.py, get_location_extents (1386-1425),
    _get_lola_cylindrical_url_from_pds (4736-4819), get_lola_cylindrical_files_from_pds
    (4821-4861), get_lola_polar_files_from_pds (4863-4904), get_lola_dem_file_list (4906-4933).
    Simplifications: floats are reals; file names are the numbers and letters in them, without
    the printing; only the default boundary_offset, which is the only one used. *)
From Coq Require Import Reals List ZArith.
From Verif Require Import Common.
Import ListNotations.
Open Scope R_scope.

Definition rad (x : R) : R := x * PI / 180.
Definition deg (x : R) : R := x * 180 / PI.
(** get_location_extents: 1386-1425; longitudes, then latitudes. *)
Definition location_extents (target_radius lon0 lat0 radius : R) : (R * R) * (R * R) :=
  let alpha := deg (radius / target_radius) in
  let lat_min := Rmax (-90) (lat0 - alpha) in
  let lat_max := Rmin 90 (lat0 + alpha) in
  let lons :=
    if Rle_dec 90 (Rabs lat0 + alpha) then (-180, 180)
    else let half := Rmin (alpha / cos (rad lat0)) 180 in (lon0 - half, lon0 + half) in
  (lons, (lat_min, lat_max)).

(** np.floor and np.ceil *)
Definition floor (x : R) : Z := Int_part x.
Definition ceil (x : R) : Z := (- Int_part (- x))%Z.
Inductive hemisphere := North | South.
(** A file: a tile of the given pixels per degree with first and second latitude as in its name;
    SLDEM2015 from 60 degrees south to 60 north; a LOLA map of the whole globe; a polar map from
    a latitude and of a pixel size. *)
Inductive file :=
| Tile (res : Z) (lat1 lat2 : Z) (h : hemisphere) (lon1 lon2 : Z)
| MidLatitudes (res : Z)
| Globe (res : Z)
| Polar (lat : Z) (h : hemisphere) (pix : Z).
(** Widths of the tiles: 4773-4778 *)
Definition tile_size (res : Z) : Z * Z := if Z.eqb res 512 then (45, 30)%Z else (120, 60)%Z.
(** _get_pds_file_suffix: 4770-4806 *)
Definition tile (res : Z) (loc : R * R) : file :=
  let lon := if Rlt_dec (fst loc) 0 then fst loc + 360 else fst loc in
  let lat := snd loc in
  let '(dlon, dlat) := tile_size res in
  let h := if Rlt_dec 0 lat then North else South in
  let latval := Rabs (lat / IZR dlat) in
  let '(latlo, lathi) :=
    match h with
    | North => let lo := (ceil (latval - 1) * dlat)%Z in (lo, lo + dlat)%Z
    | South => let hi := (floor (latval + 1) * dlat)%Z in (hi - dlat, hi)%Z
    end in
  let lonval := Rabs (lon / IZR dlon) in
  let '(latlo, lathi, lonval) :=
    if (90 <? lathi)%Z || (90 <? latlo)%Z then ((90 - dlat)%Z, 90%Z, lonval + 180 / IZR dlon) else (latlo, lathi, lonval) in
  let lonlo := ((floor lonval * dlon) mod 360)%Z in
  let lonhi := (lonlo + dlon)%Z in
  let '(lat1, lat2) :=
    match h with
    | North => if (lathi <? latlo)%Z then (lathi, latlo) else (latlo, lathi)
    | South => if (latlo <? lathi)%Z then (lathi, latlo) else (latlo, lathi)
    end in
  Tile res lat1 lat2 h lonlo lonhi.
(** 4808-4817 *)
Definition cylindrical_file (res : Z) (loc : R * R) : file :=
  if (256 <=? res)%Z then tile res loc else if Z.eqb res 128 then MidLatitudes res else Globe res.

(** np.argmin over [abs (x - r)], and the element at that place; the first of equals. *)
Fixpoint nearest_of (x : R) (best : Z) (l : list Z) : Z :=
  match l with [] => best | r :: l => nearest_of x (if Rlt_dec (Rabs (x - IZR r)) (Rabs (x - IZR best)) then r else best) l end.
(** [if f not in filelist]: file names are equal when all their parts are. *)
Definition hemi_dec (a b : hemisphere) : {a = b} + {a <> b}.
Proof. decide equality. Defined.
Definition file_dec (a b : file) : {a = b} + {a <> b}.
Proof. decide equality; try apply Z.eq_dec; apply hemi_dec. Defined.
Definition add_file (l : list file) (f : file) : list file := if in_dec file_dec f l then l else (l ++ [f])%list.
(** get_lola_cylindrical_files_from_pds: 4837-4861; the resolution is in pixels per degree. *)
Definition cylindrical_files (resolution : R) (lat_range lon_range : R * R) : list file * Z :=
  let res := nearest_of resolution 4 [16; 64; 128; 256; 512]%Z in
  let '(lat_min, lat_max) := lat_range in
  let '(lon_min, lon_max) := lon_range in
  let files := [cylindrical_file res ((lon_min + lon_max) / 2, (lat_min + lat_max) / 2)] in
  if (res <? 256)%Z then (files, res)
  else (fold_left (fun l loc => add_file l (cylindrical_file res loc)) [(lon_min, lat_min); (lon_min, lat_max); (lon_max, lat_min); (lon_max, lat_max)] files, res).

(** AVAILABLE_RESOLUTIONS with MIN_LAT, the latter in tenths of a degree; the last, 87.5, is not
    an integer: 4880-4881 *)
Definition polar_maps : list (Z * Z) :=
  [(400, 450); (240, 600); (200, 450); (120, 600); (100, 450); (80, 800); (60, 600); (40, 800); (30, 750); (20, 800); (10, 850); (5, 875)]%Z.
Fixpoint nearest_map (x : R) (best : Z * Z) (l : list (Z * Z)) : Z * Z :=
  match l with [] => best | r :: l => nearest_map x (if Rlt_dec (Rabs (x - IZR (fst r))) (Rabs (x - IZR (fst best))) then r else best) l end.
(** get_lola_polar_files_from_pds: 4883-4904; the resolution is in metres.  The latitude is
    printed with the format "d", which raises ValueError for a float (4901). *)
Definition polar_files (resolution : R) (lat_range : R * R) : result (list file * Z) :=
  let '(h, lat) := if Rlt_dec 0 (fst lat_range) then (North, fst lat_range) else (South, snd lat_range) in
  match filter (fun m => if Rle_dec (IZR (snd m) / 10) (Rabs lat) then true else false) polar_maps with
  | [] => Err ValueError
  | m :: l =>
      let '(pix, tenths) := nearest_map resolution m l in
      if Z.eqb (tenths mod 10) 0 then Ok ([Polar (tenths / 10) h pix], pix) else Err ValueError
  end.
(** get_lola_dem_file_list: 4924-4933 *)
Definition dem_file_list (pix : R) (lat_range lon_range : R * R) : result (list file * Z) :=
  let resolution := PI / 180 * 1737530 / pix in
  if Rlt_dec 10 resolution then
    if Rlt_dec 60 (fst lat_range) then polar_files pix lat_range
    else if Rlt_dec (snd lat_range) (-60) then polar_files pix lat_range
    else Ok (cylindrical_files resolution lat_range lon_range)
  else Ok (cylindrical_files resolution lat_range lon_range).
