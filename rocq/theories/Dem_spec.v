(** Vocabulary for the theorems about Dem_model; angles in degrees. *)
From Coq Require Import Reals List ZArith.
From Verif Require Import Common Trig_model Dem_model.
Import ListNotations.
Open Scope R_scope.

(** The point is at most [radius] from the location, along the surface. *)
Definition in_region (target_radius lon0 lat0 radius lon lat : R) : Prop :=
  -90 <= lat <= 90 /\ compute_one_distance (rad lon0) (rad lat0) (rad lon) (rad lat) target_radius <= radius.
(** Between two longitudes, up to whole turns. *)
Definition between_lons (lons : R * R) (lon : R) : Prop := exists k : Z, fst lons <= lon + 360 * IZR k <= snd lons.
(** The area of a file. *)
Definition covers (f : file) (lon lat : R) : Prop :=
  match f with
  | Tile _ a b North l1 l2 => IZR a <= lat <= IZR b /\ between_lons (IZR l1, IZR l2) lon
  | Tile _ a b South l1 l2 => - IZR a <= lat <= - IZR b /\ between_lons (IZR l1, IZR l2) lon
  | MidLatitudes _ => -60 <= lat <= 60
  | Globe _ => True
  | Polar a North _ => IZR a <= lat
  | Polar a South _ => lat <= - IZR a
  end.
Definition in_box (lat_range lon_range : R * R) (lon lat : R) : Prop :=
  fst lat_range <= lat <= snd lat_range /\ fst lon_range <= lon <= snd lon_range.
(** [r] is at least as close to [x] as every element. *)
Definition closest (x : R) (l : list Z) (r : Z) : Prop := In r l /\ forall s, In s l -> Rabs (x - IZR r) <= Rabs (x - IZR s).
(** A box that fits into a tile of this resolution, away from the poles. *)
Definition fits (res : Z) (lat_range lon_range : R * R) : Prop :=
  let '(dlon, dlat) := tile_size res in
  snd lat_range - fst lat_range <= IZR dlat /\ snd lon_range - fst lon_range <= IZR dlon /\
  (if Z.eqb res 512 then -90 < fst lat_range /\ snd lat_range <= 90 else -60 < fst lat_range /\ snd lat_range <= 60) /\ -360 <= fst lon_range.
