(** C01: normalised locations are in range and denote the same point. *)
From Coq Require Import QArith.
From Verif Require Import Coords_model Coords_spec Coords_proofs.
Open Scope Q_scope.

(** Full part: the latitude is in range for every input. *)
Theorem C01_latitude_in_range : forall loc, lat_in_range (normalize_coords loc).
Proof. exact lat_always. Qed.
Print Assumptions C01_latitude_in_range.

(** The documented range, the denoted point and idempotence all hold for
    every longitude when the latitude is a legal latitude.
    Missing for the full property: latitudes beyond the poles (see the
    [_refuted] theorems below). *)
Theorem C01_normalised_partial : forall lon lat, -90 <= lat <= 90 ->
  let out := normalize_coords (lon, lat) in
  lon_in_range out /\ lat_in_range out /\ same_point out (lon, lat) /\
  same_pair (normalize_coords out) out.
Proof.
  exact (fun lon lat H => conj (range_inner lon lat H) (conj (lat_always (lon, lat))
          (conj (same_point_inner lon lat H) (idempotent_inner lon lat H)))).
Qed.
Print Assumptions C01_normalised_partial.
Example C01_normalised_case : -90 <= 45 <= 90 /\ normalize_coords (725, 45) = (5, 45).
Proof. split; [split; discriminate | reflexivity]. Qed.

(** The denoted point is preserved up to one pole crossing. *)
Theorem C01_same_point_partial : forall lon lat, -270 <= lat <= 270 ->
  same_point (normalize_coords (lon, lat)) (lon, lat).
Proof. exact same_point_270. Qed.
Print Assumptions C01_same_point_partial.
Example C01_same_point_case : -270 <= 95 <= 270 /\ normalize_coords (10, 95) = (-170, 85).
Proof. split; [split; discriminate | reflexivity]. Qed.

(** Exact set of inputs for which the documented longitude range is met. *)
Theorem C01_longitude_range_iff : forall lon lat,
  lon_in_range (normalize_coords (lon, lat)) <->
  (-90 <= lat <= 90 \/ (0 <= lon /\ lon < 360)).
Proof. exact range_iff. Qed.
Print Assumptions C01_longitude_range_iff.

(** Finding: beyond a pole the longitude leaves [-180,180) ... *)
Theorem C01_longitude_range_refuted : exists loc, ~ lon_in_range (normalize_coords loc).
Proof. exists (370, 95). unfold lon_in_range. vm_compute. intros [_ H]. discriminate H. Qed.
Print Assumptions C01_longitude_range_refuted.

(** ... normalising is then not idempotent ... *)
Theorem C01_idempotent_refuted : exists loc,
  ~ same_pair (normalize_coords (normalize_coords loc)) (normalize_coords loc).
Proof. exists (370, 95). unfold same_pair. vm_compute. intros [H _]. discriminate H. Qed.
Print Assumptions C01_idempotent_refuted.

(** ... and beyond 270 degrees another point is returned. *)
Theorem C01_same_point_refuted : exists loc, ~ same_point (normalize_coords loc) loc.
Proof. exact (ex_intro _ (0, 300) wrong_point). Qed.
Print Assumptions C01_same_point_refuted.
