(** C38, C39, C51: great-circle distance, bearing and destination. *)
From Coq Require Import Reals Lra.
From Verif Require Import Trig_model Geo_spec Geo_proofs.
Open Scope R_scope.

(** C38: the distance is the radius times the angle between the two directions. *)
Theorem C38_distance_is_angle : forall lon1 lat1 lon2 lat2 radius,
  compute_one_distance lon1 lat1 lon2 lat2 radius
  = radius * acos (dot (direction lon1 lat1) (direction lon2 lat2)).
Proof. exact distance_angle. Qed.
Print Assumptions C38_distance_is_angle.

(** Symmetric, bounded by half the circumference, zero exactly for the same
    direction, and with the triangle inequality. *)
Theorem C38_distance_is_metric : forall radius, 0 < radius ->
  (forall lon1 lat1 lon2 lat2,
     compute_one_distance lon1 lat1 lon2 lat2 radius = compute_one_distance lon2 lat2 lon1 lat1 radius) /\
  (forall lon1 lat1 lon2 lat2, 0 <= compute_one_distance lon1 lat1 lon2 lat2 radius <= PI * radius) /\
  (forall lon1 lat1 lon2 lat2, compute_one_distance lon1 lat1 lon2 lat2 radius = 0 <->
     direction lon1 lat1 = direction lon2 lat2) /\
  (forall lon1 lat1 lon2 lat2 lon3 lat3,
     compute_one_distance lon1 lat1 lon3 lat3 radius
     <= compute_one_distance lon1 lat1 lon2 lat2 radius + compute_one_distance lon2 lat2 lon3 lat3 radius).
Proof. exact distance_metric. Qed.
Print Assumptions C38_distance_is_metric.
Example C38_case : compute_one_distance 0 0 0 (PI / 2) 10 = 10 * (PI / 2).
Proof.
  rewrite distance_angle, dot_formula. rewrite sin_0, cos_PI2.
  replace (0 * sin (PI / 2) + cos 0 * 0 * cos (0 - 0)) with (cos (PI / 2)) by (rewrite cos_PI2; ring).
  rewrite acos_cos; [reflexivity|]. pose proof PI_RGT_0. lra.
Qed.

(** Whole turns of either longitude change nothing. *)
Theorem C38_whole_turns : forall lon1 lat1 lon2 lat2 radius lon1' lon2',
  same_angle lon1' lon1 -> same_angle lon2' lon2 ->
  compute_one_distance lon1' lat1 lon2' lat2 radius = compute_one_distance lon1 lat1 lon2 lat2 radius.
Proof. exact distance_turns. Qed.
Print Assumptions C38_whole_turns.

(** C39: the destination is at the requested distance, and is a valid location
    (poles included). *)
Theorem C39_destination_distance : forall lon1 lat1 d b radius lon2 lat2,
  latitude lat1 -> 0 < radius -> 0 <= d <= PI * radius ->
  compute_location_elem lon1 lat1 d b radius = (lon2, lat2) ->
  compute_one_distance lon1 lat1 lon2 lat2 radius = d /\ latitude lat2 /\ - PI <= lon2 < PI.
Proof. exact location_distance. Qed.
Print Assumptions C39_destination_distance.
Example C39_case : latitude 1 /\ 0 < 10 /\ 0 <= 5 <= PI * 10.
Proof. unfold latitude. pose proof PI2_3_2. pose proof PI_RGT_0. lra. Qed.

(** C51: the bearing is between 0 and a full turn and is measured clockwise
    from north: it splits the direction of the destination into its north and
    east components. *)
Theorem C51_bearing_meaning : forall lon1 lat1 lon2 lat2,
  0 <= compute_bearing_elem lon1 lat1 lon2 lat2 < 2 * PI /\
  let h := sin (acos (dot (direction lon1 lat1) (direction lon2 lat2))) in
  h * cos (compute_bearing_elem lon1 lat1 lon2 lat2) = dot (north lon1 lat1) (direction lon2 lat2) /\
  h * sin (compute_bearing_elem lon1 lat1 lon2 lat2) = dot (east lon1) (direction lon2 lat2).
Proof. exact (fun a b c d => conj (bearing_range a b c d) (bearing_polar a b c d)). Qed.
Print Assumptions C51_bearing_meaning.
Example C51_meaning_case : compute_bearing_elem 0 0 0 (PI / 4) = 0.
Proof. exact bearing_north_example. Qed.

(** Travelling on a bearing and asking for the bearing of the place reached
    gives the same bearing. *)
Theorem C51_bearing_round_trip : forall lon1 lat1 d b radius lon2 lat2,
  off_pole lat1 -> 0 < radius -> 0 < d < PI * radius ->
  compute_location_elem lon1 lat1 d b radius = (lon2, lat2) ->
  same_angle (compute_bearing_elem lon1 lat1 lon2 lat2) b.
Proof. exact bearing_round_trip. Qed.
Print Assumptions C51_bearing_round_trip.

(** Travelling the computed distance on the computed bearing reaches the place. *)
Theorem C51_location_round_trip : forall lon1 lat1 lon2 lat2 radius lon3 lat3,
  latitude lat1 -> latitude lat2 -> 0 < radius -> off_pole lat1 ->
  compute_location_elem lon1 lat1 (compute_one_distance lon1 lat1 lon2 lat2 radius)
     (compute_bearing_elem lon1 lat1 lon2 lat2) radius = (lon3, lat3) ->
  lat3 = lat2 /\ direction lon3 lat3 = direction lon2 lat2.
Proof. exact location_round_trip. Qed.
Print Assumptions C51_location_round_trip.
Example C51_case : off_pole 1 /\ latitude (- (PI / 2)) /\ 0 < 3 < PI * 1.
Proof. unfold off_pole, latitude. pose proof PI2_3_2. pose proof PI_RGT_0. lra. Qed.
