(** C121: distances, bearings and locations of several places at once. *)
From Coq Require Import Reals Lra.
From Verif Require Import Common Geo_spec Outline_model Outline_spec Crater_model Place_model Place_spec Where_model Where_spec Where_proofs.
Import ListNotations.
Open Scope R_scope.

(** The distances are, place by place and in order, the great-circle distances from the reference
    point.  Missing: lists of exactly two pairs, empty arrays and structured data. *)
Theorem C121_distances_partial : forall s locations rows ref l,
  means locations rows -> ~ structured locations -> rows <> [] -> (is_list locations -> List.length rows <> 2%nat) ->
  Forall near_globe rows -> reference_is s ref l ->
  compute_distances s locations ref = Ok (map (fun p => s_radius s * apart l p) rows).
Proof. exact distances_ok. Qed.
Print Assumptions C121_distances_partial.
Example C121_distances_ex :
  means ex_three [(0, 10); (370, 20); (5, -30)] /\ ~ structured ex_three /\ [(0, 10); (370, 20); (5, -30)] <> [] /\
  (is_list ex_three -> List.length [(0, 10); (370, 20); (5, -30)] <> 2%nat) /\ Forall near_globe [(0, 10); (370, 20); (5, -30)] /\
  reference_is ex_apollo None (23, 0).
Proof.
  split; [exact ex_three_means |]. split; [intros [(? & ? & X) | (? & ? & X)]; discriminate |]. split; [discriminate |]. split; [discriminate |].
  split; [repeat constructor; unfold near_globe; cbn; lra | exact ex_center].
Qed.

(** A tuple or list of exactly two locations is read as one location whose longitude is the first
    and whose latitude is the second of them, and is refused. *)
Theorem C121_two_refuted : forall s i j p q ref l,
  snd i = [fst p; snd p] -> snd j = [fst q; snd q] -> reference_is s ref l ->
  exists e, compute_distances s (Sequences [i; j]) ref = Err e /\ (e = TypeError \/ e = ValueError).
Proof. exact two_rejected. Qed.
Print Assumptions C121_two_refuted.
Example C121_two_ex : means ex_two [(0, 10); (10, 20)] /\ compute_distances ex_apollo ex_two None = Err TypeError.
Proof. split; [exact ex_two_means | reflexivity]. Qed.

(** No location: the distances of an empty array and the locations at no distances are an error,
    though the bearings of an empty array are the empty array. *)
Theorem C121_empty_refuted : forall s ref l a, a = Rows [] \/ a = Sequences [] -> reference_is s ref l ->
  compute_distances s a ref = Err IndexError /\ compute_locations s (Flat []) (Flat []) ref = Err IndexError /\
  compute_bearings s (Rows []) ref = Ok [].
Proof. exact empty_rejected. Qed.
Print Assumptions C121_empty_refuted.
Example C121_empty_ex : reference_is ex_moon (Some (Numbers InTuple [30; 40])) (30, 40).
Proof. exact ex_reference. Qed.

(** The bearings are, place by place and in order, clockwise from north and from 0 to 360 degrees;
    lists of two places are read as such.  Missing: dicts and structured data. *)
Theorem C121_bearings_partial : forall s locations rows ref l,
  means locations rows -> ~ structured locations -> ~ is_dict locations -> (is_list locations -> rows <> []) ->
  reference_is s ref l -> exists bs, compute_bearings s locations ref = Ok bs /\ Forall2 (bears l) rows bs.
Proof. exact bearings_ok. Qed.
Print Assumptions C121_bearings_partial.
Example C121_bearings_ex :
  means ex_two [(0, 10); (10, 20)] /\ ~ structured ex_two /\ ~ is_dict ex_two /\ (is_list ex_two -> [(0, 10); (10, 20)] <> []) /\
  reference_is ex_apollo None (23, 0).
Proof.
  split; [exact ex_two_means |]. split; [intros [(? & ? & X) | (? & ? & X)]; discriminate |]. split; [intros (? & ? & ? & X); discriminate |].
  split; [discriminate | exact ex_center].
Qed.

(** A dict with a longitude and a latitude has a distance but no bearing. *)
Theorem C121_dict_refuted : forall s x y n ref l, reference_is s ref l -> near_globe (x, y) ->
  compute_distances s (Mapping (Some x) (Some y) n) ref = Ok [s_radius s * apart l (x, y)] /\
  compute_bearings s (Mapping (Some x) (Some y) n) ref = Err TypeError.
Proof. exact dict_distance_only. Qed.
Print Assumptions C121_dict_refuted.
Example C121_dict_ex : reference_is ex_apollo None (23, 0) /\ near_globe (15, 95).
Proof. split; [exact ex_center | unfold near_globe; cbn; lra]. Qed.

(** The locations at some distances and bearings are, one for each, in order, the places at that
    distance on the great circle that leaves the reference point with that bearing. *)
Theorem C121_locations : forall s d b ref l,
  0 < s_radius s -> reference_is s ref l -> List.length (numbers d) = List.length (numbers b) -> numbers d <> [] ->
  exists o, compute_locations s d b ref = Ok o /\ Forall2 (goes s l) (combine (numbers d) (numbers b)) (places o).
Proof. exact locations_ok. Qed.
Print Assumptions C121_locations.
Example C121_locations_ex : 0 < s_radius ex_apollo /\ reference_is ex_apollo None (23, 0) /\
  List.length (numbers (Flat [1000; 2000; 3000])) = List.length (numbers (Flat [0; 90; 450])) /\ numbers (Flat [1000; 2000; 3000]) <> [].
Proof. split; [cbn; lra |]. split; [exact ex_center |]. split; [reflexivity | discriminate]. Qed.

(** Different numbers of distances and bearings are an error. *)
Theorem C121_unequal : forall s d b ref l, reference_is s ref l -> List.length (numbers d) <> List.length (numbers b) ->
  compute_locations s d b ref = Err ValueError.
Proof. exact unequal. Qed.
Print Assumptions C121_unequal.
Example C121_unequal_ex : List.length (numbers (Scalar 5)) <> List.length (numbers (Flat [0; 90])).
Proof. discriminate. Qed.

(** What compute_location_from_distance_bearing returns can be given to compute_distances, which
    gives the distances back, unless there are exactly two. *)
Theorem C121_round_trip_refuted : forall s d b ref l,
  0 < s_radius s -> reference_is s ref l -> List.length (numbers d) = List.length (numbers b) -> numbers d <> [] ->
  Forall (fun x => 0 <= x <= PI * s_radius s) (numbers d) ->
  exists o, compute_locations s d b ref = Ok o /\
    (List.length (numbers d) <> 2%nat -> compute_distances s (given_back o) ref = Ok (numbers d)) /\
    (List.length (numbers d) = 2%nat -> compute_distances s (given_back o) ref = Err TypeError).
Proof. exact back_and_forth. Qed.
Print Assumptions C121_round_trip_refuted.
Example C121_round_trip_ex : Forall (fun x => 0 <= x <= PI * s_radius ex_apollo) (numbers (Flat [1000; 2000])).
Proof. pose proof PI_RGT_0. pose proof PI2_1. repeat constructor; cbn; lra. Qed.

(** Without a reference point a whole surface refuses; a local region uses its centre. *)
Theorem C121_reference : forall s a d b,
  (s_local s = None -> compute_distances s a None = Err ValueError /\ compute_bearings s a None = Err ValueError /\ compute_locations s d b None = Err ValueError) /\
  (forall l h, s_local s = Some l ->
     compute_distances s a None = compute_distances s a (Some (Numbers h [fst l; snd l])) /\
     compute_bearings s a None = compute_bearings s a (Some (Numbers h [fst l; snd l])) /\
     compute_locations s d b None = compute_locations s d b (Some (Numbers h [fst l; snd l]))).
Proof. exact (fun s a d b => conj (no_reference_all s a d b) (fun l h => local_reference s l a d b h)). Qed.
Print Assumptions C121_reference.
Example C121_reference_ex : s_local ex_moon = None /\ s_local ex_apollo = Some (23, 0).
Proof. split; reflexivity. Qed.

(** Structured arrays are documented but always refused; a single record is read by the order of
    its fields, not their names, so that one with lat first is taken for another place. *)
Theorem C121_structured_refuted : forall s ref l, reference_is s ref l ->
  (forall f rows, exists e, compute_distances s (Records f rows) ref = Err e /\ (e = IndexError \/ e = TypeError)) /\
  (forall x y, compute_distances s (Record1 true (x, y)) ref = compute_distances s (Numbers InTuple [x; y]) ref /\
               compute_distances s (Record1 false (x, y)) ref = compute_distances s (Numbers InTuple [y; x]) ref).
Proof. exact (fun s ref l RF => conj (fun f rows => records_rejected s f rows ref l RF) (fun x y => record_swapped s x y ref)). Qed.
Print Assumptions C121_structured_refuted.
Example C121_structured_ex : reference_is ex_moon (Some (Numbers InTuple [30; 40])) (30, 40).
Proof. exact ex_reference. Qed.

(** What is not a location is refused, also when it stands among proper ones: it is neither skipped
    nor guessed. *)
Theorem C121_malformed : forall s a ref, malformed a -> exists e, compute_distances s a ref = Err e.
Proof. exact malformed_distances. Qed.
Print Assumptions C121_malformed.
Example C121_malformed_ex : malformed (Sequences [(InTuple, [0; 10]); (InList, [1; 2; 3]); (InArray, [5; -30])]).
Proof. apply (bad_item _ (InList, [1; 2; 3])); [cbn; auto | discriminate | discriminate]. Qed.
