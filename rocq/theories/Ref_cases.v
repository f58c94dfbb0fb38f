From Coq Require Import Reals List Bool Arith Lra Lia.
From Verif Require Import Common RSum Profile_model Profile_spec Profile_proofs Ref_model Ref_spec Ref_proofs Ref_surface Ref_solver Ref_crater.
Import ListNotations.
Open Scope R_scope.

(** A crater of radius 1, and five faces and a node in it. *)
Definition bowl : shape := mk_shape 2 (-1) 1 1 0.
Definition cross : list point := [mkPoint 0 0 0; mkPoint (1/2) 0 0; mkPoint (1/2) 90 0; mkPoint (1/2) 180 0; mkPoint (1/2) 270 0].
Definition hub : list point := [mkPoint 0 0 0].
Definition slope : R * R * R := (0, 10, 0).
Lemma bowl_ok : admissible bowl.
Proof. unfold admissible, bowl. cbn. lra. Qed.
Lemma near_all : filter (within (diameter bowl / 2)) (cross ++ hub) = (cross ++ hub)%list.
Proof.
  assert (H : forall p, In p (cross ++ hub) -> within (diameter bowl / 2) p = true).
  { intros p I. apply within_spec. cbn in I. unfold bowl. cbn. repeat destruct I as [<-|I]; cbn; try lra. }
  revert H. generalize (cross ++ hub)%list. intro l. induction l as [|p l IH]; intro H; [reflexivity|]. cbn [filter]. rewrite H by (left; reflexivity). f_equal. apply IH. intros; apply H; right; assumption.
Qed.
Lemma cross_fitted : fitted (diameter bowl / 2) false cross hub.
Proof.
  split; [right; exists (mkPoint 0 0 0); split; [left; reflexivity|unfold bowl; cbn; lra]|]. cbn [points]. rewrite near_all. cbn. lia.
Qed.
Lemma bowl_height m e : height bowl m (1/2) e = Rmax (e - 1) (m - 1).
Proof.
  unfold height, bowl. cbn [diameter floor_depth rim_height ejrim floor_diameter]. replace (1 / 2 / (2 / 2)) with (1 / 2) by lra.
  destruct (Rle_dec 1 (1 / 2)); [lra|]. destruct (Rle_dec (1 / 2) (2 / 2)); [|lra]. unfold c1_of, gpoly, coef_A, coef_B. cbn [diameter floor_depth rim_height floor_diameter].
  f_equal. field.
Qed.
Lemma flat_change f : least_squares f -> exists dz, crater_shape f bowl cross hub = Ok dz /\ nth_error dz 3 = Some (-1).
Proof.
  intro L. destruct (shape_map f bowl bowl_ok cross hub) as (m & E & _ & M); [discriminate|]. eexists. split; [exact E|].
  assert (RV : forall p, In p (cross ++ hub) -> refval f (diameter bowl / 2) false cross hub p = 0).
  { intros p I. assert (Z : p_elev p = 0) by (cbn in I; repeat destruct I as [<-|I]; [reflexivity..|destruct I]).
    assert (Q : reference f (diameter bowl / 2) false cross hub = map p_elev (cross ++ hub)).
    { apply (ref_planar f _ false cross hub (0, 0, 0) L). intros q Iq _. cbn in Iq. unfold plane. cbn [fst snd]. repeat destruct Iq as [<-|Iq]; cbn [p_elev]; [ring..|destruct Iq]. }
    rewrite reference_map in Q. cbn [points] in Q. rewrite <- Z. apply (proj1 map_ext_in_iff Q). exact I. }
  assert (M0 : m = 0).
  { specialize (M ltac:(rewrite near_all; discriminate)). rewrite near_all in M. rewrite (lsum_ext _ (fun _ => 0 * 0)) in M by (intros p I; rewrite RV by exact I; ring).
    rewrite lsum_scal in M. cbn [cross hub app List.length] in M. replace (INR 6) with 6 in M by (cbn; lra). lra. }
  rewrite nth_error_map. cbn [cross hub app nth_error option_map p_dist p_elev]. f_equal. rewrite (RV (mkPoint (1/2) 180 0)) by (cbn; tauto). rewrite bowl_height, M0. rewrite Rmax_left by lra. lra.
Qed.
Lemma y_north : proj_y (mkPoint (1/2) 0 0) = 1 / 2.
Proof. unfold proj_y, radians. cbn [p_dist p_bear]. replace (0 * (PI / 180)) with 0 by ring. rewrite cos_0. ring. Qed.
Lemma y_south : proj_y (mkPoint (1/2) 180 0) = - (1 / 2).
Proof. unfold proj_y, radians. cbn [p_dist p_bear]. replace (180 * (PI / 180)) with PI by field. rewrite cos_PI. field. Qed.
Lemma y_east : proj_y (mkPoint (1/2) 90 0) = 0.
Proof. unfold proj_y, radians. cbn [p_dist p_bear]. replace (90 * (PI / 180)) with (PI / 2) by field. rewrite cos_PI2. ring. Qed.
Lemma y_west : proj_y (mkPoint (1/2) 270 0) = 0.
Proof. unfold proj_y, radians. cbn [p_dist p_bear]. replace (270 * (PI / 180)) with (3 * (PI / 2)) by field. rewrite cos_3PI2. ring. Qed.
Lemma slope_change f : least_squares f -> exists dz, crater_shape f bowl (map (tilt slope) cross) (map (tilt slope) hub) = Ok dz /\ nth_error dz 3 = Some 4.
Proof.
  intro L. destruct (shape_map f bowl bowl_ok (map (tilt slope) cross) (map (tilt slope) hub)) as (m & E & _ & M); [discriminate|]. eexists. split; [exact E|].
  rewrite <- map_app in *.
  assert (Q : forall p, In p (map (tilt slope) (cross ++ hub)) -> refval f (diameter bowl / 2) false (map (tilt slope) cross) (map (tilt slope) hub) p = p_elev p).
  { assert (Q : reference f (diameter bowl / 2) false (map (tilt slope) cross) (map (tilt slope) hub) = map p_elev (points false (map (tilt slope) cross) (map (tilt slope) hub))).
    { apply (ref_planar f _ false _ _ slope L). intros q Iq _. rewrite points_tilt in Iq. apply in_map_iff in Iq as (p & <- & I). cbn [p_elev tilt].
      change (height_at slope p) with (plane slope (proj_x p) (proj_y p)). change (proj_x (tilt slope p)) with (proj_x p). change (proj_y (tilt slope p)) with (proj_y p).
      assert (Z : p_elev p = 0) by (cbn in I; repeat destruct I as [<-|I]; [reflexivity..|destruct I]). rewrite Z. ring. }
    rewrite reference_map, points_tilt in Q. cbn [points] in Q. exact (proj1 map_ext_in_iff Q). }
  assert (M0 : m = 0).
  { rewrite filter_tilt, near_all in M. specialize (M ltac:(discriminate)). rewrite (lsum_ext _ p_elev) in M by exact Q.
    rewrite lsum_map in M. rewrite map_length in M. unfold cross, hub in M. cbn [app] in M. rewrite !lsum_cons in M. cbn [p_elev tilt] in M. change height_at with (fun c p => plane c (proj_x p) (proj_y p)) in M. cbv beta in M. unfold plane, slope in M. cbn [fst snd] in M.
    rewrite y_north, y_south, y_east, y_west in M. cbn [List.length] in M. replace (INR 6) with 6 in M by (cbn; lra).
    unfold proj_y in M. cbn [p_dist] in M. unfold lsum in M. cbn [fold_right] in M. lra. }
  rewrite nth_error_map, nth_error_map. cbn [cross hub app nth_error option_map]. f_equal. rewrite Q by (apply in_map; cbn; tauto).
  cbn [p_dist p_elev tilt]. change height_at with (fun c p => plane c (proj_x p) (proj_y p)). cbv beta. rewrite bowl_height, M0. unfold plane, slope. cbn [fst snd]. rewrite y_south. rewrite Rmax_right by lra. lra.
Qed.
Lemma cross_mean : mean_within (diameter bowl / 2) p_elev (cross ++ hub) 0.
Proof. unfold mean_within. rewrite near_all. split; [discriminate|]. cbn. lra. Qed.
