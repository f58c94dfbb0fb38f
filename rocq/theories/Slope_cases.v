(** Radial gradients, and concrete surfaces for the claims about slopes. *)
From Coq Require Import Reals List ZArith Arith String Lra Lia Psatz.
From Verif Require Import Common RSum Trig_model Mesh_model Mesh_spec Mesh_proofs Geo_spec Geo_proofs
  Slope_model Slope_spec Slope_proofs.
Import ListNotations.
Open Scope R_scope.

(** ** Radial gradients *)
Lemma radial_at rg b data v out f :
  py_compute_radial_gradient rg (Some b) data (Values v) = Ok out -> (f < n_face rg)%nat ->
  nth f out 0 = (let '(gz, gm) := compute_one_face_gradient rg (fun i => nth i v 0) f in
                 gm * cos (to_radians (b f)) + gz * sin (to_radians (b f))) /\
  List.length v = n_face rg /\ List.length out = n_face rg.
Proof.
  unfold py_compute_radial_gradient. destruct (Nat.eqb_spec (List.length v) (n_face rg)) as [L|]; [|discriminate].
  cbn [rbind]. replace (call_keywords radial_arguments ["variable"%string; "region"%string]) with (Ok tt) by reflexivity.
  cbn [rbind]. unfold compute_radial_gradient. destruct (Nat.ltb_spec (List.length v) (n_face rg)); [lia|].
  intros [= <-] F. rewrite map_length, seq_length. split; [|now split].
  rewrite nth_indep with (d' := (fun f0 : nat =>
     let '(grad_zonal, grad_meridional) := compute_one_face_gradient rg (fun i => nth i v 0) f0 in
     grad_meridional * cos (to_radians (b f0)) + grad_zonal * sin (to_radians (b f0))) 0%nat)
    by (rewrite map_length, seq_length; exact F).
  rewrite (map_nth (fun f0 : nat =>
     let '(grad_zonal, grad_meridional) := compute_one_face_gradient rg (fun i => nth i v 0) f0 in
     grad_meridional * cos (to_radians (b f0)) + grad_zonal * sin (to_radians (b f0)))).
  rewrite seq_nth by exact F. reflexivity.
Qed.

Lemma radial_answers rg b data v : List.length v = n_face rg ->
  exists out, py_compute_radial_gradient rg (Some b) data (Values v) = Ok out.
Proof.
  intros L. unfold py_compute_radial_gradient. rewrite L, Nat.eqb_refl. cbn [rbind].
  replace (call_keywords radial_arguments ["variable"%string; "region"%string]) with (Ok tt) by reflexivity.
  cbn [rbind]. unfold compute_radial_gradient. rewrite L. destruct (Nat.ltb_spec (n_face rg) (n_face rg)); [lia|].
  eexists; reflexivity.
Qed.

Lemma radial_mean rg b data v out f l :
  py_compute_radial_gradient rg (Some b) data (Values v) = Ok out -> (f < n_face rg)%nat ->
  around rg f (face_edges rg f) l -> (2 <= List.length l)%nat ->
  nth f out 0 = lsum (fun p => len_of p * rise (fun i => nth i v 0) f p *
                        cos (azimuth rg f (face_of p) - to_radians (b f))) l / lsum len_of l.
Proof.
  intros E F A L. destruct (radial_at _ _ _ _ _ _ E F) as [-> _]. rewrite (gradient_is _ _ _ _ A L).
  pose proof (weight_pos _ _ _ _ A L) as W.
  rewrite (lsum_ext (fun p => len_of p * rise (fun i => nth i v 0) f p * cos (azimuth rg f (face_of p) - to_radians (b f)))
    (fun p => cos (to_radians (b f)) * sy rg (fun i => nth i v 0) f p + sin (to_radians (b f)) * sx rg (fun i => nth i v 0) f p)).
  - rewrite lsum_plus, !lsum_scal. field. lra.
  - intros p _. rewrite cos_minus. unfold sx, sy. ring.
Qed.

Lemma radial_half rg b data v out f l gx gy :
  py_compute_radial_gradient rg (Some b) data (Values v) = Ok out -> (f < n_face rg)%nat ->
  around rg f (face_edges rg f) l -> (2 <= List.length l)%nat -> even_around rg f l ->
  plane rg (fun i => nth i v 0) f l gx gy ->
  nth f out 0 = (gx * sin (to_radians (b f)) + gy * cos (to_radians (b f))) / 2.
Proof.
  intros E F A L Ev P. destruct (radial_at _ _ _ _ _ _ E F) as [-> _].
  rewrite (plane_half _ _ _ _ _ _ A P L Ev). field.
Qed.

Lemma radial_bound rg b data v out f l m :
  py_compute_radial_gradient rg (Some b) data (Values v) = Ok out -> (f < n_face rg)%nat ->
  around rg f (face_edges rg f) l -> 0 <= m ->
  (forall p, In p l -> Rabs (rise (fun i => nth i v 0) f p) <= m) -> Rabs (nth f out 0) <= m.
Proof.
  intros E F A M B. destruct (radial_at _ _ _ _ _ _ E F) as [-> _].
  pose proof (slope_bound _ _ _ _ _ A M B) as S. unfold slope_squared in S.
  destruct (compute_one_face_gradient rg (fun i => nth i v 0) f) as [x y].
  pose proof (sin2_cos2 (to_radians (b f))) as T. unfold Rsqr in T.
  set (s := sin _) in *. set (c := cos _) in *.
  assert (Q : (y * c + x * s) * (y * c + x * s) <= m * m).
  { assert ((y * c + x * s) * (y * c + x * s) + (x * c - y * s) * (x * c - y * s) = x * x + y * y).
    { replace (x * x + y * y) with ((x * x + y * y) * (s * s + c * c)) by (rewrite T; ring). ring. }
    pose proof (Rle_0_sqr (x * c - y * s)). unfold Rsqr in *. lra. }
  apply Rabs_le. split; nra.
Qed.

Lemma radial_refused rg b data v :
  py_compute_radial_gradient rg None data v = Err ValueError /\
  (forall s, data s = None -> py_compute_radial_gradient rg b data (Named s) = Err ValueError) /\
  (forall l, List.length l <> n_face rg -> py_compute_radial_gradient rg b data (Values l) = Err ValueError).
Proof.
  split; [|split].
  - unfold py_compute_radial_gradient. destruct v as [s|v].
    + destruct (data s); reflexivity.
    + destruct (Nat.eqb _ _); reflexivity.
  - intros s D. unfold py_compute_radial_gradient. now rewrite D.
  - intros l N. unfold py_compute_radial_gradient. destruct (Nat.eqb_spec (List.length l) (n_face rg)); [contradiction|reflexivity].
Qed.

Lemma radial_named rg b data s v : data s = Some v -> (n_face rg <= List.length v)%nat ->
  py_compute_radial_gradient rg (Some b) data (Named s) =
  py_compute_radial_gradient rg (Some b) data (Values (firstn (n_face rg) v)) \/
  exists out, py_compute_radial_gradient rg (Some b) data (Named s) = Ok out.
Proof.
  intros D L. right. unfold py_compute_radial_gradient. rewrite D. cbn [rbind].
  replace (call_keywords radial_arguments ["variable"%string; "region"%string]) with (Ok tt) by reflexivity.
  cbn [rbind]. unfold compute_radial_gradient. destruct (Nat.ltb_spec (List.length v) (n_face rg)); [lia|].
  eexists; reflexivity.
Qed.

Lemma radial_named_long rg b data s v : data s = Some v -> (n_face rg < List.length v)%nat ->
  py_compute_radial_gradient rg (Some b) data (Values v) = Err ValueError /\
  exists out, py_compute_radial_gradient rg (Some b) data (Named s) = Ok out.
Proof.
  intros D L. split.
  - apply (radial_refused rg (Some b) data (Values v)). lia.
  - destruct (radial_named rg b data s v D ltac:(lia)) as [E|H]; [|exact H].
    destruct (radial_answers rg b data (firstn (n_face rg) v)) as [o O].
    + apply firstn_length_le. lia.
    + exists o. now rewrite E.
Qed.

(** ** Bearings along a meridian and along the equator *)
Lemma meridian_bearing lon1 lat1 lon2 lat2 : sin (lon2 - lon1) = 0 ->
  let y := cos lat1 * sin lat2 - sin lat1 * cos lat2 * cos (lon2 - lon1) in
  (0 < y -> compute_one_bearing lon1 lat1 lon2 lat2 = 0) /\
  (y < 0 -> compute_one_bearing lon1 lat1 lon2 lat2 = PI).
Proof.
  intros S y. unfold compute_one_bearing. cbv zeta. rewrite wrap_sin, wrap_cos, S, Rmult_0_l. fold y.
  unfold atan2. split; intros Y.
  - destruct (Rlt_dec 0 y); [|lra]. unfold Rdiv. now rewrite Rmult_0_l, atan_0.
  - destruct (Rlt_dec 0 y); [lra|]. destruct (Rlt_dec y 0); [|lra]. destruct (Rle_dec 0 0); [|lra].
    unfold Rdiv. rewrite Rmult_0_l, atan_0. ring.
Qed.

Lemma equator_bearing lon1 lon2 :
  (0 < sin (lon2 - lon1) -> compute_one_bearing lon1 0 lon2 0 = PI / 2) /\
  (sin (lon2 - lon1) < 0 -> compute_one_bearing lon1 0 lon2 0 = - (PI / 2)).
Proof.
  unfold compute_one_bearing. cbv zeta. rewrite wrap_sin, wrap_cos, sin_0, cos_0.
  replace (1 * 0 - 0 * 1 * cos (lon2 - lon1)) with 0 by ring. rewrite Rmult_1_r.
  unfold atan2. destruct (Rlt_dec 0 0); [lra|]. split; intros Y.
  - destruct (Rlt_dec 0 (sin (lon2 - lon1))); [reflexivity|lra].
  - destruct (Rlt_dec 0 (sin (lon2 - lon1))); [lra|]. destruct (Rlt_dec (sin (lon2 - lon1)) 0); [reflexivity|lra].
Qed.

(** ** A star of five faces on the equator *)
(** Face 0 at the origin, with faces 1, 2, 3, 4 one degree east, north, west and south. *)
Definition star : region := mk_region 5 (fun _ => 1)
  (fun f => match f with 1%nat => 1 | 3%nat => -1 | _ => 0 end)
  (fun f => match f with 2%nat => 1 | 4%nat => -1 | _ => 0 end)
  [mk_edge 0 1 1 1; mk_edge 2 0 1 1; mk_edge 0 3 1 1; mk_edge 4 0 1 1]
  (fun f => match f with 0%nat => [0; 1; 2; 3; -1]%Z | 1%nat => [0%Z] | 2%nat => [1%Z] | 3%nat => [2%Z] | _ => [3%Z] end) [].
(** Rising [g] metres per metre towards the east. *)
Definition star_height (g : R) (f : nat) : R := match f with 1%nat => g | 3%nat => - g | _ => 0 end.
Definition star_around : list next_to := [(1%nat, 1, 1); (2%nat, 1, 1); (3%nat, 1, 1); (4%nat, 1, 1)].

Lemma one_degree : 0 < to_radians 1 < PI.
Proof. unfold to_radians. pose proof PI_RGT_0. lra. Qed.
Lemma sin_deg_pos : 0 < sin (to_radians 1).
Proof. apply sin_gt_0; apply one_degree. Qed.
Lemma rad0 : to_radians 0 = 0.
Proof. unfold to_radians. lra. Qed.
Lemma radm : to_radians (-1) = - to_radians 1.
Proof. unfold to_radians. lra. Qed.

Lemma star_az : azimuth star 0 1 = PI / 2 /\ azimuth star 0 2 = 0 /\ azimuth star 0 3 = - (PI / 2) /\ azimuth star 0 4 = PI.
Proof.
  unfold azimuth. cbn [face_lon face_lat star]. rewrite rad0, radm. pose proof sin_deg_pos.
  split; [|split; [|split]].
  - apply equator_bearing. now rewrite Rminus_0_r.
  - apply meridian_bearing; rewrite Rminus_0_r; [apply sin_0|]. rewrite sin_0, cos_0. lra.
  - apply equator_bearing. rewrite Rminus_0_r, sin_neg. lra.
  - apply meridian_bearing; rewrite Rminus_0_r; [apply sin_0|]. rewrite sin_0, cos_0, sin_neg. lra.
Qed.

Ltac lead :=
  eexists; split; [lia|split; [reflexivity|]];
  unfold joins, face_of, dist_of, len_of; cbn [e_f1 e_f2 e_dist e_len fst snd n_face star];
  split; [first [left; repeat split; (reflexivity || (cbn; lia))|right; repeat split; (reflexivity || (cbn; lia))]|];
  repeat split; lra.

Lemma star_neighbours : around star 0 (face_edges star 0) star_around.
Proof.
  cbn [face_edges star]. unfold star_around. do 4 (apply around_next; [try lead|]).
  apply around_none; [|constructor]. intros p (e & Z0 & _). lia.
Qed.

Lemma star_rim f : (0 < f < 5)%nat -> exists l, around star f (face_edges star f) l /\ (List.length l < 2)%nat.
Proof.
  intros F. exists (filter_map (neighbour star f) (face_edges star f)). split; [apply around_exists|].
  assert (B : (List.length (filter_map (neighbour star f) (face_edges star f)) <= List.length (face_edges star f))%nat).
  { generalize (face_edges star f). induction l as [|z l IH]; cbn; [lia|]. destruct (neighbour star f z); cbn; lia. }
  assert (List.length (face_edges star f) = 1%nat); [|lia].
  do 5 (destruct f as [|f]; [try lia; reflexivity|]). lia.
Qed.

Lemma star_even : even_around star 0 star_around.
Proof.
  destruct star_az as (A1 & A2 & A3 & A4). unfold even_around, star_around.
  rewrite !lsum_cons. unfold lsum at 1 2. cbn [map fold_right]. unfold len_of, face_of. cbn [fst snd].
  rewrite A1, A2, A3, A4. replace (2 * (PI / 2)) with PI by lra. replace (2 * - (PI / 2)) with (- PI) by lra.
  rewrite Rmult_0_r, cos_neg, sin_neg, cos_PI, sin_PI, cos_2PI, sin_2PI, cos_0, sin_0. split; cbn; lra.
Qed.

Lemma star_plane g : plane star (star_height g) 0 star_around g 0.
Proof.
  destruct star_az as (A1 & A2 & A3 & A4). intros p I. unfold star_around in I. unfold rise.
  repeat (destruct I as [<-|I]; [unfold face_of, dist_of; cbn [fst snd star_height]|]); [..|destruct I].
  - rewrite A1, sin_PI2. field.
  - rewrite A2, sin_0. field.
  - rewrite A3, sin_neg, sin_PI2. field.
  - rewrite A4, sin_PI. field.
Qed.

Lemma star_sensible : sensible star.
Proof.
  split; [intros; cbn; lra|]. intros e a b I _. cbn in I.
  repeat (destruct I as [<-|I]; [cbn; lra|]). destruct I.
Qed.

Lemma tan35 : 11 / 20 <= tan (to_radians 35) < 1.
Proof.
  pose proof PI_RGT_0 as P. split.
  - apply Rle_trans with (tan (PI / 6)).
    + rewrite tan_PI6. apply Rmult_le_reg_r with (sqrt 3); [apply sqrt_lt_R0; lra|].
      replace (1 / sqrt 3 * sqrt 3) with 1 by (field; apply Rgt_not_eq, sqrt_lt_R0; lra).
      assert (sqrt 3 <= 20 / 11); [|lra].
      rewrite <- (sqrt_square (20 / 11)) by lra. apply sqrt_le_1_alt. lra.
    + apply Rlt_le, tan_increasing; unfold to_radians; lra.
  - rewrite <- tan_PI4. apply tan_increasing; unfold to_radians; lra.
Qed.

Lemma star_stands limit : (0 < limit)%nat ->
  exists delta, slope_collapse_deg limit 35 star (star_height (11 / 10)) = Ok (true, delta) /\ forall f, delta f = 0.
Proof.
  intros L. apply collapse_stands; [exact star_sensible|exact L|lra|].
  intros f F. cbn in F. destruct f as [|f].
  - exists star_around. split; [exact star_neighbours|]. right. split; [exact star_even|].
    exists (11 / 10), 0. split; [apply star_plane|].
    replace (11 / 10 * (11 / 10) + 0 * 0) with (11 / 10 * (11 / 10)) by ring. rewrite sqrt_square by lra.
    pose proof tan35. lra.
  - destruct (star_rim (S f)) as (l & A & B); [lia|]. exists l. split; [exact A|now left].
Qed.

Lemma star_slope g : 0 <= g -> sqrt (slope_squared star (star_height g) 0) = g / 2.
Proof.
  intros G. rewrite (half_slope star (star_height g) 0 star_around g 0).
  - rewrite Rmult_0_l, Rplus_0_r, sqrt_square by exact G. reflexivity.
  - exact star_neighbours.
  - apply star_plane.
  - cbn; lia.
  - exact star_even.
Qed.

Lemma star_too_steep :
  sensible star /\ around star 0 (face_edges star 0) star_around /\ even_around star 0 star_around /\
  plane star (star_height (11 / 10)) 0 star_around (11 / 10) 0 /\
  tan (to_radians 35) < sqrt (11 / 10 * (11 / 10) + 0 * 0) /\
  forall limit, (0 < limit)%nat ->
    exists delta, slope_collapse_deg limit 35 star (star_height (11 / 10)) = Ok (true, delta) /\
      forall f, delta f = 0.
Proof.
  split; [exact star_sensible|]. split; [exact star_neighbours|]. split; [exact star_even|].
  split; [apply star_plane|]. split; [|exact star_stands].
  replace (11 / 10 * (11 / 10) + 0 * 0) with (11 / 10 * (11 / 10)) by ring. rewrite sqrt_square by lra.
  pose proof tan35. lra.
Qed.

(** ** A face beyond the pole *)
(** The centre is at longitude 0 and latitude 89; face 0 is at longitude 180 and latitude
    88, across the pole, with face 1 back towards the pole and face 2 further away. *)
Definition polar : region := mk_region 3 (fun _ => 1) (fun _ => 180)
  (fun f => match f with 0%nat => 88 | 1%nat => 89 | _ => 87 end)
  [mk_edge 0 1 1 1; mk_edge 0 2 1 1]
  (fun f => match f with 0%nat => [0; 1]%Z | 1%nat => [0%Z] | _ => [1%Z] end) [].
(** Degrees from the centre: the field rises away from it. *)
Definition polar_field : list R := [3; 2; 4].
Definition polar_around : list next_to := [(1%nat, 1, 1); (2%nat, 1, 1)].

Lemma polar_neighbours : around polar 0 (face_edges polar 0) polar_around.
Proof.
  cbn [face_edges polar]. unfold polar_around. do 2 (apply around_next; [try lead|]). constructor.
Qed.

Lemma rad180 : to_radians 180 = PI.
Proof. unfold to_radians. lra. Qed.

Lemma polar_az : azimuth polar 0 1 = 0 /\ azimuth polar 0 2 = PI.
Proof.
  pose proof PI_RGT_0 as P. unfold azimuth. cbn [face_lon face_lat polar]. rewrite rad180.
  split; apply meridian_bearing; replace (PI - PI) with 0 by ring; try apply sin_0; rewrite cos_0, Rmult_1_r.
  - replace (cos _ * sin _ - sin _ * cos _) with (sin (to_radians 89 - to_radians 88)) by (rewrite sin_minus; ring).
    apply sin_gt_0; unfold to_radians; lra.
  - replace (cos _ * sin _ - sin _ * cos _) with (- sin (to_radians 88 - to_radians 87)) by (rewrite sin_minus; ring).
    apply Ropp_lt_cancel. rewrite Ropp_involutive, Ropp_0.
    apply sin_gt_0; unfold to_radians; lra.
Qed.

Lemma polar_over : compute_one_bearing (to_radians 180) (to_radians 88) (to_radians 0) (to_radians 89) = 0 /\
  compute_one_bearing (to_radians 0) (to_radians 89) (to_radians 180) (to_radians 88) = 0.
Proof.
  pose proof PI_RGT_0 as P. rewrite rad180, rad0.
  assert (Y : forall a b, to_radians a + to_radians b = to_radians 177 ->
    0 < cos (to_radians a) * sin (to_radians b) - sin (to_radians a) * cos (to_radians b) * -1).
  { intros a b E. replace (_ - _) with (sin (to_radians a + to_radians b)) by (rewrite sin_plus; ring).
    rewrite E. apply sin_gt_0; unfold to_radians; lra. }
  split; apply meridian_bearing.
  - rewrite Rminus_0_l, sin_neg, sin_PI. ring.
  - rewrite Rminus_0_l, cos_neg, cos_PI. apply Y. unfold to_radians; lra.
  - rewrite Rminus_0_r. apply sin_PI.
  - rewrite Rminus_0_r, cos_PI. apply Y. unfold to_radians; lra.
Qed.

Lemma polar_wrong data :
  around polar 0 (face_edges polar 0) polar_around /\
  azimuth polar 0 2 = outward polar 0 89 0 /\
  rise (fun i => nth i polar_field 0) 0 (2%nat, 1, 1) = 1 /\
  rise (fun i => nth i polar_field 0) 0 (1%nat, 1, 1) = -1 /\
  azimuth polar 0 1 + PI = outward polar 0 89 0 /\
  exists out, py_compute_radial_gradient polar (Some (bearing_from polar 0 89)) data (Values polar_field) = Ok out /\
    nth 0 out 0 = -1.
Proof.
  destruct polar_az as [A1 A2]. destruct polar_over as [O1 O2].
  split; [exact polar_neighbours|].
  unfold outward. cbn [face_lon face_lat polar]. rewrite A1, A2, O1.
  split; [lra|]. split; [unfold rise, face_of, dist_of, polar_field; cbn; field|].
  split; [unfold rise, face_of, dist_of, polar_field; cbn; field|]. split; [reflexivity|].
  destruct (radial_answers polar (bearing_from polar 0 89) data polar_field eq_refl) as [out E].
  exists out. split; [exact E|].
  rewrite (radial_mean _ _ _ _ _ 0 _ E ltac:(cbn; lia) polar_neighbours ltac:(cbn; lia)).
  assert (B : same_angle (to_radians (bearing_from polar 0 89 0)) 0).
  { pose proof (bearing_turns (to_radians 0) (to_radians 89) (to_radians 180) (to_radians 88)) as T. rewrite O2 in T.
    unfold bearing_from. cbn [face_lon face_lat polar].
    replace (to_radians (_ * 180 / PI)) with (compute_bearing_elem (to_radians 0) (to_radians 89) (to_radians 180) (to_radians 88)).
    - exact T.
    - unfold to_radians at 5. pose proof PI_RGT_0. field. lra. }
  unfold polar_around. rewrite !lsum_cons. unfold lsum. cbn [map fold_right].
  unfold len_of, rise, face_of, dist_of. cbn [fst snd]. rewrite A1, A2.
  rewrite !cos_minus, (same_angle_cos _ _ B), (same_angle_sin _ _ B), cos_0, sin_0, cos_PI, sin_PI.
  unfold polar_field. cbn. field.
Qed.

Lemma slope_lengths rg h : List.length (compute_slope rg h) = n_face rg /\
  forall f, (f < n_face rg)%nat -> 0 <= nth f (compute_slope rg h) 0 /\
    (let '(gx, gy) := compute_one_face_gradient rg h f in nth f (compute_slope rg h) 0 * nth f (compute_slope rg h) 0 = gx * gx + gy * gy).
Proof.
  split; [unfold compute_slope; rewrite map_length, seq_length; reflexivity|]. intros f H.
  assert (E : nth f (compute_slope rg h) 0 = sqrt (slope_squared rg h f)).
  { unfold compute_slope. rewrite (nth_indep _ 0 (sqrt (slope_squared rg h 0))) by (rewrite map_length, seq_length; exact H).
    rewrite (map_nth (fun f => sqrt (slope_squared rg h f)) (seq 0 (n_face rg)) 0%nat f), seq_nth by exact H. reflexivity. }
  rewrite E. split; [apply sqrt_pos|].
  unfold slope_squared. destruct (compute_one_face_gradient rg h f) as [gx gy]. apply sqrt_sqrt. nra.
Qed.
Lemma keywords_exact arguments given : call_keywords arguments given = Ok tt <-> (forall k, In k arguments <-> In k given).
Proof.
  unfold call_keywords.
  assert (M : forall a b, forallb (fun k => existsb (String.eqb k) a) b = true <-> forall k, In k b -> In k a).
  { intros a b. rewrite forallb_forall. split; intros H k K.
    - specialize (H k K). apply existsb_exists in H. destruct H as (x & X & Y). apply String.eqb_eq in Y. now subst.
    - apply existsb_exists. exists k. split; [now apply H | apply String.eqb_refl]. }
  destruct (forallb (fun k => existsb (String.eqb k) arguments) given && forallb (fun a => existsb (String.eqb a) given) arguments)%bool eqn:E.
  - apply andb_prop in E. destruct E as [A B]. pose proof (proj1 (M arguments given) A) as A'. pose proof (proj1 (M given arguments) B) as B'. split; [intros _ k; split; [apply B' | apply A'] | reflexivity].
  - split; [discriminate|]. intros H. exfalso. apply Bool.andb_false_iff in E.
    destruct E as [E | E]; apply Bool.not_true_iff_false in E; apply E.
    + apply (proj2 (M arguments given)). intros k K. now apply H.
    + apply (proj2 (M given arguments)). intros k K. now apply H.
Qed.
