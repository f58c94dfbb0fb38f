From Coq Require Import Reals List Bool Arith Lra Lia.
From Verif Require Import Common RSum Profile_model Ref_model Ref_spec Ref_proofs.
Import ListNotations.
Open Scope R_scope.

Definition fits_plane (radius : R) (only : bool) (faces nodes : list point) : bool :=
  (only || existsb (within radius) nodes) && negb (Nat.ltb (List.length (filter (within radius) (points only faces nodes))) 5).
Definition coefs (lstsq : solver) (radius : R) (only : bool) (faces nodes : list point) : S3 :=
  lstsq (map coords (filter (within radius) (points only faces nodes))).
Definition refval (lstsq : solver) (radius : R) (only : bool) (faces nodes : list point) (p : point) : R :=
  if fits_plane radius only faces nodes && within radius p then plane (coefs lstsq radius only faces nodes) (proj_x p) (proj_y p) else p_elev p.
Lemma reference_map lstsq radius only faces nodes : reference lstsq radius only faces nodes = map (refval lstsq radius only faces nodes) (points only faces nodes).
Proof.
  unfold reference, refval, fits_plane, coefs, points. set (pts := if only then faces else (faces ++ nodes)%list).
  destruct (Nat.ltb (List.length (filter (within radius) pts)) 5); cbn [negb]; [rewrite andb_false_r; cbn [andb]; destruct (negb only && _); reflexivity|].
  rewrite andb_true_r. destruct only; cbn [negb andb orb]; [apply map_ext; intro p; reflexivity|].
  destruct (existsb (within radius) nodes); cbn [negb andb]; apply map_ext; intro p; reflexivity.
Qed.
Lemma within_spec r p : within r p = true <-> p_dist p <= r.
Proof. unfold within. destruct (Rle_dec _ _); split; intro; try discriminate; try reflexivity; try assumption. contradiction. Qed.
Lemma fits_spec radius only faces nodes : fits_plane radius only faces nodes = true <-> fitted radius only faces nodes.
Proof.
  unfold fits_plane, fitted. rewrite andb_true_iff, orb_true_iff, negb_true_iff, Nat.ltb_ge, existsb_exists.
  assert (E : (exists x, In x nodes /\ within radius x = true) <-> exists p, In p nodes /\ p_dist p <= radius) by (split; intros (p & I & H); exists p; [rewrite <- within_spec|rewrite within_spec]; auto).
  rewrite E. reflexivity.
Qed.
Lemma value_map (f : point -> R) pts p z : value pts (map f pts) p z <-> In p pts /\ z = f p.
Proof.
  split.
  - intros (i & E & F). rewrite nth_error_map, E in F. injection F as <-. split; [eapply nth_error_In; exact E|reflexivity].
  - intros [I ->]. apply In_nth_error in I as [i E]. exists i. rewrite nth_error_map, E. auto.
Qed.
Lemma ref_length lstsq radius only faces nodes : List.length (reference lstsq radius only faces nodes) = List.length (points only faces nodes).
Proof. rewrite reference_map, map_length. reflexivity. Qed.
Lemma ref_far lstsq radius only faces nodes p z : value (points only faces nodes) (reference lstsq radius only faces nodes) p z ->
  radius < p_dist p \/ ~ fitted radius only faces nodes -> z = p_elev p.
Proof.
  rewrite reference_map, value_map. intros [_ ->] H. unfold refval. destruct (fits_plane _ _ _ _) eqn:F; cbn [andb]; [|reflexivity].
  destruct (within radius p) eqn:W; [|reflexivity]. apply within_spec in W. destruct H as [H|H]; [lra|]. apply fits_spec in F. contradiction.
Qed.
Lemma near_in radius only faces nodes p : In p (points only faces nodes) -> p_dist p <= radius -> In (coords p) (map coords (filter (within radius) (points only faces nodes))).
Proof. intros I W. apply in_map. apply filter_In. rewrite within_spec. auto. Qed.
Lemma ref_plane lstsq radius only faces nodes : least_squares lstsq -> fitted radius only faces nodes ->
  exists c, (forall p z, value (points only faces nodes) (reference lstsq radius only faces nodes) p z -> p_dist p <= radius -> z = plane c (proj_x p) (proj_y p)) /\
    (forall c', misfit c (map coords (filter (within radius) (points only faces nodes))) <= misfit c' (map coords (filter (within radius) (points only faces nodes)))).
Proof.
  intros L F. exists (coefs lstsq radius only faces nodes). split; [|apply L]. intros p z. rewrite reference_map, value_map. intros [_ ->] W.
  unfold refval. apply fits_spec in F. apply within_spec in W. rewrite F, W. reflexivity.
Qed.
Lemma ref_unique f g radius only faces nodes : least_squares f -> least_squares g -> reference f radius only faces nodes = reference g radius only faces nodes.
Proof.
  intros Lf Lg. rewrite !reference_map. apply map_ext_in. intros p I. unfold refval. destruct (fits_plane _ _ _ _); cbn [andb]; [|reflexivity].
  destruct (within radius p) eqn:W; [|reflexivity]. apply within_spec in W.
  exact (fit_unique _ _ _ (Lf _) (Lg _) (coords p) (near_in _ _ _ _ _ I W)).
Qed.
Lemma filter_tilt r d l : filter (within r) (map (tilt d) l) = map (tilt d) (filter (within r) l).
Proof. induction l as [|p l IH]; [reflexivity|]. cbn [map filter]. change (within r (tilt d p)) with (within r p). destruct (within r p); cbn [map]; rewrite IH; reflexivity. Qed.
Lemma points_tilt d only faces nodes : points only (map (tilt d) faces) (map (tilt d) nodes) = map (tilt d) (points only faces nodes).
Proof. unfold points. destruct only; [reflexivity|]. rewrite map_app. reflexivity. Qed.
Lemma fits_tilt d r only faces nodes : fits_plane r only (map (tilt d) faces) (map (tilt d) nodes) = fits_plane r only faces nodes.
Proof.
  unfold fits_plane. rewrite points_tilt, filter_tilt, map_length. f_equal. f_equal. induction nodes as [|p l IH]; [reflexivity|]. cbn. rewrite IH. reflexivity.
Qed.
Lemma coords_tilt d p : coords (tilt d p) = lift d (coords p).
Proof. reflexivity. Qed.
Lemma refval_tilt f r only faces nodes d p : least_squares f -> In p (points only faces nodes) ->
  refval f r only (map (tilt d) faces) (map (tilt d) nodes) (tilt d p) = refval f r only faces nodes p + plane d (proj_x p) (proj_y p).
Proof.
  intros L I. unfold refval. rewrite fits_tilt. change (within r (tilt d p)) with (within r p). destruct (fits_plane _ _ _ _); cbn [andb]; [|reflexivity].
  destruct (within r p) eqn:W; [|reflexivity]. apply within_spec in W. unfold coefs. rewrite points_tilt, filter_tilt, map_map.
  rewrite (map_ext _ (fun q => lift d (coords q)) (coords_tilt d)). rewrite <- (map_map coords (lift d)).
  exact (fit_lift _ d _ _ (L _) (L _) (coords p) (near_in _ _ _ _ _ I W)).
Qed.
Lemma ref_tilt f r only faces nodes d p z : least_squares f -> value (points only faces nodes) (reference f r only faces nodes) p z ->
  value (points only (map (tilt d) faces) (map (tilt d) nodes)) (reference f r only (map (tilt d) faces) (map (tilt d) nodes)) (tilt d p) (z + plane d (proj_x p) (proj_y p)).
Proof.
  intros L (i & E & V). rewrite reference_map in V. rewrite nth_error_map, E in V. injection V as <-. exists i.
  rewrite reference_map, points_tilt, map_map, !nth_error_map, E. split; [reflexivity|]. cbn [option_map]. rewrite refval_tilt; [reflexivity|exact L|eapply nth_error_In; exact E].
Qed.
Lemma ref_planar f r only faces nodes d : least_squares f -> (forall p, In p (points only faces nodes) -> p_dist p <= r -> p_elev p = plane d (proj_x p) (proj_y p)) ->
  reference f r only faces nodes = map p_elev (points only faces nodes).
Proof.
  intros L P. rewrite reference_map. apply map_ext_in. intros p I. unfold refval. destruct (fits_plane _ _ _ _); cbn [andb]; [|reflexivity].
  destruct (within r p) eqn:W; [|reflexivity]. apply within_spec in W.
  change (p_elev p) with (snd (coords p)). refine (fit_planar _ d _ (L _) _ (coords p) (near_in _ _ _ _ _ I W)).
  intros q Iq. apply in_map_iff in Iq as (p' & <- & I'). apply filter_In in I' as [I' W']. apply P; [exact I'|apply within_spec; exact W'].
Qed.
Lemma combine_maps {A B C} (f : A -> B) (g : A -> C) l : combine (map f l) (map g l) = map (fun a => (f a, g a)) l.
Proof. induction l as [|a l IH]; [reflexivity|]. cbn. rewrite IH. reflexivity. Qed.
Lemma inside_map r pts (f : point -> R) : inside r pts (map f pts) = map f (filter (within r) pts).
Proof.
  unfold inside. induction pts as [|p l IH]; [reflexivity|]. cbn [map combine filter fst]. destruct (within r p); cbn [map snd]; rewrite IH; reflexivity.
Qed.
Lemma refval_total f r only faces nodes : least_squares f ->
  lsum (refval f r only faces nodes) (filter (within r) (points only faces nodes)) = lsum p_elev (filter (within r) (points only faces nodes)).
Proof.
  intro L. unfold refval. destruct (fits_plane _ _ _ _); cbn [andb]; [|reflexivity].
  transitivity (lsum (fun p => at_ (coefs f r only faces nodes) (coords p)) (filter (within r) (points only faces nodes))).
  - apply lsum_ext. intros p I. apply filter_In in I as [_ W]. rewrite W. reflexivity.
  - rewrite <- (lsum_map coords (fun q => at_ (coefs f r only faces nodes) q)). unfold coefs. rewrite (fit_total _ _ (L _)), lsum_map. reflexivity.
Qed.
Lemma ref_total f r only faces nodes : least_squares f ->
  total (inside r (points only faces nodes) (reference f r only faces nodes)) = total (inside r (points only faces nodes) (map p_elev (points only faces nodes))).
Proof. intro L. rewrite reference_map, !inside_map, !total_lsum. apply refval_total. exact L. Qed.

(** Desloped elevations. *)
Lemma desloped_map f r faces : desloped f r faces = map (fun p => p_elev p - refval f r true faces [] p) faces.
Proof. unfold desloped. rewrite reference_map. cbn [points]. rewrite combine_maps, map_map. reflexivity. Qed.
Lemma desloped_tilt f r faces d : least_squares f -> desloped f r (map (tilt d) faces) = desloped f r faces.
Proof.
  intro L. rewrite !desloped_map, map_map. apply map_ext_in. intros p I. change (@nil point) with (map (tilt d) []). rewrite refval_tilt; [change (p_elev (tilt d p)) with (p_elev p + plane d (proj_x p) (proj_y p)); cbn [map]; ring|exact L|exact I].
Qed.
Lemma desloped_total f r faces : least_squares f -> total (desloped f r faces) = 0.
Proof.
  intro L. rewrite desloped_map, total_lsum. pose proof (refval_total f r true faces [] L) as T. cbn [points] in T.
  assert (E : forall l, (forall p, In p l -> In p faces) -> lsum (fun p => p_elev p - refval f r true faces [] p) l =
    lsum p_elev (filter (within r) l) - lsum (refval f r true faces []) (filter (within r) l)).
  { induction l as [|p l IH]; intro H; [cbn; ring|]. rewrite lsum_cons. cbn [filter]. rewrite IH by (intros; apply H; right; assumption).
    destruct (within r p) eqn:W; [rewrite !lsum_cons; ring|]. unfold refval at 1. rewrite W, andb_false_r. ring. }
  rewrite (E faces (fun p I => I)), T. ring.
Qed.
Lemma desloped_zero f r faces p z : value faces (desloped f r faces) p z -> r < p_dist p \/ (List.length (filter (within r) faces) < 5)%nat -> z = 0.
Proof.
  rewrite desloped_map, value_map. intros [_ ->] H. unfold refval. destruct (fits_plane r true faces [] && within r p) eqn:E; [|ring].
  apply andb_true_iff in E as [F W]. apply within_spec in W. apply fits_spec in F as [_ F]. cbn [points] in F. destruct H; [lra|lia].
Qed.
