(** Proofs about the three-dimensional models of a surface and of its craters. *)
From Coq Require Import Reals Lra Lia.
From Verif Require Import Common Mesh_model Region_model Region_proofs Geo_spec Solid_model Solid_spec.
Open Scope R_scope.

Lemma height_times t p : 0 <= t -> height_of (times t p) = t * height_of p.
Proof.
  intros T. destruct p as [[x y] z]. unfold height_of, times, dot.
  replace (t * x * (t * x) + t * y * (t * y) + t * z * (t * z)) with (t * t * (x * x + y * y + z * z)) by ring.
  rewrite sqrt_mult; [|nra|nra]. now rewrite sqrt_square.
Qed.

Lemma warp_times r p e : r <> 0 -> warp r p e = times ((r + e) / r) p.
Proof. intros N. destruct p as [[x y] z]. unfold warp, times. f_equal; [f_equal|]; field; exact N. Qed.

Lemma warp_place r p e : 0 < r -> height_of p = r -> 0 <= r + e ->
  height_of (warp r p e) = r + e /\ above p (warp r p e).
Proof.
  intros P H E. rewrite warp_times by lra.
  assert (0 <= (r + e) / r) by (apply Rmult_le_pos; [exact E|]; left; now apply Rinv_0_lt_compat).
  split.
  - rewrite height_times by assumption. rewrite H. field. lra.
  - now exists ((r + e) / r).
Qed.

Lemma raise_warp p e : raise_by p e = warp (height_of p) p e.
Proof. destruct p as [[x y] z]. reflexivity. Qed.

Lemma raise_place p e : 0 < height_of p -> 0 <= height_of p + e ->
  height_of (raise_by p e) = height_of p + e /\ above p (raise_by p e).
Proof. intros P E. rewrite raise_warp. now apply warp_place. Qed.

Lemma cartesian_ok (element : string) faces nodes ps : elevation_to_cartesian element faces nodes = Ok ps ->
  (element = "face"%string /\ ps = map (fun pe => raise_by (fst pe) (snd pe)) faces) \/
  (element = "node"%string /\ ps = map (fun pe => raise_by (fst pe) (snd pe)) nodes).
Proof.
  unfold elevation_to_cartesian. destruct (String.eqb_spec element "face"); [intros [= <-]; now left|].
  destruct (String.eqb_spec element "node"); [intros [= <-]; now right|discriminate].
Qed.

(** Every position of the list is raised by its own elevation. *)
Lemma cartesian_place element faces nodes ps :
  elevation_to_cartesian element faces nodes = Ok ps ->
  let l := if String.eqb element "face" then faces else nodes in
  List.length ps = List.length l /\
  forall i p e, nth_error l i = Some (p, e) -> 0 < height_of p -> 0 <= height_of p + e ->
    exists q, nth_error ps i = Some q /\ height_of q = height_of p + e /\ above p q.
Proof.
  intros H l. destruct (cartesian_ok _ _ _ _ H) as [[-> ->]|[-> ->]]; cbn in l; subst l;
    (split; [apply map_length|]); intros i p e N P E; exists (raise_by p e);
    (split; [rewrite nth_error_map, N; reflexivity|now apply raise_place]).
Qed.

Lemma nth_error_combine {A B} (l : list A) (m : list B) : forall i a b,
  nth_error l i = Some a -> nth_error m i = Some b -> nth_error (combine l m) i = Some (a, b).
Proof.
  revert m. induction l as [|x l IH]; intros m i a b La Mb; [now destruct i|].
  destruct m as [|y m]; [now destruct i|]. destruct i as [|i]; cbn in *; [congruence|]. now apply IH.
Qed.

Lemma points_at r nodes es i p e : List.length es = List.length nodes ->
  nth_error nodes i = Some p -> nth_error es i = Some e ->
  exists ps, mesh_points r nodes (Some es) = Ok ps /\ List.length ps = List.length nodes /\ nth_error ps i = Some (warp r p e).
Proof.
  intros L N E. cbn. rewrite L, Nat.eqb_refl. eexists. split; [reflexivity|]. split.
  - rewrite map_length, combine_length. lia.
  - rewrite nth_error_map, (nth_error_combine _ _ _ _ _ N E). reflexivity.
Qed.

Lemma points_place r nodes es : 0 < r -> List.length es = List.length nodes ->
  exists ps, mesh_points r nodes (Some es) = Ok ps /\ List.length ps = List.length nodes /\
    forall i p e, nth_error nodes i = Some p -> nth_error es i = Some e -> height_of p = r -> 0 <= r + e ->
      exists q, nth_error ps i = Some q /\ height_of q = r + e /\ above p q /\ q = raise_by p e.
Proof.
  intros P L. exists (map (fun pe => warp r (fst pe) (snd pe)) (combine nodes es)). cbn. rewrite L, Nat.eqb_refl.
  split; [reflexivity|]. split; [rewrite map_length, combine_length; lia|].
  intros i p e N E H B. exists (warp r p e). rewrite nth_error_map, (nth_error_combine _ _ _ _ _ N E).
  split; [reflexivity|]. destruct (warp_place r p e P H B) as [W1 W2]. repeat split; auto.
  rewrite raise_warp. now rewrite H.
Qed.

Lemma points_flat r nodes : mesh_points r nodes None = Ok nodes.
Proof. reflexivity. Qed.

Lemma points_mismatch r nodes es : List.length es <> List.length nodes ->
  List.length es <> 1%nat -> List.length nodes <> 1%nat -> mesh_points r nodes (Some es) = Err ValueError.
Proof.
  intros N E P. cbn. apply Nat.eqb_neq in N. rewrite N.
  destruct es as [|e [|e' es]]; try reflexivity; [exfalso; now apply E|].
  destruct nodes as [|p [|p' nodes]]; try reflexivity. exfalso; now apply P.
Qed.

(** A region drawn on its own: every face has its own corners. *)
Lemma firstn_packed l k : firstn (List.length l) (map (@Some nat) l ++ repeat None k)%list = map Some l.
Proof. rewrite firstn_app, map_length, Nat.sub_diag, firstn_O, app_nil_r. rewrite <- (map_length (@Some nat) l) at 1. apply firstn_all. Qed.

Lemma map_fill vals k : map (fun e => match e with Some n => local_of vals 0 n | None => None end) (repeat None k) = repeat (@None nat) k.
Proof. induction k as [|k IH]; [reflexivity|]. cbn. now rewrite IH. Qed.

Lemma region_cells m v (pos : nat -> xyz) (elev : nat -> R) r (corners : nat -> list nat) :
  (forall f, In f (v_faces v) -> packed (face_nodes m f) (corners f)) ->
  (forall f n, In f (v_faces v) -> In n (corners f) -> In n (v_nodes v)) ->
  exists ps, mesh_points r (map pos (v_nodes v)) (Some (map elev (v_nodes v))) = Ok ps /\
    let cells := mesh_cells (remap (face_nodes m) (v_faces v) (v_nodes v)) (map (fun f => List.length (corners f)) (v_faces v)) in
    List.length cells = List.length (v_faces v) /\
    forall i f, nth_error (v_faces v) i = Some f ->
      exists ids, nth_error cells i = Some (map Some ids) /\
        map (fun id => nth_error ps id) ids = map (fun n => Some (warp r (pos n) (elev n))) (corners f).
Proof.
  intros Pk Cl.
  exists (map (fun n => warp r (pos n) (elev n)) (v_nodes v)).
  split.
  { cbn. rewrite !map_length, Nat.eqb_refl. f_equal.
    clear. induction (v_nodes v) as [|n l IH]; [reflexivity|]. cbn. now rewrite IH. }
  cbn zeta. split.
  { unfold mesh_cells, remap. rewrite map_length, combine_length, !map_length. lia. }
  intros i f F.
  destruct (Pk f (nth_error_In _ _ F)) as (k & Row).
  assert (Ids : exists ids, map (fun n => local_of (v_nodes v) 0 n) (corners f) = map Some ids /\
     map (fun id => nth_error (v_nodes v) id) ids = map Some (corners f)).
  { assert (C : forall n, In n (corners f) -> In n (v_nodes v)) by (intros n; apply Cl; now apply nth_error_In in F).
    clear - C. induction (corners f) as [|n l IH]; [now exists []|].
    destruct (IH (fun x X => C x (or_intror X))) as (ids & I1 & I2).
    destruct (local_of (v_nodes v) 0 n) as [j|] eqn:J.
    - exists (j :: ids). cbn. rewrite J, I1. split; [reflexivity|].
      destruct (local_of_some _ _ _ _ J) as [_ N]. rewrite Nat.sub_0_r in N. now rewrite N, I2.
    - exfalso. apply local_of_none in J. apply J, C. now left. }
  destruct Ids as (ids & I1 & I2). exists ids. split.
  - unfold mesh_cells. rewrite nth_error_map.
    rewrite (nth_error_combine _ _ i (map (fun e => match e with Some n => local_of (v_nodes v) 0 n | None => None end) (face_nodes m f)) (List.length (corners f))).
    + cbn [option_map fst snd]. f_equal. rewrite Row, map_app, map_map. rewrite I1.
      rewrite map_fill.
      assert (Le : List.length (corners f) = List.length ids).
      { rewrite <- (map_length (@Some nat) ids), <- I1. symmetry. apply map_length. }
      rewrite Le. apply firstn_packed.
    + unfold remap. rewrite nth_error_map, F. reflexivity.
    + rewrite nth_error_map, F. reflexivity.
  - transitivity (map (option_map (fun n => warp r (pos n) (elev n))) (map (fun id => nth_error (v_nodes v) id) ids)).
    + rewrite map_map. apply map_ext. intros id. now rewrite nth_error_map.
    + rewrite I2, map_map. reflexivity.
Qed.

(** Where the variables go. *)
Lemma store_all_gen vs : forall t,
  fold_left store vs t =
  mkTables (cell_data t ++ map var_name (filter (mentions "n_face") vs))
    (point_data t ++ map var_name (filter (fun v => negb (mentions "n_face" v) && mentions "n_node" v) vs))
    (field_data t ++ map var_name (filter (fun v => negb (mentions "n_face" v) && negb (mentions "n_node" v) &&
       (match var_dims v with [d] => String.eqb d "time" | _ => false end || Nat.eqb (var_size v) 1)) vs)).
Proof.
  induction vs as [|v vs IH]; intros t; [cbn; rewrite !app_nil_r; now destruct t|].
  cbn [fold_left]. rewrite IH. unfold store. cbn [filter].
  destruct (mentions "n_face" v); cbn [negb andb cell_data point_data field_data map].
  - now rewrite <- app_assoc.
  - destruct (mentions "n_node" v); cbn [negb andb cell_data point_data field_data map].
    + now rewrite <- app_assoc.
    + destruct (match var_dims v with [d] => String.eqb d "time" | _ => false end || Nat.eqb (var_size v) 1);
        cbn [cell_data point_data field_data map]; [now rewrite <- app_assoc|reflexivity].
Qed.

Lemma mentions_in d v : mentions d v = true <-> In d (var_dims v).
Proof.
  unfold mentions. rewrite existsb_exists. split.
  - intros (x & I & E). apply String.eqb_eq in E. now subst.
  - intros I. exists d. split; [exact I|apply String.eqb_refl].
Qed.
Lemma mentions_out d v : mentions d v = false <-> ~ In d (var_dims v).
Proof. rewrite <- mentions_in. now destruct (mentions d v). Qed.

Lemma stored vs n :
  (In n (cell_data (store_all vs)) <-> exists v, In v vs /\ var_name v = n /\ In "n_face"%string (var_dims v)) /\
  (In n (point_data (store_all vs)) <->
     exists v, In v vs /\ var_name v = n /\ ~ In "n_face"%string (var_dims v) /\ In "n_node"%string (var_dims v)) /\
  (In n (field_data (store_all vs)) <->
     exists v, In v vs /\ var_name v = n /\ ~ In "n_face"%string (var_dims v) /\ ~ In "n_node"%string (var_dims v) /\
       (var_dims v = ["time"%string] \/ var_size v = 1%nat)).
Proof.
  unfold store_all. rewrite store_all_gen. cbn [cell_data point_data field_data app].
  repeat split; intros H.
  - apply in_map_iff in H. destruct H as (v & E & I). apply filter_In in I. destruct I as [I M].
    apply mentions_in in M. exists v. auto.
  - destruct H as (v & I & E & M). apply in_map_iff. exists v. split; [exact E|]. apply filter_In. now rewrite mentions_in.
  - apply in_map_iff in H. destruct H as (v & E & I). apply filter_In in I. destruct I as [I M].
    apply andb_prop in M. destruct M as [M1 M2]. apply negb_true_iff in M1.
    apply mentions_out in M1. apply mentions_in in M2. exists v. auto.
  - destruct H as (v & I & E & M1 & M2). apply in_map_iff. exists v. split; [exact E|]. apply filter_In. split; [exact I|].
    apply mentions_out in M1. apply mentions_in in M2. now rewrite M1, M2.
  - apply in_map_iff in H. destruct H as (v & E & I). apply filter_In in I. destruct I as [I M].
    apply andb_prop in M. destruct M as [M M3]. apply andb_prop in M. destruct M as [M1 M2].
    apply negb_true_iff in M1. apply negb_true_iff in M2.
    apply mentions_out in M1. apply mentions_out in M2. exists v. repeat split; auto.
    apply orb_prop in M3. destruct M3 as [M3|M3]; [left|right; now apply Nat.eqb_eq].
    destruct (var_dims v) as [|d [|? ?]]; try discriminate. apply String.eqb_eq in M3. now subst.
  - destruct H as (v & I & E & M1 & M2 & M3). apply in_map_iff. exists v. split; [exact E|]. apply filter_In. split; [exact I|].
    apply mentions_out in M1. apply mentions_out in M2. rewrite M1, M2. cbn.
    destruct M3 as [-> | ->]; [reflexivity|]. now rewrite Nat.eqb_refl, orb_true_r.
Qed.

(** Rings. *)
Definition ring_points (r : R) (ring : list (R * R)) : list xyz := map (fun c => lonlat_to_xyz r (fst c) (snd c) 0) ring.
Definition fits (r : R) (rings : list (list (R * R))) (st : list xyz * list (list nat)) : Prop :=
  fst st = flat_map (ring_points r) rings /\ List.concat (snd st) = seq 0 (List.length (fst st)) /\
  map (map (fun i => nth_error (fst st) i)) (snd st) = map (fun ring => map Some (ring_points r ring)) rings.

Lemma nth_seq_app {A} (a b : list A) : map (fun i => nth_error (a ++ b)%list (List.length a + i)) (seq 0 (List.length b)) = map Some b.
Proof.
  transitivity (map (fun i => nth_error b i) (seq 0 (List.length b))).
  { apply map_ext. intros i. rewrite nth_error_app2 by lia. f_equal. lia. }
  induction b as [|x b IH] using rev_ind; [reflexivity|].
  rewrite app_length. cbn [List.length]. rewrite Nat.add_1_r, seq_S, !map_app, <- IH. cbn. f_equal.
  - apply map_ext_in. intros i I. apply in_seq in I. rewrite nth_error_app1 by lia. reflexivity.
  - rewrite nth_error_app2, Nat.sub_diag by lia. reflexivity.
Qed.

Lemma fits_ring r rings st ring : fits r rings st -> fits r (rings ++ [ring]) (add_ring r st ring).
Proof.
  destruct st as [ps ls]. intros (P & C & L). unfold fits, add_ring in *. cbn [fst snd] in *.
  fold (ring_points r ring). split; [|split].
  - rewrite flat_map_app. cbn. now rewrite app_nil_r, P.
  - rewrite concat_app. cbn. rewrite app_nil_r, C, app_length, seq_app. f_equal. cbn.
    unfold ring_points. rewrite map_length.
    assert (G : forall n k s, map (fun i => k + i)%nat (seq s n) = seq (k + s) n).
    { induction n as [|n IH]; intros k s; [reflexivity|]. cbn. f_equal. rewrite IH. f_equal. lia. }
    rewrite G. f_equal. lia.
  - rewrite !map_app. cbn [map]. f_equal.
    + rewrite <- L. apply map_ext_in. intros l I. apply map_ext_in. intros i Hi.
      assert (B : (i < List.length ps)%nat).
      { assert (In i (List.concat ls)) by (apply in_concat; now exists l). rewrite C in H. apply in_seq in H. lia. }
      now rewrite nth_error_app1.
    + f_equal. rewrite map_map.
      replace (List.length ring) with (List.length (ring_points r ring)) by apply map_length.
      apply nth_seq_app.
Qed.

Lemma fits_rings r more : forall rings st, fits r rings st -> fits r (rings ++ more) (fold_left (add_ring r) more st).
Proof.
  induction more as [|g more IH]; intros rings st F; [now rewrite app_nil_r|].
  cbn [fold_left]. replace (rings ++ g :: more)%list with ((rings ++ [g]) ++ more)%list by now rewrite <- app_assoc.
  apply IH. now apply fits_ring.
Qed.

Lemma fits_geoms r gs : forall rings st, fits r rings st ->
  fits r (rings ++ flat_map rings_of gs) (fold_left (fun st g => fold_left (add_ring r) (rings_of g) st) gs st).
Proof.
  induction gs as [|g gs IH]; intros rings st F; [cbn; now rewrite app_nil_r|].
  cbn [fold_left flat_map]. rewrite app_assoc. apply IH. now apply fits_rings.
Qed.

Lemma draw_fits r gs : fits r (flat_map rings_of gs) (draw_rings r gs).
Proof. apply (fits_geoms r gs [] ([], [])). repeat split. Qed.

Lemma lonlat_times r lon lat z : lonlat_to_xyz r lon lat z = times (r + z) (towards (lon, lat)).
Proof.
  unfold lonlat_to_xyz, times, towards, direction. cbn [fst snd].
  replace (lon * (PI / 180)) with (lon * PI / 180) by field. replace (lat * (PI / 180)) with (lat * PI / 180) by field.
  apply f_equal2; [apply f_equal2|]; ring.
Qed.

Lemma towards_unit loc : height_of (towards loc) = 1.
Proof.
  unfold height_of, towards, direction, dot. destruct loc as [lon lat]. cbn [fst snd].
  set (a := lon * PI / 180). set (b := lat * PI / 180).
  replace (cos b * cos a * (cos b * cos a) + cos b * sin a * (cos b * sin a) + sin b * sin b) with 1; [apply sqrt_1|].
  pose proof (sin2_cos2 a) as A. pose proof (sin2_cos2 b) as B. unfold Rsqr in *.
  replace (cos b * cos a * (cos b * cos a) + cos b * sin a * (cos b * sin a))
    with (cos b * cos b * (sin a * sin a + cos a * cos a)) by ring.
  rewrite A. lra.
Qed.

Lemma lonlat_place r lon lat z : 0 <= r + z ->
  height_of (lonlat_to_xyz r lon lat z) = r + z /\ above (towards (lon, lat)) (lonlat_to_xyz r lon lat z).
Proof.
  intros H. rewrite lonlat_times. split; [rewrite height_times, towards_unit by exact H; lra|now exists (r + z)].
Qed.

Lemma rings_exact r gs :
  let '(ps, lines) := draw_rings r gs in
  let rings := flat_map rings_of gs in
  List.length lines = List.length rings /\
  List.concat lines = seq 0 (List.length ps) /\
  forall k ring, nth_error rings k = Some ring ->
    exists ids, nth_error lines k = Some ids /\
      map (fun i => nth_error ps i) ids = map (fun c => Some (times r (towards c))) ring.
Proof.
  pose proof (draw_fits r gs) as F. destruct (draw_rings r gs) as [ps lines]. destruct F as (P & C & L). cbn [fst snd] in *.
  split; [|split].
  - apply (f_equal (@List.length _)) in L. rewrite !map_length in L. exact L.
  - exact C.
  - intros k ring N. apply (f_equal (fun l => nth_error l k)) in L. rewrite !nth_error_map, N in L. cbn in L.
    destruct (nth_error lines k) as [ids|]; [|discriminate]. exists ids. split; [reflexivity|].
    cbn in L. injection L as L. rewrite L. unfold ring_points. rewrite map_map. apply map_ext. intros [lon lat].
    cbn. rewrite lonlat_times. now rewrite Rplus_0_r.
Qed.

Lemma ring_height r gs p : 0 < r -> In p (fst (draw_rings r gs)) -> height_of p = r.
Proof.
  intros P I. pose proof (draw_fits r gs) as (F & _). rewrite F in I. apply in_flat_map in I. destruct I as (ring & _ & I).
  apply in_map_iff in I. destruct I as ([lon lat] & <- & _). cbn.
  destruct (lonlat_place r lon lat 0) as [H _]; lra.
Qed.

Section Draw.
Context (radius : R) (face_elevation face_size : nat -> R) (outline : bool -> crater -> geom).

Lemma points_drawn style factor cs ps : draw_points radius face_elevation face_size style factor cs = Ok ps ->
  List.length ps = List.length cs /\
  forall i c, nth_error cs i = Some c ->
    exists z, point_height face_elevation face_size style factor c = Ok z /\
      nth_error ps i = Some (times (radius + z) (towards (k_location c))).
Proof.
  revert ps. induction cs as [|c cs IH]; intros ps; cbn.
  - intros [= <-]. split; [reflexivity|]. intros i c N. now destruct i.
  - destruct (point_height face_elevation face_size style factor c) as [z|] eqn:Z; [|discriminate]. cbn.
    destruct (draw_points radius face_elevation face_size style factor cs) as [qs|]; [|discriminate]. cbn.
    intros [= <-]. destruct (IH qs eq_refl) as [L P]. split; [cbn; now rewrite L|].
    intros i d N. destruct i as [|i]; cbn in *.
    + injection N as <-. exists z. split; [exact Z|]. destruct (k_location c) as [lon lat]. cbn. now rewrite lonlat_times.
    + now apply P.
Qed.

Lemma rings_mesh cs measured factor :
  crater_mesh radius face_elevation face_size outline cs measured "rings" factor = Ok (draw_rings radius (map (outline measured) cs)).
Proof. reflexivity. Qed.

Lemma style_known cs measured style factor out :
  crater_mesh radius face_elevation face_size outline cs measured style factor = Ok out ->
  In (lower style) ["rings"; "points"; "impacts"; "spheres"]%string.
Proof.
  unfold crater_mesh. destruct (existsb _ _) eqn:E; [|discriminate]. intros _.
  apply existsb_exists in E. destruct E as (x & I & X). apply String.eqb_eq in X. now subst x.
Qed.

Lemma points_mesh cs measured style factor ps lines : In style ["points"; "impacts"; "spheres"]%string ->
  crater_mesh radius face_elevation face_size outline cs measured style factor = Ok (ps, lines) ->
  lines = [] /\ draw_points radius face_elevation face_size style factor cs = Ok ps.
Proof.
  intros I. unfold crater_mesh.
  assert (S : lower style = style /\ style <> "rings"%string).
  { cbn in I. destruct I as [<-|[<-|[<-|[]]]]; split; try reflexivity; discriminate. }
  destruct S as [-> NR]. destruct (existsb _ _); [|discriminate]. cbn [negb].
  destruct (String.eqb_spec style "rings"); [contradiction|].
  destruct (draw_points _ _ _ style factor cs); [|discriminate]. cbn. now intros [= <- <-].
Qed.

Lemma points_lifted cs measured style factor ps lines : In style ["points"; "impacts"; "spheres"]%string ->
  crater_mesh radius face_elevation face_size outline cs measured style factor = Ok (ps, lines) ->
  lines = [] /\ List.length ps = List.length cs /\
  forall i c, nth_error cs i = Some c ->
    exists f h, k_face c = Some f /\ lift face_size style factor c f h /\
      nth_error ps i = Some (times (radius + face_elevation f + h) (towards (k_location c))).
Proof.
  intros I M. destruct (points_mesh _ _ _ _ _ _ I M) as [-> D]. destruct (points_drawn _ _ _ _ D) as [L P].
  split; [reflexivity|]. split; [exact L|]. intros i c N. destruct (P i c N) as (z & Z & Q).
  unfold point_height in Z. destruct (k_face c) as [f|]; [|discriminate]. exists f.
  cbn in I. destruct I as [<-|[<-|[<-|[]]]]; cbn in Z.
  - exists (factor * face_size f / 2). split; [reflexivity|]. split; [now left|].
    injection Z as <-. rewrite Q. f_equal. f_equal. lra.
  - destruct (k_floor_diameter c) as [[d|]|] eqn:F; try discriminate.
    exists (sqrt factor * d / 2). split; [reflexivity|]. split; [right; right; split; [reflexivity|now exists d]|].
    injection Z as <-. rewrite Q. f_equal. f_equal. lra.
  - destruct (k_projectile_radius c) as [p|] eqn:F; try discriminate.
    exists (factor * p). split; [reflexivity|]. split; [right; left; split; [reflexivity|now exists p]|].
    injection Z as <-. rewrite Q. f_equal. f_equal. lra.
Qed.

Lemma plain_crater c cs measured style factor : In style ["points"; "impacts"; "spheres"]%string -> k_face c = None ->
  crater_mesh radius face_elevation face_size outline (c :: cs) measured style factor = Err AttributeError.
Proof.
  intros I N. cbn in I. destruct I as [<-|[<-|[<-|[]]]]; unfold crater_mesh, draw_points, point_height; cbn; now rewrite N.
Qed.

Lemma measured_ignored cs m1 m2 style factor : In style ["points"; "impacts"; "spheres"]%string ->
  crater_mesh radius face_elevation face_size outline cs m1 style factor = crater_mesh radius face_elevation face_size outline cs m2 style factor.
Proof. intros I. cbn in I. now destruct I as [<-|[<-|[<-|[]]]]. Qed.

Lemma file_ignores cs measured style factor :
  crater_file radius face_elevation face_size outline cs measured style factor = Ok (draw_rings radius (map (outline true) cs)).
Proof. reflexivity. Qed.
End Draw.

(** Selecting an interval. *)
Section Choose.
Context {D : Type}.
Lemma isel_position (ds : list (Z * D)) i n d : nth_error ds i = Some (n, d) -> isel ds (Z.of_nat i) = Ok d.
Proof.
  intros N. unfold isel. assert ((Z.of_nat i <? 0)%Z = false) as -> by (apply Z.ltb_ge; lia). 
  assert ((Z.of_nat i <? 0)%Z = false) as -> by (apply Z.ltb_ge; lia). rewrite Nat2Z.id, N. reflexivity.
Qed.

Lemma select_all (ds : list (Z * D)) current saved k d : (forall i n x, nth_error ds i = Some (n, x) -> n = Z.of_nat i) ->
  In (k, d) ds -> select current saved (Some (Several ds)) (Some k) = Ok (Some d).
Proof.
  intros E I. destruct (In_nth_error _ _ I) as (i & N). rewrite (E _ _ _ N). cbn.
  now rewrite (isel_position _ _ _ _ N).
Qed.
End Choose.

Lemma select_position : select 0%nat (fun _ => Err FileNotFoundError) (Some (Several [(5%Z, 50%nat); (6%Z, 60%nat)])) (Some 5%Z) = Err IndexError /\
  select 0%nat (fun _ => Err FileNotFoundError) (Some (Several [(1%Z, 10%nat); (2%Z, 20%nat)])) (Some 1%Z) = Ok (Some 20%nat).
Proof. split; reflexivity. Qed.

(** ** Cases *)
Definition case_outline (measured : bool) (c : crater) : geom :=
  let '(lon, lat) := if measured then k_measured_location c else k_location c in
  Polygon [(lon, lat); (lon + 1, lat); (lon, lat + 1); (lon, lat)] [].
Definition case_crater : crater := mkCrater (Some 3%nat) (10, 20) (11, 21) (Some 500) (Some (Some 800)).

Lemma ring_buried r e gs : 0 < r -> e <> 0 -> forall p, In p (fst (draw_rings r gs)) -> height_of p <> r + e.
Proof. intros P E p I. rewrite (ring_height r gs p P I). lra. Qed.

Lemma direction_lon_inj : towards (10, 0) <> towards (11, 0).
Proof.
  unfold towards, direction. cbn [fst snd]. intros E. injection E as C S.
  replace (0 * PI / 180) with 0 in * by field. rewrite cos_0, !Rmult_1_l in *.
  pose proof PI_RGT_0. assert (10 * PI / 180 < 11 * PI / 180) by lra.
  pose proof (sin_increasing_1 (10 * PI / 180) (11 * PI / 180)) as SI.
  assert (sin (10 * PI / 180) < sin (11 * PI / 180)) by (apply SI; lra). lra.
Qed.

Lemma times_inj t u v : t <> 0 -> times t u = times t v -> u = v.
Proof.
  intros T. destruct u as [[a b] c], v as [[x y] z]. unfold times. intros [= A B C].
  apply Rmult_eq_reg_l in A; [|exact T]. apply Rmult_eq_reg_l in B; [|exact T]. apply Rmult_eq_reg_l in C; [|exact T]. congruence.
Qed.

Lemma measured_point : exists c, k_measured_location c = (11, 0) /\
  forall measured, exists p, crater_mesh 1737400 (fun _ => 0) (fun _ => 100) case_outline [c] measured "points" 1 = Ok ([p], []) /\
    p <> times (1737400 + 0 + 1 * 100 / 2) (towards (k_measured_location c)).
Proof.
  exists (mkCrater (Some 3%nat) (10, 0) (11, 0) None None). split; [reflexivity|]. intros measured.
  exists (lonlat_to_xyz 1737400 10 0 (0 + 1 * 100 / 2)). split; [reflexivity|].
  rewrite lonlat_times. cbn [k_measured_location]. intros E.
  replace (1737400 + (0 + 1 * 100 / 2)) with (1737400 + 0 + 1 * 100 / 2) in E by lra.
  apply times_inj in E; [|lra]. now apply direction_lon_inj.
Qed.

Lemma edges_dropped : forall name size, size <> 1%nat ->
  let t := store_all [mkVar name ["n_edge"%string] size] in
  cell_data t = [] /\ point_data t = [] /\ field_data t = [].
Proof. intros name size N. apply Nat.eqb_neq in N. cbn. unfold store, mentions. cbn. rewrite N. repeat split. Qed.

Lemma file_other : exists craters style, crater_mesh 1737400 (fun _ => 0) (fun _ => 100) case_outline craters true style 1
  <> crater_file 1737400 (fun _ => 0) (fun _ => 100) case_outline craters true style 1.
Proof.
  exists [case_crater], "points"%string. rewrite file_ignores. cbn. intros E. injection E. intros L. discriminate L.
Qed.

Lemma vertex_case : height_of (0, 0, 1737400) = 1737400 /\ 0 <= 1737400 + (-9000).
Proof. split; [|lra]. unfold height_of, dot. replace (0 * 0 + 0 * 0 + 1737400 * 1737400) with (1737400 * 1737400) by ring. apply sqrt_square. lra. Qed.

Lemma points_single r nodes e : 0 < r -> List.length nodes <> 1%nat ->
  exists ps, mesh_points r nodes (Some [e]) = Ok ps /\ List.length ps = List.length nodes /\
    forall i p, nth_error nodes i = Some p -> height_of p = r -> 0 <= r + e ->
      exists q, nth_error ps i = Some q /\ height_of q = r + e /\ above p q.
Proof.
  intros Hr L. unfold mesh_points. destruct (Nat.eqb_spec (List.length [e]) (List.length nodes)) as [E|_]; [cbn in E; congruence|].
  eexists. split; [reflexivity|]. split; [apply map_length|]. intros i p Hp H1 H2.
  exists (warp r p e). split; [exact (map_nth_error (fun p => warp r p e) i nodes Hp)|]. exact (warp_place r p e Hr H1 H2).
Qed.
Lemma isel_end {D} (ds : list (Z * D)) k d n : nth_error (rev ds) k = Some (n, d) -> isel ds (- Z.of_nat (S k)) = Ok d.
Proof.
  intros H. assert (L : (k < List.length ds)%nat) by (rewrite <- rev_length; apply nth_error_Some; congruence).
  unfold isel. cbv zeta. destruct (Z.ltb_spec (- Z.of_nat (S k)) 0) as [_|B]; [|lia].
  destruct (Z.ltb_spec (- Z.of_nat (S k) + Z.of_nat (List.length ds)) 0) as [B|_]; [lia|].
  replace (Z.to_nat (- Z.of_nat (S k) + Z.of_nat (List.length ds))) with (List.length ds - S k)%nat by lia.
  assert (E : nth_error ds (List.length ds - S k) = Some (n, d)).
  { rewrite (nth_error_nth' (rev ds) (n, d)) in H by (rewrite rev_length; exact L). rewrite rev_nth in H by exact L.
    rewrite (nth_error_nth' ds (n, d)) by lia. exact H. }
  rewrite E. reflexivity.
Qed.
Lemma select_choices {D} (current : D) saved :
  select current saved None None = Ok (Some current) /\
  (forall k d, saved k = Ok d -> select current saved None (Some k) = Ok (Some d)) /\
  (forall k e, saved k = Err e -> select current saved None (Some k) = Err e) /\
  (forall d, select current saved (Some (Single d)) None = Ok (Some d)) /\
  (forall d k, select current saved (Some (Single d)) (Some k) = Err ValueError) /\
  (forall ds k n d, nth_error (rev ds) k = Some (n, d) -> select current saved (Some (Several ds)) (Some (- Z.of_nat (S k))%Z) = Ok (Some d)).
Proof.
  split; [reflexivity|]. split; [intros k d H; cbn; now rewrite H|]. split; [intros k e H; cbn; now rewrite H|].
  split; [reflexivity|]. split; [reflexivity|]. intros ds k n d H. cbn [select]. now rewrite (isel_end ds k d n H).
Qed.

Lemma ring_drawn ring g : ring_in ring g -> In ring (rings_of g).
Proof.
  induction 1; cbn; [now left|now right|now left|]. apply in_flat_map. now exists g.
Qed.
Fixpoint drawn_ring ring g {struct g} : In ring (rings_of g) -> ring_in ring g.
Proof.
  destruct g as [ext ints|gs|c]; intros H; cbn in H.
  - destruct H as [<-|H]; [constructor|now apply ring_hole].
  - induction gs as [|g gs IH]; [destruct H|]. cbn in H. apply in_app_or in H as [H|H].
    + apply ring_part with g; [now left|exact (drawn_ring ring g H)].
    + specialize (IH H). inversion IH; subst. apply ring_part with g0; [now right|assumption].
  - destruct H as [<-|[]]. constructor.
Qed.
Lemma mesh_every_ring radius fe fs outline cs measured factor :
  exists ps lines, crater_mesh radius fe fs outline cs measured "rings" factor = Ok (ps, lines) /\
    (forall c ring, In c cs -> ring_in ring (outline measured c) -> exists line, In line lines /\
       map (fun i => nth_error ps i) line = map (fun p => Some (times radius (towards p))) ring) /\
    (forall line, In line lines -> exists c ring, In c cs /\ ring_in ring (outline measured c) /\
       map (fun i => nth_error ps i) line = map (fun p => Some (times radius (towards p))) ring).
Proof.
  pose proof (rings_exact radius (map (outline measured) cs)) as H.
  destruct (draw_rings radius (map (outline measured) cs)) as [ps lines] eqn:E. destruct H as (L & _ & H).
  exists ps, lines. split; [unfold crater_mesh; cbn; now rewrite E|]. split.
  - intros c ring Hc Hr.
    assert (I : In ring (flat_map rings_of (map (outline measured) cs))).
    { apply in_flat_map. exists (outline measured c). split; [now apply in_map|now apply ring_drawn]. }
    apply In_nth_error in I as [k I]. destruct (H k ring I) as (ids & A & B). exists ids. split; [exact (nth_error_In _ _ A)|exact B].
  - intros line I. apply In_nth_error in I as [k I].
    assert (K : (k < List.length lines)%nat) by (apply nth_error_Some; congruence). rewrite L in K. apply nth_error_Some in K.
    destruct (nth_error (flat_map rings_of (map (outline measured) cs)) k) as [ring|] eqn:R; [|contradiction].
    destruct (H k ring R) as (ids & A & B). rewrite I in A. injection A as <-.
    apply nth_error_In in R. apply in_flat_map in R as (g & G & R). apply in_map_iff in G as (c & <- & C).
    exists c, ring. split; [exact C|]. split; [now apply drawn_ring|exact B].
Qed.
