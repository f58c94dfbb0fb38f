(** Proofs about Exports_model: whole exports. *)
From Coq Require Import ZArith Sorted Lia.
From Verif Require Import Common Conf_model Conf_base Files_model Exports_model Exports_spec Exports_proofs.
Import ListNotations.
Open Scope string_scope.

Lemma existsb_in u l : existsb (String.eqb u) l = true <-> In u l.
Proof. rewrite existsb_exists. split; [intros (x & I & E); apply String.eqb_eq in E; subst; exact I | intros I; exists u; split; [exact I | apply String.eqb_refl]]. Qed.
Lemma existsb_out u l : ~ In u l -> existsb (String.eqb u) l = false.
Proof. intros N. destruct (existsb (String.eqb u) l) eqn:E; [apply existsb_in in E; contradiction | reflexivity]. Qed.
Lemma vector_names u ext : pget u extensions = Some ext -> existsb (String.eqb u) ["VTK"; "VTP"] = false /\ existsb (String.eqb u) ["GEOTIFF"; "GTIFF"; "TIFF"; "TIF"] = false /\ (u =? "SHP") = false.
Proof.
  intros H. repeat split.
  - apply existsb_out. cbn [In]. intros [<- | [<- | []]]; discriminate.
  - apply existsb_out. cbn [In]. intros [<- | [<- | [<- | [<- | []]]]]; discriminate.
  - apply String.eqb_neq. intros ->. discriminate.
Qed.

Section M.
Context {V : Type}.
Implicit Types (h : list (Z * dataset V)) (d : dataset V) (s : state V).
Variable agrees : file -> bool.

Definition start interval s : state V := match interval with Some i => save i [] s | None => s end.
Lemma export_cases driver name interval s :
  export agrees driver name interval s =
    if existsb (String.eqb (upper driver)) ["VTK"; "VTP"] then to_vtk agrees interval (start interval s)
    else if existsb (String.eqb (upper driver)) ["GEOTIFF"; "GTIFF"; "TIFF"; "TIF"] then to_geotiff agrees name interval (start interval s)
    else if pmem (upper driver) extensions then to_vector agrees driver interval (start interval s)
    else (start interval s, None).
Proof. reflexivity. Qed.
Lemma vector_hist driver interval s : hist (fst (to_vector agrees driver interval s)) = hist s /\ cur (fst (to_vector agrees driver interval s)) = cur s.
Proof. unfold to_vector. destruct (pget _ extensions); [| auto]. destruct (read interval (hist s)); [| auto]. destruct (write_each _ _ _ _ _ _). auto. Qed.
Lemma tiff_hist name interval s : hist (fst (to_geotiff agrees name interval s)) = hist s /\ cur (fst (to_geotiff agrees name interval s)) = cur s.
Proof. unfold to_geotiff. destruct (read interval (hist s)); [| auto]. destruct (write_each _ _ _ _ _ _). auto. Qed.
Lemma vtk_hist interval s : hist (fst (to_vtk agrees interval s)) = hist s /\ cur (fst (to_vtk agrees interval s)) = cur s.
Proof.
  unfold to_vtk. destruct (read interval (hist s)); [| auto]. cbv zeta. match goal with |- context [match ?x with Ok _ => _ | Err _ => _ end] => destruct x end; [| auto].
  destruct (write_each _ _ _ _ _ _). auto.
Qed.
Lemma export_hist driver name interval s : hist (fst (export agrees driver name interval s)) = hist (start interval s) /\ cur (fst (export agrees driver name interval s)) = cur s.
Proof.
  assert (C : cur (start interval s) = cur s) by (destruct interval; reflexivity). rewrite <- C. rewrite export_cases.
  destruct (existsb _ ["VTK"; "VTP"]); [apply vtk_hist |]. destruct (existsb _ _); [apply tiff_hist |]. destruct (pmem _ _); [apply vector_hist | auto].
Qed.
Lemma history driver name i s : increasing (hist s) -> let s' := fst (export agrees driver name (Some i) s) in
  increasing (hist s') /\ cur s' = cur s /\ same_but i (hist s) (hist s') /\ (forall n v, holds (hist s') i n v <-> overlaid (cur s) (hist s) i n v).
Proof.
  intros H s'. destruct (export_hist driver name (Some i) s) as [A B]. fold s' in A, B. rewrite A, B. cbn [start save hist]. rewrite app_nil_r.
  split; [apply write_increasing, H |]. split; [reflexivity |]. split; [intros j d N; apply write_other, N |]. intros n v. apply write_value, H.
Qed.

Section All.
Hypothesis yes : forall f, agrees f = true.
Lemma vector_run driver ext shows interval s l : pget (upper driver) extensions = Some ext -> read interval (hist s) = Ok l -> increasing l ->
  (forall i d, In (i, d) l -> exists c, table driver d = Ok c /\ shows d c) ->
  snd (to_vector agrees driver interval s) = None /\ written ext shows l false (files s) (files (fst (to_vector agrees driver interval s))).
Proof.
  intros E R H M. unfold to_vector. destruct (vector_names _ _ E) as (_ & _ & ->). rewrite E, R.
  destruct (writes_all agrees true ext (table driver) shows l (files s) M H (fun _ => yes)) as [A B]. destruct (write_each _ _ _ _ _ _) as [e x]. cbn [fst snd] in *. split; [exact A | exact B].
Qed.
Lemma shapefile_ok d : has_faces d -> exists c, table "ESRI Shapefile" d = Ok c /\ shapefile d c.
Proof.
  intros F. destruct (shapefile_table d F) as (cols & T & long & -> & N & A & B). eexists. split; [exact T |]. exists long. split; [reflexivity |]. exists long. auto.
Qed.
Lemma vector_all driver name ext s : pget (upper driver) extensions = Some ext -> hist s <> [] -> increasing (hist s) -> (forall i d, In (i, d) (hist s) -> has_faces d) ->
  let r := export agrees driver name None s in
  snd r = None /\ hist (fst r) = hist s /\ cur (fst r) = cur s /\
  written ext (if driver =? "ESRI Shapefile" then shapefile else tabulates) (hist s) false (files s) (files (fst r)).
Proof.
  intros E N H F r. destruct (export_hist driver name None s) as [A B]. fold r in A, B. unfold r. rewrite export_cases. destruct (vector_names _ _ E) as (-> & -> & _).
  replace (pmem (upper driver) extensions) with true by (unfold pmem; rewrite E; reflexivity). cbn [start].
  destruct (vector_run driver ext (if driver =? "ESRI Shapefile" then shapefile else tabulates) None s (hist s) E (read_all _ N) H) as [C D].
  - intros i d I. destruct (String.eqb_spec driver "ESRI Shapefile") as [-> | Ne]; [apply shapefile_ok, (F i d I) | apply table_ok; [exact Ne | apply (F i d I)]].
  - split; [exact C |]. destruct (vector_hist driver None s) as [-> ->]. auto.
Qed.
Lemma vtk_all driver name s : vtk_driver driver -> hist s <> [] -> increasing (hist s) ->
  let r := export agrees driver name None s in
  snd r = None /\ hist (fst r) = hist s /\ cur (fst r) = cur s /\ written "vtp" meshes (hist s) true (files s) (files (fst r)).
Proof.
  intros E N H r. unfold r. rewrite export_cases. rewrite (proj2 (existsb_in _ _) E). cbn [start]. split; [| destruct (vtk_hist None s) as [-> ->]; split; [reflexivity | split; [reflexivity |]]].
  - unfold to_vtk. rewrite (read_all _ N). cbv zeta.
    destruct (writes_all agrees true "vtp" (fun d => Ok (Mesh d)) meshes (hist s) (match fget FGrid (files s) with Some _ => files s | None => fput FGrid Grid (files s) end) (fun i d _ => ex_intro _ (Mesh d) (conj eq_refl eq_refl)) H (fun _ => yes)) as [A _].
    destruct (write_each _ _ _ _ _ _). exact A.
  - unfold to_vtk. rewrite (read_all _ N). cbv zeta. set (e0 := match fget FGrid (files s) with Some _ => files s | None => fput FGrid Grid (files s) end).
    destruct (writes_all agrees true "vtp" (fun d => Ok (Mesh d)) meshes (hist s) e0 (fun i d _ => ex_intro _ (Mesh d) (conj eq_refl eq_refl)) H (fun _ => yes)) as [_ (B & C & _)].
    destruct (write_each _ _ _ _ _ _) as [e x]. cbn [fst snd set_files files] in *. split; [exact B |]. split.
    + intros f F G. rewrite C; [| exact F | discriminate]. unfold e0. destruct (fget FGrid (files s)) eqn:K; [reflexivity |]. apply fget_put_other. apply G. reflexivity.
    + intros _ K. rewrite C; [| intros i d _; discriminate | discriminate]. unfold e0. rewrite K. apply fget_put_same.
Qed.
End All.
Lemma tiff_all driver name s : tiff_driver driver -> hist s <> [] -> increasing (hist s) -> (forall i d, In (i, d) (hist s) -> exists x, pget name d = Some (FaceVar x)) ->
  let r := export agrees driver name None s in
  snd r = None /\ hist (fst r) = hist s /\ cur (fst r) = cur s /\ written "tif" (rasters name) (hist s) false (files s) (files (fst r)).
Proof.
  intros E N H F r. unfold r. rewrite export_cases. assert (NV : existsb (String.eqb (upper driver)) ["VTK"; "VTP"] = false).
  { apply existsb_out. intros X. unfold tiff_driver in E. cbn [In] in X, E. destruct X as [X | [X | []]]; rewrite <- X in E; destruct E as [E | [E | [E | [E | []]]]]; discriminate. }
  rewrite NV, (proj2 (existsb_in _ _) E). cbn [start].
  assert (M : forall i d, In (i, d) (hist s) -> exists c, raster name d = Ok c /\ rasters name d c).
  { intros i d I. destruct (F i d I) as [x X]. exists (Raster x). unfold raster. rewrite X. split; [reflexivity |]. exists x. auto. }
  destruct (writes_all agrees false "tif" (raster name) (rasters name) (hist s) (files s) M H (fun X => match Bool.diff_false_true X with end)) as [A B].
  split; [| destruct (tiff_hist name None s) as [-> ->]; split; [reflexivity | split; [reflexivity |]]]; unfold to_geotiff; rewrite (read_all _ N); destruct (write_each _ _ _ _ _ _) as [e x]; assumption.
Qed.

(** Refused files. *)
Lemma keeps driver name interval s f c : ~ tiff_driver driver -> fget f (files s) = Some c -> agrees f = false -> fget f (files (fst (export agrees driver name interval s))) = Some c.
Proof.
  intros T F N. rewrite export_cases. assert (F' : fget f (files (start interval s)) = Some c) by (destruct interval; exact F). set (s1 := start interval s) in *.
  destruct (existsb _ ["VTK"; "VTP"]).
  - unfold to_vtk. destruct (read interval (hist s1)) as [l |]; [| exact F']. cbv zeta. match goal with |- context [match ?x with Ok _ => _ | Err _ => _ end] => destruct x as [l' |] end; [| exact F'].
    set (e0 := match fget FGrid (files s1) with Some _ => files s1 | None => fput FGrid Grid (files s1) end).
    assert (F0 : fget f e0 = Some c). { unfold e0. destruct (fget FGrid (files s1)) eqn:K; [exact F' |]. rewrite fget_put_other; [exact F' |]. intros ->. congruence. }
    pose proof (refused agrees "vtp" (fun d => Ok (Mesh d)) l' e0 f c F0 N) as Q. destruct (write_each _ _ _ _ _ _). exact Q.
  - destruct (existsb _ _) eqn:E; [apply existsb_in in E; contradiction |]. destruct (pmem _ _); [| exact F']. unfold to_vector.
    destruct (pget _ extensions); [| exact F']. destruct (read interval (hist s1)) as [l |]; [| exact F']. match goal with |- context [table ?d] => pose proof (refused agrees s0 (table d) l (files s1) f c F' N) as Q end.
    destruct (write_each _ _ _ _ _ _). exact Q.
Qed.
(** A raster is replaced without asking. *)
Lemma tiff_replaces driver name s i d x : tiff_driver driver -> increasing (hist s) -> (forall j e, In (j, e) (hist s) -> exists x, pget name e = Some (FaceVar x)) ->
  In (i, d) (hist s) -> pget name d = Some (FaceVar x) -> fget (FData "tif" i) (files (fst (export agrees driver name None s))) = Some (Raster x).
Proof.
  intros T H F I X. assert (N : hist s <> []) by (intros E; rewrite E in I; destruct I). destruct (tiff_all driver name s T N H F) as (_ & _ & _ & W & _).
  destruct (W i d I) as (c & -> & y & Y & ->). congruence.
Qed.

(** Negative numbers. *)
Lemma negative driver name i s : (i < 0)%Z -> saved (hist (fst (export agrees driver name (Some i) s))) i.
Proof.
  intros N. destruct (export_hist driver name (Some i) s) as [-> _]. cbn [start save hist]. rewrite app_nil_r.
  assert (In i (map fst (write_interval i (cur s) (hist s)))) as I by (apply write_fst; auto). apply in_map_iff in I as ((j & d) & E & I). cbn in E. subst j. exists d. exact I.
Qed.
Lemma vtk_negative driver name i s : vtk_driver driver -> (i < -1)%Z -> snd (export agrees driver name (Some i) s) = Some IndexError.
Proof.
  intros E N. rewrite export_cases, (proj2 (existsb_in _ _) E). unfold start, save. rewrite app_nil_r. unfold to_vtk, read. cbn [hist].
  destruct (write_interval i (cur s) (hist s)) as [| a r] eqn:W.
  - assert (I : In i (map fst (write_interval i (cur s) (hist s)))) by (apply write_fst; auto). rewrite W in I. destruct I.
  - replace (i <? 0)%Z with true by (symmetry; apply Z.ltb_lt; lia).
    match goal with |- context [if ?b then Err IndexError else _] => destruct b eqn:K end; [reflexivity |].
    destruct (nth_error (a :: r) _) as [e |]; [| reflexivity]. cbn [List.length].
    replace (i + Z.of_nat 1 <? 0)%Z with true by (symmetry; apply Z.ltb_lt; lia). reflexivity.
Qed.
Lemma silent driver name s : unknown driver -> export agrees driver name None s = (s, None).
Proof.
  intros [A B]. rewrite export_cases. cbn [start].
  assert (X : forall l m, ~ In (upper driver) (l ++ m)%list -> ~ In (upper driver) l /\ ~ In (upper driver) m) by (intros l m K; split; intros J; apply K, in_or_app; auto).
  destruct (X ["VTK"; "VTP"] ["GEOTIFF"; "GTIFF"; "TIFF"; "TIF"] A) as [A1 A2]. rewrite (existsb_out _ _ A1), (existsb_out _ _ A2).
  replace (pmem (upper driver) extensions) with false; [reflexivity |]. unfold pmem. rewrite (proj2 (pget_none (upper driver) extensions) B). reflexivity.
Qed.

(** One interval. *)
Lemma vector_one driver name ext i s : (forall f, agrees f = true) -> pget (upper driver) extensions = Some ext -> (0 <= i)%Z -> increasing (hist s) -> has_faces (cur s) ->
  let r := export agrees driver name (Some i) s in
  snd r = None /\ exists d, In (i, d) (hist (fst r)) /\ written ext (if driver =? "ESRI Shapefile" then shapefile else tabulates) [(i, d)] false (files s) (files (fst r)).
Proof.
  intros yes E P H F r. destruct (export_hist driver name (Some i) s) as [A _]. fold r in A. rewrite A. unfold r. rewrite export_cases. destruct (vector_names _ _ E) as (-> & -> & _).
  replace (pmem (upper driver) extensions) with true by (unfold pmem; rewrite E; reflexivity). replace (start (Some i) s) with (mk_state (write_interval i (cur s) (hist s)) (cur s) (files s)) in * by (unfold start, save; rewrite app_nil_r; reflexivity). cbn [hist] in *.
  destruct (write_here i (cur s) (hist s) H) as (d & I & O & Nw). pose proof (write_increasing i (cur s) (hist s) H) as H'.
  assert (Fd : has_faces d).
  { destruct F as (n & v & In_ & Hv). assert (D : (exists old, In (i, old) (hist s)) \/ (forall old, ~ In (i, old) (hist s))).
    { clear. induction (hist s) as [| [k e0] r IH]; [right; intros ? [] |]. destruct (Z.eq_dec k i) as [-> | N]; [left; exists e0; left; reflexivity |].
      destruct IH as [[o Ho] | No]; [left; exists o; right; exact Ho | right; intros o [X | X]; [congruence | exact (No o X)]]. }
    exists n, v. split; [| exact Hv]. destruct D as [[old Ho] | No]; [rewrite (O old Ho); apply in_or_app; left; exact In_ | rewrite (Nw No); exact In_]. }
  destruct (vector_run yes driver ext (if driver =? "ESRI Shapefile" then shapefile else tabulates) (Some i) (mk_state (write_interval i (cur s) (hist s)) (cur s) (files s)) [(i, d)] E (read_one _ i d H' P I)) as [C D].
  - repeat constructor.
  - intros j d' [J | []]. injection J as <- <-. destruct (String.eqb_spec driver "ESRI Shapefile") as [-> | Ne]; [apply shapefile_ok, Fd | apply table_ok; assumption].
  - split; [exact C |]. exists d. split; [exact I | exact D].
Qed.

(** An interval counted from the last. *)
Lemma vector_back driver name ext i s : (forall f, agrees f = true) -> pget (upper driver) extensions = Some ext -> (i < 0)%Z ->
  let r := export agrees driver name (Some i) s in
  let k := (Z.of_nat (List.length (hist (fst r))) + i)%Z in
  (forall j d, In (j, d) (hist (fst r)) -> has_faces d) ->
  ((k < 0)%Z -> snd r = Some IndexError /\ files (fst r) = files s) /\
  ((0 <= k)%Z -> snd r = None /\ exists j d, nth_error (hist (fst r)) (Z.to_nat k) = Some (j, d) /\
     written ext (if driver =? "ESRI Shapefile" then shapefile else tabulates) [(j, d)] false (files s) (files (fst r))).
Proof.
  intros yes E N r k F. destruct (export_hist driver name (Some i) s) as [A _]. fold r in A.
  assert (R : r = to_vector agrees driver (Some i) (start (Some i) s)).
  { unfold r. rewrite export_cases. destruct (vector_names _ _ E) as (-> & -> & _). unfold pmem. rewrite E. reflexivity. }
  set (s0 := start (Some i) s) in *. assert (Fs : files s0 = files s) by reflexivity. unfold k in *. clear k. rewrite A in *.
  assert (Ne : hist s0 <> []).
  { unfold s0. cbn [start save hist]. intros X. assert (I : In i (map fst (write_interval i (cur s ++ [])%list (hist s)))) by (apply write_fst; auto). rewrite X in I. destruct I. }
  assert (Rd : read (Some i) (hist s0) = if (Z.of_nat (List.length (hist s0)) + i <? 0)%Z then Err IndexError
     else match nth_error (hist s0) (Z.to_nat (Z.of_nat (List.length (hist s0)) + i)) with Some e => Ok [e] | None => Err IndexError end).
  { unfold read. rewrite (proj2 (Z.ltb_lt i 0) N), (Z.add_comm i). destruct (hist s0); [congruence | reflexivity]. }
  split; intros K.
  - rewrite (proj2 (Z.ltb_lt _ _) K) in Rd. rewrite R. unfold to_vector. destruct (vector_names _ _ E) as (_ & _ & ->). rewrite E, Rd. split; [reflexivity | exact Fs].
  - rewrite (proj2 (Z.ltb_ge _ _) K) in Rd. destruct (nth_error (hist s0) _) as [[j d] |] eqn:Nt.
    2:{ exfalso. apply nth_error_None in Nt. lia. }
    destruct (vector_run yes driver ext (if driver =? "ESRI Shapefile" then shapefile else tabulates) (Some i) s0 [(j, d)] E Rd) as [C D].
    + repeat constructor.
    + intros j' d' [J | []]. injection J as <- <-. pose proof (F j d (nth_error_In _ _ Nt)) as Fd.
      destruct (String.eqb_spec driver "ESRI Shapefile") as [-> | Nd]; [apply shapefile_ok, Fd | apply table_ok; assumption].
    + rewrite R. split; [exact C |]. exists j, d. split; [reflexivity |]. rewrite <- Fs. exact D.
Qed.
(** No error is hidden. *)
Lemma each_made check ext (make : dataset V -> result (content V)) : forall l e, snd (write_each agrees check ext make l e) = None -> forall i d, In (i, d) l -> exists c, make d = Ok c.
Proof.
  induction l as [| [j x] r IH]; intros e H i d I; [destruct I |]. cbn [write_each] in H. destruct (make x) as [c | y] eqn:M; [| discriminate].
  destruct I as [I | I]; [injection I as <- <-; eauto | exact (IH _ H i d I)].
Qed.
Lemma table_faces driver d c : table driver d = Ok c -> has_faces d.
Proof.
  unfold table. destruct (filter on_faces d) as [| [n v] r] eqn:F; [discriminate |]. intros _.
  assert (I : In (n, v) (filter on_faces d)) by (rewrite F; left; reflexivity). apply filter_In in I as [I O]. exists n, v. split; [exact I |].
  unfold on_faces in O. cbn [snd] in O. destruct v as [x | l | x | x]; try discriminate; [left; eauto | right; eauto].
Qed.
Lemma reported driver name s : snd (export agrees driver name None s) = None -> forall i d, In (i, d) (hist s) ->
  (tiff_driver driver -> exists x, pget name d = Some (FaceVar x)) /\ (forall ext, pget (upper driver) extensions = Some ext -> has_faces d).
Proof.
  rewrite export_cases. cbn [start]. intros H i d I. assert (Ne : hist s <> []) by (intros X; rewrite X in I; destruct I). split.
  - intros T. assert (NV : existsb (String.eqb (upper driver)) ["VTK"; "VTP"] = false).
    { apply existsb_out. intros X. unfold tiff_driver in T. cbn [In] in X, T. destruct X as [X | [X | []]]; rewrite <- X in T; destruct T as [T | [T | [T | [T | []]]]]; discriminate. }
    rewrite NV, (proj2 (existsb_in _ _) T) in H. unfold to_geotiff in H. rewrite (read_all _ Ne) in H.
    pose proof (each_made false "tif" (raster name) (hist s) (files s)) as M. destruct (write_each _ _ _ _ _ _) as [e x]. cbn [snd] in *. destruct (M H i d I) as [c C].
    unfold raster in C. destruct (pget name d) as [[x0 | l | x0 | x0] |]; try discriminate. eauto.
  - intros ext E. destruct (vector_names _ _ E) as (V1 & V2 & V3). rewrite V1, V2 in H. unfold pmem in H. rewrite E in H. unfold to_vector in H. rewrite V3, E, (read_all _ Ne) in H.
    pose proof (each_made true ext (table driver) (hist s) (files s)) as M. destruct (write_each _ _ _ _ _ _) as [e x]. cbn [snd] in *. destruct (M H i d I) as [c C]. exact (table_faces _ _ _ C).
Qed.
Lemma extension_names : Forall (fun p => pget (upper (fst p)) extensions = Some (snd p))
  [("GPKG", "gpkg"); ("ESRI Shapefile", "shp"); ("GeoJSON", "json"); ("CSV", "csv"); ("KML", "kml"); ("GML", "gml"); ("FlatGeobuf", "fgb"); ("DXF", "dxf"); ("OpenFileGDB", "gdb"); ("OGR_GMT", "gmt"); ("PDF", "pdf"); ("XLSX", "xlsx"); ("ODS", "ods"); ("GPX", "gpx"); ("MapInfo File", "tab")].
Proof. repeat constructor. Qed.
Fixpoint distinct (l : list string) : bool := match l with [] => true | x :: r => negb (existsb (String.eqb x) r) && distinct r end.
Lemma distinct_nodup l : distinct l = true -> NoDup l.
Proof.
  induction l as [| x r IH]; intros H; constructor; cbn [distinct] in H; apply andb_prop in H as [A B].
  - intros I. apply (proj2 (existsb_in x r)) in I. rewrite I in A. discriminate.
  - apply IH, B.
Qed.
Lemma map_snd_apart (l : list (string * string)) a b x : NoDup (map snd l) -> pget a l = Some x -> pget b l = Some x -> a = b.
Proof.
  intros N A B. apply pget_In in A. apply pget_In in B. clear -N A B. induction l as [| [k v] r IH]; [destruct A |]. cbn [map snd] in N. inversion N as [| ? ? N1 N2]. subst.
  destruct A as [A | A], B as [B | B]; try congruence.
  - exfalso. apply N1. inversion A. subst. apply (in_map snd) in B. exact B.
  - exfalso. apply N1. inversion B. subst. apply (in_map snd) in A. exact A.
  - exact (IH N2 A B).
Qed.
Lemma extensions_apart a b ext : pget (upper a) extensions = Some ext -> pget (upper b) extensions = Some ext -> ext <> "json" -> upper a = upper b.
Proof.
  intros A B J. set (small := filter (fun p => negb (snd p =? "json")) extensions).
  assert (S : forall u, pget u extensions = Some ext -> pget u small = Some ext).
  { intros u H. assert (K : forall l : pairs string, pget u l = Some ext -> pget u (filter (fun p => negb (snd p =? "json")) l) = Some ext).
    { induction l as [| [k v] r IH]; [discriminate |]. cbn [pget filter snd]. destruct (String.eqb_spec u k) as [-> | Nk].
      - intros X. injection X as ->. rewrite (proj2 (String.eqb_neq ext "json") J). cbn [negb pget]. rewrite String.eqb_refl. reflexivity.
      - intros X. destruct (v =? "json"); cbn [negb]; [apply IH, X |]. cbn [pget]. rewrite (proj2 (String.eqb_neq u k) Nk). apply IH, X. }
    apply K, H. }
  apply (map_snd_apart small _ _ ext); [apply distinct_nodup; reflexivity | apply S, A | apply S, B].
Qed.

(** The simulation. *)
Lemma sim_history driver name i now time s : increasing (hist s) -> let j := if (i <? 0)%Z then (now + 1 + i)%Z else i in
  let s' := fst (sim_export agrees driver name (Some i) now time s) in
  cur s' = cur s /\
  (forall k d, k <> now -> k <> j -> (In (k, d) (hist s') <-> In (k, d) (hist s))) /\
  (forall n v, pget n (cur s) = Some v -> holds (hist s') j n v) /\
  (j = now -> forall n v, holds (hist s') now n v <-> overlaid (cur s ++ time)%list (hist s) now n v).
Proof.
  intros H j s'. unfold s', sim_export. fold j. replace (if (i <? 0)%Z then Some (now + 1 + i)%Z else Some i) with (Some j) by (unfold j; destruct (i <? 0)%Z; reflexivity).
  clear s'. clearbody j.
  pose proof (write_increasing now (cur s ++ time)%list (hist s) H) as H1.
  destruct (history (if upper driver =? "OPENCRATERTOOL" then "GeoTIFF" else driver) name j (save now time s) H1) as (_ & B & C & D).
  set (s2 := fst _) in *. cbn [save hist cur] in *. split; [exact B |]. split; [| split].
  - intros k d Nk Nj. rewrite (C k d Nj). apply write_other, Nk.
  - intros n v P. apply D. left. exact P.
  - intros J n v. subst j. rewrite D. unfold overlaid at 1. split.
    + intros [P | [P Q]]; [left; rewrite pget_app, P; reflexivity | apply write_value in Q; [exact Q | exact H]].
    + intros O. destruct (pget n (cur s)) as [w |] eqn:P; [left; unfold overlaid in O; rewrite pget_app, P in O; destruct O as [O | [O _]]; [exact O | discriminate] |].
      right. split; [reflexivity |]. apply write_value; assumption.
Qed.
End M.
