(** Proofs about Datasurf_model: the values that are read, the units and the files. *)
From Coq Require Import Reals Lra Lia List Arith Bool ZArith.
From Verif Require Dem_spec Dem_files Dem_cases.
From Verif Require Import Common RSum Region_model Datasurf_model Datasurf_spec.
Import ListNotations.
Open Scope R_scope.

Lemma fmax_pos : 0 < fmax.
Proof.
  unfold fmax. apply Rmult_lt_0_compat; [| apply pow_lt; lra].
  assert (/ 2 ^ 23 < / 1) by (apply Rinv_lt_contravar; [rewrite Rmult_1_l; apply pow_lt; lra | apply Rlt_pow_R1; [lra | lia]]). lra.
Qed.
Lemma scaled_fin sc y : Rabs (y * sc) <= fmax -> scaled sc (Fin y) = Fin (y * sc).
Proof. intros H. cbn. destruct (Rlt_dec fmax (Rabs (y * sc))); [lra | reflexivity]. Qed.

(* ------------------------------ outside ------------------------------ *)
Section Outside.
Variables (nd : option fl) (sc : R).
Definition good (v : fl) : bool := match nd with None | Some NaN => is_finite v | Some n => is_finite v && differs v n end.
(** The mark stands for missing data before scaling exactly if it does after. *)
Definition harmless (x : fl) : Prop :=
  match x with Fin y => Rabs (y * sc) <= fmax /\ (nd = Some (Fin y) <-> nd = Some (Fin (y * sc))) | _ => True end.
Lemma good_iff y : good (Fin y) = true <-> nd <> Some (Fin y).
Proof.
  unfold good. destruct nd as [[z | b |] |]; cbn; try (split; intros; [discriminate | reflexivity]).
  destruct (Req_EM_T y z) as [-> | N]; split; intros H; try reflexivity; try discriminate.
  - exfalso. apply H. reflexivity.
  - intros X. injection X as X. congruence.
Qed.
Lemma reads_good x : harmless x -> (good (scaled sc x) = true -> exists y, reads nd x y /\ scaled sc x = Fin (y * sc)) /\ (forall y, reads nd x y -> good (scaled sc x) = true /\ scaled sc x = Fin (y * sc)).
Proof.
  intros H. destruct x as [y | b |].
  - cbn in H. destruct H as [H E]. rewrite (scaled_fin sc y H). split.
    + intros G. exists y. split; [| reflexivity]. split; [reflexivity |]. intros K. apply E in K. apply good_iff in G. exact (G K).
    + intros z [X K]. injection X as <-. split; [| reflexivity]. apply good_iff. intros Q. apply K. apply E. exact Q.
  - split; [intros G; exfalso; unfold good in G; destruct nd as [[z | c |] |]; discriminate G | intros z [X _]; discriminate X].
  - split; [intros G; exfalso; unfold good in G; destruct nd as [[z | c |] |]; discriminate G | intros z [X _]; discriminate X].
Qed.
Fixpoint vals (raw : list fl) : list R :=
  match raw with [] => [] | x :: l => if good (scaled sc x) then (match x with Fin y => y | _ => 0 end) :: vals l else vals l end.
Lemma vals_values raw : (forall x, In x raw -> harmless x) -> values nd raw (vals raw) /\ finite_part (filter good (map (scaled sc) raw)) = map (fun y => y * sc) (vals raw).
Proof.
  induction raw as [| x l IH]; intros H; [split; [constructor | reflexivity] |].
  destruct IH as [A B]; [intros z Z; apply H; right; exact Z |]. cbn [vals map filter].
  destruct (reads_good x (H x (or_introl eq_refl))) as [G1 G2]. destruct (good (scaled sc x)) eqn:G.
  - destruct (G1 eq_refl) as (y & Rd & E). split.
    + destruct Rd as [-> Rd]. constructor; [split; [reflexivity | exact Rd] | exact A].
    + rewrite E. destruct Rd as [-> _]. cbn [finite_part flat_map app map]. unfold finite_part in B. rewrite B. reflexivity.
  - split; [| exact B]. constructor; [| exact A]. intros y Rd. destruct (G2 y Rd) as [X _]. discriminate X.
Qed.
End Outside.
Lemma lsum_scale sc l : lsum (fun x => x) (map (fun y => y * sc) l) = sc * lsum (fun x => x) l.
Proof. induction l as [| x l IH]; [unfold lsum; cbn; ring |]. cbn [map]. rewrite !lsum_cons, IH. ring. Qed.
Lemma average_scale sc l : lsum (fun x => x) (map (fun y => y * sc) l) / INR (List.length (map (fun y => y * sc) l)) = sc * average l.
Proof. rewrite lsum_scale, map_length. unfold average, Rdiv. ring. Qed.
Lemma samples_eq nd units raw : global_samples nd units raw =
  map (fun v => if good nd v then match v with Fin x => x | _ => 0 end
                else match finite_part (filter (good nd) (map (scaled (global_scale units)) raw)) with [] => 0
                     | _ => lsum (fun x => x) (finite_part (filter (good nd) (map (scaled (global_scale units)) raw))) /
                            INR (List.length (finite_part (filter (good nd) (map (scaled (global_scale units)) raw)))) end) (map (scaled (global_scale units)) raw).
Proof. reflexivity. Qed.
Lemma filled_ok nd units raw : (forall x, In x raw -> harmless nd (global_scale units) x) -> filled (global_scale units) nd raw (global_samples nd units raw).
Proof.
  intros H. set (sc := global_scale units) in *. destruct (vals_values nd sc raw H) as [V K].
  split; [unfold global_samples; rewrite !map_length; reflexivity |]. exists (vals nd sc raw). split; [exact V |].
  intros k x Hx. rewrite samples_eq. fold sc. rewrite K, map_map.
  rewrite (map_nth_error _ k raw Hx). destruct (reads_good nd sc x (H x (nth_error_In _ _ Hx))) as [G1 G2]. split.
  - intros y Rd. destruct (G2 y Rd) as [A B]. rewrite A, B. f_equal. ring.
  - intros No. destruct (good nd (scaled sc x)) eqn:G.
    + destruct (G1 eq_refl) as (y & Rd & _). exfalso. exact (No y Rd).
    + f_equal. destruct (vals nd sc raw) as [| a l] eqn:E; [reflexivity |]. cbn [map]. change ((a * sc) :: map (fun y => y * sc) l) with (map (fun y => y * sc) (a :: l)). apply average_scale.
Qed.
Lemma metres_ok nd units raw : global_scale units = 1 -> (forall y, In (Fin y) raw -> Rabs y <= fmax) -> filled 1 nd raw (global_samples nd units raw).
Proof.
  intros S H. rewrite <- S at 1. apply filled_ok. rewrite S. intros x Hx. destruct x as [y | b |]; cbn; trivial. rewrite Rmult_1_r. split; [apply H; exact Hx | reflexivity].
Qed.
Lemma kilometres_ok nd units raw : global_scale units = 1000 ->
  (forall y, In (Fin y) raw -> Rabs (y * 1000) <= fmax /\ nd <> Some (Fin y) /\ nd <> Some (Fin (y * 1000))) -> filled 1000 nd raw (global_samples nd units raw).
Proof.
  intros S H. rewrite <- S at 1. apply filled_ok. rewrite S. intros x Hx. destruct x as [y | b |]; cbn; trivial. destruct (H y Hx) as (A & B & C). split; [exact A |]. split; intros; contradiction.
Qed.
Lemma kilometres_mark : 1000 * 10000 <= fmax.
Proof.
  unfold fmax. assert (A : / 2 ^ 23 <= 1). { rewrite <- Rinv_1. apply Rinv_le_contravar; [lra |]. apply pow_R1_Rle. lra. }
  assert (B : 2 ^ 24 <= 2 ^ 127) by (apply Rle_pow; [lra | lia]). assert (C : 2 ^ 24 = 16777216) by (cbn; lra).
  assert (D : 1 * 16777216 <= (2 - / 2 ^ 23) * 2 ^ 127) by (apply Rmult_le_compat; lra). lra.
Qed.
Lemma kilometres_bad : global_samples (Some (Fin (-9999))) ["KILOMETER"%string] [Fin 1; Fin (-9999)] = [1000; -9999000] /\
  ~ filled 1000 (Some (Fin (-9999))) [Fin 1; Fin (-9999)] (global_samples (Some (Fin (-9999))) ["KILOMETER"%string] [Fin 1; Fin (-9999)]).
Proof.
  assert (E : global_samples (Some (Fin (-9999))) ["KILOMETER"%string] [Fin 1; Fin (-9999)] = [1000; -9999000]).
  { unfold global_samples. change (global_scale ["KILOMETER"%string]) with 1000. pose proof kilometres_mark as KM.
    cbn [map]. rewrite (scaled_fin 1000 1) by (rewrite Rabs_right; lra). rewrite (scaled_fin 1000 (-9999)) by (rewrite Rabs_left; lra).
    cbn [is_finite differs andb]. destruct (Req_EM_T (1 * 1000) (-9999)); [lra |]. destruct (Req_EM_T (-9999 * 1000) (-9999)); [lra |]. repeat f_equal; lra. }
  split; [exact E |]. rewrite E. intros (_ & ys & V & F).
  destruct (F 1%nat (Fin (-9999)) eq_refl) as [_ F2].
  assert (N : forall y, ~ reads (Some (Fin (-9999))) (Fin (-9999)) y) by (intros y [X Y]; injection X as <-; apply Y; reflexivity).
  specialize (F2 N).
  assert (ys = [1]) as ->.
  { inversion V as [| x y l ys' Rd V' | x l ys' No V']; subst.
    - destruct Rd as [X _]. injection X as <-. inversion V' as [| x y l ys'' Rd V'' | x l ys'' No V'']; subst; [exfalso; exact (N _ Rd) |]. inversion V''. reflexivity.
    - exfalso. apply (No 1). split; [reflexivity |]. intros X. injection X as X. lra. }
  cbn in F2. injection F2 as F2. unfold average in F2. cbn in F2. lra.
Qed.

(* ------------------------------ inside ------------------------------ *)
Lemma finite_map l : finite_part (map Fin l) = l.
Proof. induction l as [| x l IH]; [reflexivity |]. unfold finite_part in *. cbn [map flat_map app]. rewrite IH. reflexivity. Qed.
Lemma no_nan l : existsb is_nan (map Fin l) = false.
Proof. induction l as [| x l IH]; [reflexivity | exact IH]. Qed.
Lemma no_inf b l : existsb (fun v => match v with Inf c => Bool.eqb b c | _ => false end) (map Fin l) = false.
Proof. induction l as [| x l IH]; [reflexivity | exact IH]. Qed.
Lemma mean_fin l : l <> [] -> mean (map Fin l) = Fin (average l).
Proof.
  intros H. unfold mean. cbv zeta. rewrite no_nan, !no_inf, finite_map, map_length. destruct l as [| x l]; [contradiction | reflexivity].
Qed.
Definition marks (nd v : fl) : bool := differs v nd && negb (is_nan v).
Lemma mark_shape nodata : in_range nodata -> (exists x, local_nodata nodata = Fin x /\ Rabs x = fmax) \/ exists b, local_nodata nodata = Inf b.
Proof.
  pose proof fmax_pos. intros H'. unfold local_nodata. destruct nodata as [[x | b |] |]; try (left; exists (- fmax); split; [reflexivity | rewrite Rabs_Ropp; apply Rabs_right; lra]).
  - cbn in H'. destruct (Rlt_dec (Rabs x) fmax); [left; exists (- fmax); split; [reflexivity | rewrite Rabs_Ropp; apply Rabs_right; lra] | left; exists x; split; [reflexivity | lra]].
  - right. exists b. reflexivity.
Qed.
Lemma mark_good nodata sc x : in_range nodata -> Rabs (x * sc) < fmax -> scaled sc (Fin x) = Fin (x * sc) /\ marks (local_nodata nodata) (Fin (x * sc)) = true.
Proof.
  intros Rg H. split; [apply scaled_fin; lra |]. unfold marks. rewrite andb_true_r. destruct (mark_shape nodata Rg) as [(z & -> & Z) | (b & ->)]; [| reflexivity].
  cbn. destruct (Req_EM_T (x * sc) z) as [E | _]; [| reflexivity]. rewrite E in H. lra.
Qed.
Lemma mark_bad nodata : in_range nodata -> marks (local_nodata nodata) (scaled 1 (local_nodata nodata)) = false.
Proof.
  intros Rg. destruct (mark_shape nodata Rg) as [(z & -> & Z) | (b & ->)].
  - rewrite scaled_fin by (rewrite Rmult_1_r; lra). unfold marks. cbn. rewrite Rmult_1_r. destruct (Req_EM_T z z); [reflexivity | congruence].
  - unfold marks. cbn. rewrite Bool.eqb_reflx. reflexivity.
Qed.
Lemma kept_local nodata units pixels : in_range nodata -> (forall x, In (Some x) pixels -> Rabs (x * local_scale units) < fmax) ->
  (local_scale units = 1 \/ ~ In None pixels) ->
  filter (marks (local_nodata nodata)) (map (scaled (local_scale units)) (mosaic (local_nodata nodata) pixels)) = map Fin (map (fun x => x * local_scale units) (present pixels)).
Proof.
  intros Rg H C. induction pixels as [| [x |] l IH]; [reflexivity | |].
  - cbn [mosaic map filter present flat_map app]. destruct (mark_good nodata (local_scale units) x Rg (H x (or_introl eq_refl))) as [A B]. rewrite A, B. f_equal.
    apply IH; [intros y Y; apply H; right; exact Y | destruct C as [C | C]; [left; exact C | right; intros N; apply C; right; exact N]].
  - destruct C as [C | C]; [| exfalso; apply C; left; reflexivity]. cbn [mosaic map filter present flat_map app].
    rewrite C, (mark_bad nodata Rg), <- C. apply IH; [intros y Y; apply H; right; exact Y | left; exact C].
Qed.
Lemma local_ok nodata units pixels : in_range nodata -> (forall x, In (Some x) pixels -> Rabs (x * local_scale units) < fmax) ->
  (local_scale units = 1 \/ ~ In None pixels) -> forall k o, nth_error pixels k = Some o ->
  nth_error (local_elevations nodata units pixels) k =
    Some (match o with Some x => Fin (local_scale units * x) | None => match present pixels with [] => NaN | l => Fin (local_scale units * average l) end end).
Proof.
  intros Rg H C k o K. unfold local_elevations. change (fun v : fl => differs v (local_nodata nodata) && negb (is_nan v)) with (marks (local_nodata nodata)). rewrite (kept_local nodata units pixels Rg H C). unfold mosaic. rewrite !map_map.
  rewrite (map_nth_error _ k pixels K). f_equal. destruct o as [x |].
  - destruct (mark_good nodata (local_scale units) x Rg (H x (nth_error_In _ _ K))) as [A B]. unfold marks in B. rewrite A, B. f_equal. ring.
  - destruct C as [C | C]; [| exfalso; apply C; exact (nth_error_In _ _ K)]. rewrite C.
    pose proof (mark_bad nodata Rg) as MB. unfold marks in MB. rewrite MB.
    destruct (present pixels) as [| a l]; [reflexivity |]. rewrite <- (map_map (fun x => x * 1) Fin). rewrite mean_fin by discriminate. f_equal. apply average_scale.
Qed.
Lemma local_infinite nodata units pixels k : local_scale units = 1000 -> match nodata with None => True | Some (Fin x) => Rabs x < fmax | Some v => v = NaN end ->
  nth_error pixels k = Some None -> nth_error (local_elevations nodata units pixels) k = Some (Inf true).
Proof.
  intros S Nd K. pose proof fmax_pos as P. assert (E : local_nodata nodata = Fin (- fmax)).
  { unfold local_nodata. destruct nodata as [[x | b |] |]; try reflexivity; [destruct (Rlt_dec (Rabs x) fmax); [reflexivity | contradiction] | discriminate Nd]. }
  unfold local_elevations. rewrite E, S. unfold mosaic. rewrite !map_map. rewrite (map_nth_error _ k pixels K).
  assert (X : scaled 1000 (Fin (- fmax)) = Inf true).
  { cbn. destruct (Rlt_dec fmax (Rabs (- fmax * 1000))) as [_ | N]; [destruct (Rlt_dec (- fmax) 0); [reflexivity | lra] | exfalso; apply N; rewrite Rabs_left; lra]. }
  rewrite X. reflexivity.
Qed.

(* ------------------------------ units ------------------------------ *)
Lemma units_agree u : u = "KILOMETER"%string \/ contains "KILOMETER" (Exports_model.upper u) = false -> local_scale [u] = global_scale [u].
Proof.
  intros [-> | H]; [reflexivity |]. unfold local_scale, global_scale. rewrite H. cbn [existsb]. rewrite orb_false_r.
  destruct (String.eqb_spec "KILOMETER" u) as [<- | _]; [exact (match Bool.diff_true_false H with end) | reflexivity].
Qed.
Lemma units_differ : local_scale ["kilometer"%string] = 1 /\ global_scale ["kilometer"%string] = 1000 /\ local_scale ["KILOMETERS"%string] = 1 /\ global_scale ["KILOMETERS"%string] = 1000.
Proof. repeat split; reflexivity. Qed.

(* ------------------------------ files ------------------------------ *)
Lemma rmap_ok {A B} (f : A -> result B) l : (forall x, In x l -> exists y, f x = Ok y) -> exists ys, rmap f l = Ok ys /\ Forall2 (fun x y => f x = Ok y) l ys.
Proof.
  induction l as [| x l IH]; intros H; [exists []; split; [reflexivity | constructor] |].
  destruct (H x (or_introl eq_refl)) as [y E]. destruct IH as (ys & E2 & F); [intros z Z; apply H; right; exact Z |].
  exists (y :: ys). cbn [rmap]. rewrite E. cbn [rbind]. rewrite E2. split; [reflexivity | constructor; assumption].
Qed.
Lemma rmin_least l : forall x, (In (Region_model.rmin x l) (x :: l)) /\ forall y, In y (x :: l) -> Region_model.rmin x l <= y.
Proof.
  induction l as [| a l IH]; intros x; cbn [Region_model.rmin].
  - split; [left; reflexivity | intros y [<- | []]; lra].
  - destruct (IH (Rmin x a)) as [A B]. split.
    + destruct A as [A | A]; [| right; right; exact A]. rewrite <- A. unfold Rmin. destruct (Rle_dec x a); [left; reflexivity | right; left; reflexivity].
    + intros y [<- | [<- | H]]; [| | apply B; right; exact H].
      * eapply Rle_trans; [apply B; left; reflexivity | apply Rmin_l].
      * eapply Rle_trans; [apply B; left; reflexivity | apply Rmin_r].
Qed.
Lemma all_some_map {A} (l : list A) : all_some (map Some l) = Some l.
Proof. induction l as [| x l IH]; [reflexivity |]. cbn. rewrite IH. reflexivity. Qed.
Lemma list_ok (res : string -> result R) l : l <> [] -> (forall f, In f l -> exists p, res f = Ok p) ->
  exists p, set_files res (AList (map Some l)) = Ok p /\ (exists f, In f l /\ res f = Ok p) /\ (forall f q, In f l -> res f = Ok q -> p <= q).
Proof.
  intros N H. destruct (rmap_ok res l H) as (ys & E & F). unfold set_files. rewrite all_some_map. cbn [rbind]. rewrite E. cbn [rbind].
  destruct ys as [| y ys]; [inversion F; subst; contradiction |]. exists (Region_model.rmin y ys). split; [reflexivity |].
  destruct (rmin_least ys y) as [A B].
  assert (In2 : forall (l : list string) ys, Forall2 (fun x y => res x = Ok y) l ys -> (forall z, In z ys -> exists f, In f l /\ res f = Ok z) /\ (forall f q, In f l -> res f = Ok q -> In q ys)).
  { clear. induction 1 as [| x y l ys E F IH]; [split; [intros z [] | intros f q []] |]. destruct IH as [I1 I2]. split.
    - intros z [<- | Z]; [exists x; split; [left; reflexivity | exact E] | destruct (I1 z Z) as (f & P & Q); exists f; split; [right; exact P | exact Q]].
    - intros f q [<- | Z] Q; [left; congruence | right; exact (I2 f q Z Q)]. }
  destruct (In2 l (y :: ys) F) as [I1 I2]. split; [exact (I1 _ A) |]. intros f q Hf Q. apply B. exact (I2 f q Hf Q).
Qed.
Lemma path_fails res s : set_files res (APath s) = Err TypeError.
Proof. reflexivity. Qed.
Lemma text_fails (res : string -> result R) c s e : res (String c EmptyString) = Err e -> set_files res (Text (String c s)) = Err e.
Proof. intros H. unfold set_files. cbn [rbind characters rmap]. rewrite H. reflexivity. Qed.
Lemma empty_fails res : set_files res (AList []) = Err ValueError.
Proof. reflexivity. Qed.

(** Which file is taken for the whole body. *)
Lemma pi_pos : 0 < PI. Proof. exact PI_RGT_0. Qed.
Lemma global_file_ok x : 0 < x -> Dem_model.dem_file_list x (-90, 90) (-180, 180) = Ok (Dem_model.cylindrical_files (PI / 180 * 1737530 / x) (-90, 90) (-180, 180)).
Proof.
  intros _. unfold Dem_model.dem_file_list. cbn [fst snd]. destruct (Rlt_dec 10 (PI / 180 * 1737530 / x)); [| reflexivity].
  destruct (Rlt_dec 60 (-90)); [lra |]. destruct (Rlt_dec 90 (-60)); [lra | reflexivity].
Qed.
Lemma global_choice scale pix : 0 < scale * pix -> scale * pix / 10 < PI / 180 * moon / 96 -> global_file moon scale pix = Ok (Dem_model.MidLatitudes 128).
Proof.
  intros P H. unfold global_file. cbv zeta. pose proof pi_pos. unfold moon in *.
  set (x := if Rlt_dec (scale * pix / 10) _ then _ else _).
  assert (X : PI / 180 * 1737530 / 128 <= x < PI / 180 * 1737530 / 96) by (unfold x; destruct (Rlt_dec _ _); lra).
  assert (X0 : 0 < x) by lra.
  rewrite (global_file_ok x X0). cbn [rbind].
  assert (Q : 96 < PI / 180 * 1737530 / x < 192).
  { split.
    - apply (Rmult_lt_reg_r x); [exact X0 |]. unfold Rdiv at 1. rewrite Rmult_assoc, Rinv_l by lra. lra.
    - apply (Rmult_lt_reg_r x); [exact X0 |]. unfold Rdiv at 1. rewrite Rmult_assoc, Rinv_l by lra. lra. }
  unfold Dem_model.cylindrical_files. rewrite (Dem_cases.res_128 _ Q). reflexivity.
Qed.
Lemma global_gap scale pix : 0 < scale * pix -> scale * pix / 10 < PI / 180 * moon / 96 ->
  exists f, global_file moon scale pix = Ok f /\ ~ Dem_spec.covers f 0 75.
Proof. intros P H. exists (Dem_model.MidLatitudes 128). split; [apply global_choice; assumption | cbn; lra]. Qed.
Lemma global_whole scale pix : PI / 180 * moon / 96 <= scale * pix / 10 ->
  exists res, global_file moon scale pix = Ok (Dem_model.Globe res).
Proof.
  intros H. unfold global_file. cbv zeta. pose proof pi_pos. unfold moon in *.
  destruct (Rlt_dec (scale * pix / 10) (PI / 180 * 1737530 / 128)) as [L | L]; [lra |].
  set (x := scale * pix / 10) in *. assert (X0 : 0 < x) by lra.
  rewrite (global_file_ok x X0). cbn [rbind].
  assert (Q : PI / 180 * 1737530 / x <= 96).
  { apply (Rmult_le_reg_r x); [exact X0 |]. unfold Rdiv at 1. rewrite Rmult_assoc, Rinv_l by lra. lra. }
  assert (Q0 : 0 < PI / 180 * 1737530 / x). { apply Rdiv_lt_0_compat; lra. }
  set (y := PI / 180 * 1737530 / x) in *.
  unfold Dem_model.cylindrical_files.
  assert (Z : (Dem_model.nearest_of y 4 [16; 64; 128; 256; 512] < 128)%Z).
  { cbn [Dem_model.nearest_of]. set (a := if Rlt_dec (Rabs (y - 16)) (Rabs (y - 4)) then 16%Z else 4%Z).
    assert (A : (a < 128)%Z) by (unfold a; destruct (Rlt_dec _ _); lia).
    clearbody a. set (b := if Rlt_dec (Rabs (y - 64)) (Rabs (y - IZR a)) then 64%Z else a).
    assert (B : (b < 128)%Z) by (unfold b; destruct (Rlt_dec _ _); lia).
    assert (D : Rabs (y - IZR b) <= Rabs (y - 64)) by (unfold b; destruct (Rlt_dec _ _); lra).
    clearbody b. assert (F : Rabs (y - 64) <= Rabs (y - 128)).
    { rewrite (Rabs_left (y - 128)) by lra. unfold Rabs. destruct (Rcase_abs (y - 64)); lra. }
    assert (G : Rabs (y - 128) < Rabs (y - 256)) by (rewrite !Rabs_left by lra; lra).
    assert (K : Rabs (y - 256) < Rabs (y - 512)) by (rewrite !Rabs_left by lra; lra).
    destruct (Rlt_dec (Rabs (y - 128)) (Rabs (y - IZR b))); [lra |].
    destruct (Rlt_dec (Rabs (y - 256)) (Rabs (y - IZR b))); [lra |].
    destruct (Rlt_dec (Rabs (y - 512)) (Rabs (y - IZR b))); [lra | exact B]. }
  set (n := Dem_model.nearest_of _ _ _) in *. unfold Dem_model.cylindrical_file.
  assert (n <? 256 = true)%Z as -> by (apply Z.ltb_lt; lia). assert (256 <=? n = false)%Z as -> by (apply Z.leb_gt; lia).
  assert (n =? 128 = false)%Z as -> by (apply Z.eqb_neq; lia). exists n. reflexivity.
Qed.
