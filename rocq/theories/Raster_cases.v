(** Concrete rasters. *)
From Coq Require Import Reals ZArith Lra Lia.
From Verif Require Import Common Raster_model Raster_spec Raster_proofs.
Import ListNotations.
Open Scope R_scope.

Lemma equator n radius w h : (1 <= n)%nat -> 0 < radius -> get_raster_dims (Whole n radius) = (w, h) ->
  (2 * PI * radius / IZR w) * (PI * radius / IZR h) <= 4 * PI * radius ^ 2 / INR n.
Proof.
  intros N P E. pose proof (whole_counts n radius w h N P E) as (_ & [A B] & _ & D & F). rewrite (deg_value n radius N P) in D, F.
  assert (Pn : 1 <= INR n) by (apply (le_INR 1 n); lia). pose proof PI_RGT_0 as Pp. set (x := sqrt (PI * INR n)) in *.
  assert (X2 : x * x = PI * INR n) by (apply sqrt_sqrt; nra). assert (X0 : 0 < x) by (apply sqrt_lt_R0; nra).
  assert (Wp : (1 <= h)%Z). { destruct (frame_sizes (Whole n radius) (conj N P)) as (_ & _ & _ & _). pose proof (frame_sizes (Whole n radius) (conj N P)) as Q. rewrite E in Q. unfold extent, resolution in Q. rewrite E in Q. cbn in Q. lia. }
  assert (W : 0 < IZR w) by (apply IZR_lt; lia). assert (Hh : 0 < IZR h) by (apply IZR_lt; lia).
  replace (2 * PI * radius / IZR w * (PI * radius / IZR h)) with ((PI * radius / 180) ^ 2 * ((360 / IZR w) * (180 / IZR h))) by (field; lra).
  replace (4 * PI * radius ^ 2 / INR n) with ((PI * radius / 180) ^ 2 * ((360 / x) * (360 / x))).
  - apply Rmult_le_compat_l; [apply pow2_ge_0 |]. apply Rmult_le_compat; try (apply Rlt_le, Rdiv_lt_0_compat; lra); assumption.
  - replace (360 / x * (360 / x)) with (360 * 360 / (x * x)) by (field; lra). rewrite X2. field. lra.
Qed.
Lemma whole_radius n r r' : (1 <= n)%nat -> 0 < r -> 0 < r' -> get_raster_dims (Whole n r) = get_raster_dims (Whole n r').
Proof. intros. rewrite !dims_whole by assumption. reflexivity. Qed.

Definition patch : area := Region 4 1.
Lemma patch_dims : get_raster_dims patch = (8%Z, 8%Z).
Proof. unfold patch, get_raster_dims. cbv zeta. replace (2 * 4 / 1) with (IZR 8) by lra. rewrite (ceil_unique (IZR 8) 8) by lra. reflexivity. Qed.
Lemma patch_corner row col : corner patch row col = (-8 + IZR col * 2, 8 - IZR row * 2).
Proof. unfold corner, resolution. rewrite patch_dims. unfold patch, extent. cbv zeta. f_equal; lra. Qed.
Definition west_box := mk_box (-8) (-13 / 2) 6 8.
Definition east_box := mk_box (-13 / 2) (-5) 6 8.
Definition two_boxes := [mk_face (Some west_box) false (Some 1); mk_face (Some east_box) false (Some 2)].
Lemma two_boxes_raster : to_raster (meets patch) patch two_boxes 0 0 = Some 2.
Proof.
  assert (M : meets patch east_box 0 0 = true).
  { unfold meets. change (0 + 1)%Z with 1%Z. rewrite !patch_corner. cbn [east_box x0 x1 y0 y1].
    repeat (destruct (Rle_dec _ _) as [? | Q]; [| exfalso; apply Q; lra]). reflexivity. }
  change (to_raster (meets patch) patch two_boxes 0 0) with (if meets patch east_box 0 0 then Some 2 else if meets patch west_box 0 0 then Some 1 else None). rewrite M. reflexivity.
Qed.
Lemma two_boxes_centre : let '(x, y) := centre patch 0 0 in holds west_box x y /\ ~ holds east_box x y.
Proof. unfold centre. change (0 + 1)%Z with 1%Z. rewrite !patch_corner. unfold holds. cbn [west_box east_box x0 x1 y0 y1]. split; [lra | intros [H _]; lra]. Qed.

Lemma meridian {polygon} (touches : polygon -> Z -> Z -> bool) n radius faces row col :
  (forall f g, In f faces -> geometry f = Some g -> touches g row col = true -> crosses f = true) -> to_raster touches (Whole n radius) faces row col = None.
Proof.
  intros H. pose proof (raster_values _ touches (Whole n radius) faces row col) as V. destruct (to_raster touches (Whole n radius) faces row col) as [v |]; [| reflexivity].
  destruct V as (i & (f & g & N & G & T & _ & C) & _). rewrite (H f g (nth_error_In _ _ N) G T) in C. discriminate.
Qed.
Lemma shared_pixel : exists a (faces : list (face box)) row col (f g : box) v,
  on_raster a row col /\ In (mk_face (Some f) false (Some v)) faces /\
  (let '(x, y) := centre a row col in holds f x y /\ ~ holds g x y) /\
  exists w, w <> v /\ In (mk_face (Some g) false (Some w)) faces /\ to_raster (meets a) a faces row col = Some w.
Proof.
  exists patch, two_boxes, 0%Z, 0%Z, west_box, east_box, 1. unfold on_raster. rewrite patch_dims.
  split; [lia |]. split; [left; reflexivity |]. split; [exact two_boxes_centre |]. exists 2. split; [lra |]. split; [right; left; reflexivity | exact two_boxes_raster].
Qed.
