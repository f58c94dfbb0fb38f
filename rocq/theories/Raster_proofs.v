(** Proofs about Raster_model. *)
From Coq Require Import Reals ZArith Lra Lia.
From Verif Require Import Common Raster_model Raster_spec.
Import ListNotations.
Open Scope R_scope.

Lemma ceil_spec x : x <= IZR (ceil x) < x + 1.
Proof. unfold ceil. rewrite opp_IZR. pose proof (base_Int_part (- x)) as [A B]. lra. Qed.
Lemma ceil_unique x k : x <= IZR k < x + 1 -> ceil x = k.
Proof. intros H. pose proof (ceil_spec x). assert (A : (ceil x < k + 1)%Z) by (apply lt_IZR; rewrite plus_IZR; lra). assert (B : (k < ceil x + 1)%Z) by (apply lt_IZR; rewrite plus_IZR; lra). lia. Qed.

Lemma deg_value n radius : (1 <= n)%nat -> 0 < radius -> deg_per_pix n radius = 360 / sqrt (PI * INR n).
Proof.
  intros N P. assert (Pn : 0 < INR n) by (apply lt_0_INR; lia). pose proof PI_RGT_0 as Pp. unfold deg_per_pix.
  assert (Q : 0 < PI * INR n) by (apply Rmult_lt_0_compat; lra). assert (S0 : 0 < sqrt (PI * INR n)) by (apply sqrt_lt_R0, Q).
  replace (4 * PI * radius ^ 2 / INR n) with ((2 * PI * radius) ^ 2 / (PI * INR n)) by (field; lra).
  rewrite sqrt_div by (try nra; assumption). rewrite sqrt_pow2 by nra. field. repeat split; lra.
Qed.
Lemma dims_whole n radius : (1 <= n)%nat -> 0 < radius -> get_raster_dims (Whole n radius) = (ceil (sqrt (PI * INR n)), ceil (sqrt (PI * INR n) / 2)).
Proof.
  intros N P. unfold get_raster_dims. rewrite (deg_value n radius N P). assert (Pn : 0 < INR n) by (apply lt_0_INR; lia). pose proof PI_RGT_0 as Pp.
  assert (S0 : 0 < sqrt (PI * INR n)) by (apply sqrt_lt_R0, Rmult_lt_0_compat; lra). f_equal; f_equal; field; lra.
Qed.
Lemma whole_counts n radius w h : (1 <= n)%nat -> 0 < radius -> get_raster_dims (Whole n radius) = (w, h) ->
  (Z.of_nat n <= w * h)%Z /\ (h <= w <= 2 * h)%Z /\ (2 * h <= w + 1)%Z /\ 360 / IZR w <= deg_per_pix n radius /\ 180 / IZR h <= deg_per_pix n radius.
Proof.
  intros N P E. rewrite dims_whole in E by assumption. injection E as <- <-. rewrite (deg_value n radius N P).
  assert (Pn : 1 <= INR n) by (apply (le_INR 1 n); lia). pose proof PI_RGT_0 as Pp. pose proof PI2_3_2 as P3.
  set (x := sqrt (PI * INR n)). assert (X2 : x * x = PI * INR n) by (apply sqrt_sqrt; nra). assert (X1 : 1 < x).
  { rewrite <- sqrt_1. apply sqrt_lt_1_alt. split; [lra | nra]. }
  pose proof (ceil_spec x) as [A B]. pose proof (ceil_spec (x / 2)) as [C D]. set (w := ceil x) in *. set (h := ceil (x / 2)) in *.
  assert (W : 0 < IZR w) by lra. assert (Hh : 0 < IZR h) by lra. split.
  - apply le_IZR. rewrite <- INR_IZR_INZ, mult_IZR. assert (x * (x / 2) <= IZR w * IZR h) by (apply Rmult_le_compat; lra). nra.
  - split; [split|].
    + assert (T : IZR h < IZR w + 1) by lra. assert (T' : (h < w + 1)%Z) by (apply lt_IZR; rewrite plus_IZR; lra). lia.
    + assert (T : (w < 2 * h + 1)%Z) by (apply lt_IZR; rewrite plus_IZR, mult_IZR; lra). lia.
    + split; [assert (T : (2 * h < w + 2)%Z) by (apply lt_IZR; rewrite plus_IZR, mult_IZR; lra); lia |].
      split.
      * unfold Rdiv. apply Rmult_le_compat_l; [lra |]. apply Rinv_le_contravar; lra.
      * replace (360 / x) with (180 / (x / 2)) by (field; lra). unfold Rdiv at 1 3. apply Rmult_le_compat_l; [lra |]. apply Rinv_le_contravar; lra.
Qed.

(** A region. *)
Lemma region_width r pix : 0 < r -> 0 < pix -> let w := Z.max 1 (ceil (2 * r / pix)) in (1 <= w)%Z /\ 2 * r <= IZR w * pix < 2 * r + pix.
Proof.
  intros R0 P w. pose proof (ceil_spec (2 * r / pix)) as [A B]. assert (Q : 0 < 2 * r / pix) by (apply Rdiv_lt_0_compat; lra).
  assert (E : (1 <= ceil (2 * r / pix))%Z) by (assert (T : (0 < ceil (2 * r / pix))%Z) by (apply lt_IZR; lra); lia).
  unfold w. rewrite Z.max_r by exact E. split; [exact E |].
  assert (M : 2 * r / pix * pix = 2 * r) by (field; lra). split; [apply Rle_trans with (2 * r / pix * pix); [lra | apply Rmult_le_compat_r; lra] |].
  apply Rlt_le_trans with ((2 * r / pix + 1) * pix); [apply Rmult_lt_compat_r; lra |]. rewrite Rmult_plus_distr_r, M. lra.
Qed.
Lemma region_coarse r pix : 0 < r -> 0 < pix -> let '(xres, yres) := resolution (Region r pix) in let '(w, h) := get_raster_dims (Region r pix) in
  pix < xres /\ xres = yres /\ w = h /\ xres <= pix * (1 + 8 / IZR w).
Proof.
  intros R0 P. destruct (region_width r pix R0 P) as [W1 [W2 W3]]. unfold resolution, get_raster_dims, extent. cbv zeta.
  set (w := Z.max 1 (ceil (2 * r / pix))) in *. assert (W : 0 < IZR w) by (apply IZR_lt; lia).
  split; [| split; [reflexivity | split; [reflexivity |]]].
  - apply Rmult_lt_reg_r with (IZR w); [exact W |]. replace (2 * (r + 4 * pix) / IZR w * IZR w) with (2 * (r + 4 * pix)) by (field; lra). lra.
  - apply Rmult_le_reg_r with (IZR w); [exact W |]. replace (2 * (r + 4 * pix) / IZR w * IZR w) with (2 * (r + 4 * pix)) by (field; lra).
    replace (pix * (1 + 8 / IZR w) * IZR w) with (IZR w * pix + 8 * pix) by (field; lra). lra.
Qed.

(** The pixels tile the extent. *)
Lemma tile lo hi (k : Z) : lo < hi -> (1 <= k)%Z -> forall x, lo <= x < hi -> exists c, (0 <= c < k)%Z /\ lo + IZR c * ((hi - lo) / IZR k) <= x < lo + IZR (c + 1) * ((hi - lo) / IZR k).
Proof.
  intros L K x H. assert (Kp : 0 < IZR k) by (apply IZR_lt; lia). set (u := (hi - lo) / IZR k). assert (U : 0 < u) by (apply Rdiv_lt_0_compat; lra).
  assert (UK : u * IZR k = hi - lo) by (unfold u; field; lra). exists (Int_part ((x - lo) / u)). pose proof (base_Int_part ((x - lo) / u)) as [A B].
  set (c := Int_part ((x - lo) / u)) in *. assert (M : (x - lo) / u * u = x - lo) by (field; lra).
  assert (A' : IZR c * u <= x - lo) by (rewrite <- M; apply Rmult_le_compat_r; lra).
  assert (B' : x - lo < (IZR c + 1) * u) by (rewrite <- M; apply Rmult_lt_compat_r; lra).
  rewrite plus_IZR. split; [| lra]. split.
  - assert (T : (-1 < c)%Z); [| lia]. apply lt_IZR. apply Rmult_lt_reg_r with u; [exact U |]. lra.
  - apply lt_IZR. apply Rmult_lt_reg_r with u; [exact U |]. lra.
Qed.
Lemma tile_one lo u (c c' : Z) x : 0 < u -> lo + IZR c * u <= x < lo + IZR (c + 1) * u -> lo + IZR c' * u <= x < lo + IZR (c' + 1) * u -> c = c'.
Proof.
  rewrite !plus_IZR. intros U A B. assert ((c < c' + 1)%Z /\ (c' < c + 1)%Z); [| lia]. split; apply lt_IZR; rewrite plus_IZR; apply Rmult_lt_reg_r with u; lra.
Qed.
Lemma frame_sizes a : sensible a -> let '(xmin, xmax, ymin, ymax) := extent a in let '(w, h) := get_raster_dims a in let '(xres, yres) := resolution a in
  xmin < xmax /\ ymin < ymax /\ (1 <= w)%Z /\ (1 <= h)%Z /\ xres = (xmax - xmin) / IZR w /\ yres = (ymax - ymin) / IZR h.
Proof.
  destruct a as [n radius | r pix]; intros [A B].
  - pose proof (whole_counts n radius _ _ A B (surjective_pairing _)) as (C & D & _). unfold resolution, extent. destruct (get_raster_dims (Whole n radius)) as [w h]. cbn [fst snd] in *.
    repeat split; try lra; try lia; nia.
  - pose proof (region_width r pix A B) as [C D]. cbv zeta in C. unfold resolution, extent, get_raster_dims. cbv zeta. repeat split; try lra; try exact C; f_equal; ring.
Qed.
Lemma tiles a : sensible a -> forall x y, within a x y ->
  exists row col, on_raster a row col /\ inside a row col x y /\ (forall row' col', inside a row' col' x y -> row' = row /\ col' = col).
Proof.
  intros Sa x y W. pose proof (frame_sizes a Sa) as F. unfold within, on_raster, inside, corner in *.
  destruct (extent a) as [[[xmin xmax] ymin] ymax]. destruct (get_raster_dims a) as [w h]. destruct (resolution a) as [xres yres].
  destruct F as (Fx & Fy & Fw & Fh & -> & ->). destruct W as [Wx Wy].
  destruct (tile xmin xmax w Fx Fw x Wx) as (c & Hc & Ic). destruct (tile (- ymax) (- ymin) h ltac:(lra) Fh (- y) ltac:(lra)) as (r & Hr & Ir).
  replace (- ymin - - ymax) with (ymax - ymin) in Ir by ring. exists r, c. split; [auto |]. split; [split; lra |].
  intros r' c' [A B]. assert (Uw : 0 < (xmax - xmin) / IZR w) by (apply Rdiv_lt_0_compat; [lra | apply IZR_lt; lia]). assert (Uh : 0 < (ymax - ymin) / IZR h) by (apply Rdiv_lt_0_compat; [lra | apply IZR_lt; lia]).
  split; [apply (tile_one (- ymax) _ r' r (- y) Uh) | apply (tile_one xmin _ c' c x Uw)]; lra.
Qed.
Lemma corners a : sensible a -> let '(xmin, xmax, ymin, ymax) := extent a in let '(w, h) := get_raster_dims a in corner a 0 0 = (xmin, ymax) /\ corner a h w = (xmax, ymin).
Proof.
  intros Sa. pose proof (frame_sizes a Sa) as F. unfold corner. destruct (extent a) as [[[xmin xmax] ymin] ymax]. destruct (get_raster_dims a) as [w h]. destruct (resolution a) as [xres yres].
  destruct F as (Fx & Fy & Fw & Fh & -> & ->). assert (0 < IZR w) by (apply IZR_lt; lia). assert (0 < IZR h) by (apply IZR_lt; lia). split; f_equal; try ring; field; lra.
Qed.

(** Values. *)
Section Values.
Variable polygon : Type.
Variable touches : polygon -> Z -> Z -> bool.
Implicit Types (l : list (polygon * R)) (fs : list (face polygon)).
Lemma burn_app l s row col : burn touches (l ++ [s]) row col = if touches (fst s) row col then Some (snd s) else burn touches l row col.
Proof. unfold burn. rewrite fold_left_app. reflexivity. Qed.
Definition shown (whole : bool) (f : face polygon) (row col : Z) : option R :=
  match geometry f, value f with Some g, Some v => if (touches g row col && negb (whole && crosses f))%bool then Some v else None | _, _ => None end.
Definition is_whole (a : area) : bool := match a with Whole _ _ => true | _ => false end.
Lemma shapes_app fs f : shapes (fs ++ [f])%list = (shapes fs ++ shapes [f])%list.
Proof. induction fs as [| g fs IH]; [reflexivity |]. cbn [app shapes]. destruct (geometry g), (value g); rewrite ?IH; reflexivity. Qed.
Lemma frame_app a fs f : frame a (fs ++ [f])%list = (frame a fs ++ frame a [f])%list.
Proof. destruct a; [apply filter_app | reflexivity]. Qed.
Lemma raster_app a fs f row col : to_raster touches a (fs ++ [f])%list row col = match shown (is_whole a) f row col with Some v => Some v | None => to_raster touches a fs row col end.
Proof.
  unfold to_raster. rewrite frame_app. assert (E : frame a [f] = if (is_whole a && crosses f)%bool then [] else [f]) by (destruct a; cbn; [destruct (crosses f); reflexivity | reflexivity]).
  rewrite E. unfold shown. destruct (is_whole a && crosses f)%bool eqn:C.
  - rewrite app_nil_r. destruct (geometry f), (value f); try reflexivity. cbn [negb]. rewrite Bool.andb_false_r. reflexivity.
  - rewrite shapes_app. cbn [shapes]. destruct (geometry f) as [g |]; [| rewrite app_nil_r; reflexivity]. destruct (value f) as [v |]; [| rewrite app_nil_r; reflexivity].
    rewrite burn_app. cbn [fst snd negb]. rewrite Bool.andb_true_r. destruct (touches g row col); reflexivity.
Qed.
Lemma candidate_shown a fs row col i v : candidate touches a fs row col i v <-> exists f, nth_error fs i = Some f /\ shown (is_whole a) f row col = Some v.
Proof.
  unfold candidate, shown. split.
  - intros (f & g & N & G & T & Vv & C). exists f. split; [exact N |]. rewrite G, Vv, T. destruct a; cbn; [rewrite C |]; reflexivity.
  - intros (f & N & H). destruct (geometry f) as [g |] eqn:G; [| discriminate]. destruct (value f) as [w |] eqn:Vv; [| discriminate].
    destruct (touches g row col) eqn:T; [| discriminate]. cbn [andb] in H. destruct (negb (is_whole a && crosses f)) eqn:C; [| discriminate]. injection H as <-.
    exists f, g. repeat split; auto. destruct a; [| exact I]. cbn in C. destruct (crosses f); [discriminate | reflexivity].
Qed.
Lemma nth_snoc {A} (l : list A) x i y : nth_error (l ++ [x])%list i = Some y <-> nth_error l i = Some y \/ i = List.length l /\ y = x.
Proof.
  split.
  - intros H. destruct (Nat.lt_ge_cases i (List.length l)) as [L | L]; [rewrite nth_error_app1 in H by exact L; auto |].
    rewrite nth_error_app2 in H by exact L. destruct (i - List.length l)%nat as [| k] eqn:E; [cbn in H; right; split; [lia | congruence] | cbn in H; destruct k; discriminate].
  - intros [H | [-> ->]]; [rewrite nth_error_app1; [exact H | apply nth_error_Some; congruence] | rewrite nth_error_app2, Nat.sub_diag by lia; reflexivity].
Qed.
Lemma raster_values a fs row col :
  match to_raster touches a fs row col with
  | Some v => exists i, candidate touches a fs row col i v /\ (forall j w, candidate touches a fs row col j w -> (j <= i)%nat)
  | None => forall i v, ~ candidate touches a fs row col i v
  end.
Proof.
  induction fs as [| f fs IH] using rev_ind.
  - replace (to_raster touches a [] row col) with (@None R) by (destruct a; reflexivity). intros i v (f & g & N & _). destruct i; discriminate.
  - rewrite raster_app. destruct (shown (is_whole a) f row col) as [v |] eqn:Sh.
    + exists (List.length fs). split.
      * apply candidate_shown. exists f. split; [apply nth_snoc; auto | exact Sh].
      * intros j w C. apply candidate_shown in C as (f' & N & _). apply nth_snoc in N as [N | [-> _]]; [| lia]. assert (j < List.length fs)%nat by (apply nth_error_Some; congruence). lia.
    + assert (Eq : forall i v, candidate touches a (fs ++ [f])%list row col i v <-> candidate touches a fs row col i v).
      { intros i v. rewrite !candidate_shown. split; intros (f' & N & Sf); exists f'; (split; [| exact Sf]); [apply nth_snoc in N as [N | [_ ->]]; [exact N | congruence] | apply nth_snoc; auto]. }
      destruct (to_raster touches a fs row col) as [v |].
      * destruct IH as (i & C & M). exists i. split; [apply Eq, C |]. intros j w Cj. apply (M j w), Eq, Cj.
      * intros i v C. apply (IH i v), Eq, C.
Qed.
End Values.

Lemma whole_covers n radius lon lat : -180 <= lon < 180 -> -90 < lat <= 90 -> within (Whole n radius) lon lat.
Proof. intros H K. exact (conj H K). Qed.
Lemma region_covers r pix x y : 0 < r -> 0 < pix -> x ^ 2 + y ^ 2 <= r ^ 2 -> within (Region r pix) x y.
Proof. intros H K D. unfold within, extent. assert (x ^ 2 <= r ^ 2 /\ y ^ 2 <= r ^ 2) by nra. split; split; nra. Qed.
