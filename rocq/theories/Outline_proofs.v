(** Proofs about Outline_model. *)
From Coq Require Import Reals Lra Lia ZArith.
From Verif Require Import Common Geo_spec Geo_proofs Outline_model Outline_spec.
From Verif Require Region_model Region_spec Region_more.
Import ListNotations.
Open Scope R_scope.

Lemma rad_plus x y : rad (x + y) = rad x + rad y. Proof. unfold rad. field. Qed.
Lemma rad_turns x (k : Z) : rad (x + 360 * IZR k) = rad x + 2 * IZR k * PI. Proof. unfold rad. field. Qed.
Lemma place_turns lon lat (k : Z) : place (lon + 360 * IZR k) lat = place lon lat.
Proof. unfold place. apply direction_turns. exists k. rewrite rad_turns. reflexivity. Qed.
Lemma reached_turns lon lat b s (k : Z) : reached lon lat (b + 2 * IZR k * PI) s = reached lon lat b s.
Proof.
  unfold reached. rewrite (same_angle_cos (b + 2 * IZR k * PI) b), (same_angle_sin (b + 2 * IZR k * PI) b); [reflexivity | |]; exists k; reflexivity.
Qed.
Lemma fmod_turns x : exists k : Z, fmod x 360 = x + 360 * IZR k.
Proof. exists (- Int_part (x / 360))%Z. unfold fmod. rewrite opp_IZR. ring. Qed.

(** The polar radius. *)
Section Polar.
Variables a b theta : R.
Hypothesis Hab : 0 < b <= a.
Let c := cos (rad theta).
Let s := sin (rad theta).
Let D := (b * c) ^ 2 + (a * s) ^ 2.
Lemma cs1 : c * c + s * s = 1. Proof. apply cs. Qed.
Lemma D_low : b * b <= D.
Proof. unfold D. pose proof cs1. assert (0 <= s * s) by nra. assert (b * b <= a * a) by nra. assert (b * b * (s * s) <= a * a * (s * s)) by nra.
  replace ((b * c) ^ 2 + (a * s) ^ 2) with (b * b * (c * c) + a * a * (s * s)) by ring. replace (c * c) with (1 - s * s) by lra. nra. Qed.
Lemma D_high : D <= a * a.
Proof. unfold D. pose proof cs1. assert (0 <= c * c) by nra. assert (b * b <= a * a) by nra. assert (b * b * (c * c) <= a * a * (c * c)) by nra.
  replace ((b * c) ^ 2 + (a * s) ^ 2) with (b * b * (c * c) + a * a * (s * s)) by ring. replace (s * s) with (1 - c * c) by lra. nra. Qed.
Lemma D_pos : 0 < D. Proof. pose proof D_low. nra. Qed.
Lemma sqrt_D : b <= sqrt D <= a.
Proof.
  split.
  - rewrite <- (sqrt_square b) by lra. apply sqrt_le_1_alt, D_low.
  - rewrite <- (sqrt_square a) by lra. apply sqrt_le_1_alt, D_high.
Qed.
Lemma polar_bounds : b <= polar a b theta <= a.
Proof.
  unfold polar. fold c s. fold D. pose proof sqrt_D. assert (0 < sqrt D) by lra.
  assert (E : a * b / sqrt D * sqrt D = a * b) by (field; lra).
  split; (apply Rmult_le_reg_r with (sqrt D); [assumption | rewrite E; nra]).
Qed.
Lemma polar_ellipse : (polar a b theta * c / a) ^ 2 + (polar a b theta * s / b) ^ 2 = 1.
Proof.
  unfold polar. fold c s. fold D. pose proof sqrt_D as Q. pose proof D_pos as P. pose proof (sqrt_sqrt D (Rlt_le _ _ P)) as E.
  assert (G : forall w, w <> 0 -> (a * b / w * c / a) ^ 2 + (a * b / w * s / b) ^ 2 = D / (w * w)).
  { intros w W. unfold D. field. repeat split; auto; lra. }
  rewrite G by lra.
  rewrite E. field. lra.
Qed.
End Polar.

Lemma thetas_length n : List.length (thetas n) = n.
Proof. unfold thetas. destruct n as [| [| n]]; [reflexivity | reflexivity |]. rewrite map_length, seq_length. reflexivity. Qed.
Lemma thetas_nth n i : (2 <= n)%nat -> (i < n)%nat -> nth_error (thetas n) i = Some (360 * INR i / INR (n - 1)).
Proof.
  intros H Hi. unfold thetas. destruct n as [| [| n]]; [lia | lia |]. rewrite nth_error_map.
  rewrite (nth_error_nth' _ 0%nat) by (rewrite seq_length; lia). rewrite seq_nth by lia. reflexivity.
Qed.

Section Vertices.
Variable radius : R.
Variable fwd : R -> R -> R -> R -> R * R.
Hypothesis pos : 0 < radius.
Hypothesis good : solves radius fwd.

Lemma fwd_spec lon lat b d : -90 <= lat <= 90 ->
  -180 <= fst (fwd lon lat b d) <= 180 /\ -90 <= snd (fwd lon lat b d) <= 90 /\
  place (fst (fwd lon lat b d)) (snd (fwd lon lat b d)) = reached (rad lon) (rad lat) (rad b) (d / radius).
Proof. intros H. pose proof (good lon lat b d H) as G. destruct (fwd lon lat b d). exact G. Qed.

Lemma vertex_spec n e i v : proper e -> (2 <= n)%nat -> nth_error (vertices fwd n e) i = Some v ->
  -180 <= fst v <= 180 /\ -90 <= snd v <= 90 /\
  exists r, e_b e <= r <= e_a e /\
    (let theta := 360 * INR i / INR (n - 1) in
     (r * cos (rad theta) / e_a e) ^ 2 + (r * sin (rad theta) / e_b e) ^ 2 = 1 /\
     place (fst v) (snd v) = reached (rad (e_lon e)) (rad (e_lat e)) (rad (theta + e_phi e)) (r / radius)).
Proof.
  intros (Hab & Hl & _) Hn E. assert (Hi : (i < n)%nat).
  { rewrite <- (thetas_length n). replace (List.length (thetas n)) with (List.length (vertices fwd n e)) by apply map_length. apply nth_error_Some. congruence. }
  unfold vertices in E. rewrite nth_error_map, (thetas_nth n i Hn Hi) in E. cbn [option_map] in E. injection E as <-.
  set (theta := 360 * INR i / INR (n - 1)). destruct (fwd_spec (e_lon e) (e_lat e) (theta + fmod (e_phi e) 360) (polar (e_a e) (e_b e) theta) Hl) as (A & B & C).
  split; [exact A |]. split; [exact B |]. exists (polar (e_a e) (e_b e) theta). split; [apply polar_bounds, Hab |]. split; [apply polar_ellipse, Hab |].
  rewrite C. destruct (fmod_turns (e_phi e)) as [k ->]. replace (theta + (e_phi e + 360 * IZR k)) with (theta + e_phi e + 360 * IZR k) by ring.
  rewrite rad_turns, reached_turns. reflexivity.
Qed.
Lemma vertices_length n e : List.length (vertices fwd n e) = n.
Proof. unfold vertices. rewrite map_length. apply thetas_length. Qed.

(** The first and the last vertex. *)
Lemma polar_turn a b : polar a b 360 = polar a b 0.
Proof.
  unfold polar. replace (rad 360) with (rad 0 + 2 * 1 * PI) by (unfold rad; field).
  rewrite (same_angle_cos (rad 0 + 2 * 1 * PI) (rad 0)), (same_angle_sin (rad 0 + 2 * 1 * PI) (rad 0)); [reflexivity | |]; exists 1%Z; reflexivity.
Qed.
Lemma closed n e u v : proper e -> (2 <= n)%nat -> nth_error (vertices fwd n e) 0 = Some u -> nth_error (vertices fwd n e) (n - 1) = Some v ->
  place (fst u) (snd u) = place (fst v) (snd v).
Proof.
  intros (Hab & Hl & _) Hn E F. unfold vertices in E, F. rewrite nth_error_map, thetas_nth in E, F by lia. cbn [option_map] in E, F.
  injection E as <-. injection F as <-.
  destruct (fwd_spec (e_lon e) (e_lat e) (360 * INR 0 / INR (n - 1) + fmod (e_phi e) 360) (polar (e_a e) (e_b e) (360 * INR 0 / INR (n - 1))) Hl) as (_ & _ & A).
  destruct (fwd_spec (e_lon e) (e_lat e) (360 * INR (n - 1) / INR (n - 1) + fmod (e_phi e) 360) (polar (e_a e) (e_b e) (360 * INR (n - 1) / INR (n - 1))) Hl) as (_ & _ & B).
  etransitivity; [exact A |]. etransitivity; [| symmetry; exact B]. clear A B.
  assert (P : INR (n - 1) <> 0) by (apply not_0_INR; lia).
  replace (360 * INR (n - 1) / INR (n - 1)) with 360 by (field; exact P). replace (360 * INR 0 / INR (n - 1)) with 0 by (cbn; field; exact P).
  rewrite polar_turn. replace (360 + fmod (e_phi e) 360) with (0 + fmod (e_phi e) 360 + 360 * 1) by ring. rewrite rad_turns, reached_turns. reflexivity.
Qed.

(** Longitudes near the centre. *)
Lemma forward_part lon lat b s lon2 lat2 : place lon2 lat2 = reached (rad lon) (rad lat) b s ->
  cos (rad lat2) * cos (rad lon2 - rad lon) = cos s * cos (rad lat) - sin s * cos b * sin (rad lat).
Proof.
  intros E. unfold place, direction, reached, add, scale, direction, north, east in E. injection E as E1 E2 _.
  rewrite cos_minus. pose proof (cs (rad lon)) as C.
  replace (cos (rad lat2) * (cos (rad lon2) * cos (rad lon) + sin (rad lon2) * sin (rad lon))) with
    ((cos (rad lat2) * cos (rad lon2)) * cos (rad lon) + (cos (rad lat2) * sin (rad lon2)) * sin (rad lon)) by ring.
  rewrite E1, E2. replace (cos s * cos (rad lat) - sin s * cos b * sin (rad lat)) with
    ((cos s * cos (rad lat) - sin s * cos b * sin (rad lat)) * (cos (rad lon) * cos (rad lon) + sin (rad lon) * sin (rad lon))) by (rewrite C; ring). ring.
Qed.
Lemma forward_pos lat b s : 0 <= s -> s + Rabs lat < PI / 2 -> 0 < cos s * cos lat - sin s * cos b * sin lat.
Proof.
  intros Hs H. assert (P := PI_RGT_0). assert (A := Rabs_pos lat).
  assert (S0 : 0 <= sin s) by (apply sin_ge_0; lra).
  assert (E : cos (s + Rabs lat) = cos s * cos lat - sin s * Rabs (sin lat)).
  { rewrite cos_plus. unfold Rabs at 1 2. destruct (Rcase_abs lat).
    - rewrite cos_neg, sin_neg. rewrite Rabs_left1; [ring |]. assert (L : - lat < PI / 2) by (revert H; unfold Rabs; destruct (Rcase_abs lat); lra).
      replace (sin lat) with (- sin (- lat)) by (rewrite sin_neg; ring). assert (0 <= sin (- lat)) by (apply sin_ge_0; lra). lra.
    - rewrite Rabs_pos_eq; [ring |]. revert H; unfold Rabs; destruct (Rcase_abs lat); intros; [lra |]. apply sin_ge_0; lra. }
  assert (Pc : 0 < cos (s + Rabs lat)) by (apply cos_gt_0; lra). rewrite E in Pc.
  assert (B : cos b * sin lat <= Rabs (sin lat)).
  { apply Rle_trans with (Rabs (cos b * sin lat)); [apply Rle_abs |]. rewrite Rabs_mult. pose proof (COS_bound b). assert (Rabs (cos b) <= 1) by (apply Rabs_le; lra).
    pose proof (Rabs_pos (sin lat)). nra. }
  nra.
Qed.
Lemma near_turn x : -360 <= x <= 360 -> 0 < cos (rad x) -> exists k : Z, Rabs (x + 360 * IZR k) < 90.
Proof.
  intros H C. assert (P := PI_RGT_0).
  assert (Q : forall y, 90 <= y <= 270 -> cos (rad y) <= 0).
  { intros y Hy. apply cos_le_0; unfold rad; [replace (PI / 2) with (90 * PI / 180) by field | replace (3 * (PI / 2)) with (270 * PI / 180) by field]; unfold Rdiv; apply Rmult_le_compat_r; try lra; apply Rmult_le_compat_r; lra. }
  destruct (Rlt_dec x (-270)) as [A | A]; [exists 1%Z; apply Rabs_def1; lra |].
  destruct (Rle_dec x (-90)) as [B | B]; [exfalso; specialize (Q (- x) ltac:(lra)); replace (rad (- x)) with (- rad x) in Q by (unfold rad; field); rewrite cos_neg in Q; lra |].
  destruct (Rlt_dec x 90) as [D | D]; [exists 0%Z; apply Rabs_def1; lra |].
  destruct (Rle_dec x 270) as [F | F]; [exfalso; specialize (Q x ltac:(lra)); lra |].
  exists (-1)%Z. apply Rabs_def1; lra.
Qed.

Lemma vertex_near n e v : proper e -> clear_of_poles radius e -> In v (vertices fwd n e) ->
  -180 <= fst v <= 180 /\ exists k : Z, Rabs (fst v + 360 * IZR k - e_lon e) < 90.
Proof.
  intros (Hab & Hl & Hlon) Cl I. unfold vertices in I. apply in_map_iff in I as (theta & <- & _).
  destruct (fwd_spec (e_lon e) (e_lat e) (theta + fmod (e_phi e) 360) (polar (e_a e) (e_b e) theta) Hl) as (A & B & C).
  set (v := fwd _ _ _ _) in *. split; [exact A |].
  apply forward_part in C. pose proof (polar_bounds (e_a e) (e_b e) theta Hab) as Pb.
  assert (F : 0 < cos (rad (snd v)) * cos (rad (fst v) - rad (e_lon e))).
  { rewrite C. apply forward_pos.
    - apply Rmult_le_pos; [lra | apply Rlt_le, Rinv_0_lt_compat, pos].
    - unfold clear_of_poles in Cl. apply Rle_lt_trans with (e_a e / radius + Rabs (rad (e_lat e))); [| exact Cl].
      apply Rplus_le_compat_r. unfold Rdiv. apply Rmult_le_compat_r; [apply Rlt_le, Rinv_0_lt_compat, pos | lra]. }
  assert (L : 0 <= cos (rad (snd v))).
  { assert (P := PI_RGT_0). apply cos_ge_0; unfold rad; [replace (- (PI / 2)) with (-90 * PI / 180) by field | replace (PI / 2) with (90 * PI / 180) by field]; unfold Rdiv; apply Rmult_le_compat_r; try lra; apply Rmult_le_compat_r; lra. }
  destruct (near_turn (fst v - e_lon e)) as [k K]; [lra | |].
  - replace (rad (fst v - e_lon e)) with (rad (fst v) - rad (e_lon e)) by (unfold rad; field). nra.
  - exists k. replace (fst v + 360 * IZR k - e_lon e) with (fst v - e_lon e + 360 * IZR k) by ring. exact K.
Qed.
End Vertices.

(** Unwrapping. *)
Lemma sign_cases x : (0 < x /\ sign x = 1) \/ (x < 0 /\ sign x = -1) \/ (x = 0 /\ sign x = 0).
Proof. unfold sign. destruct (Rlt_dec 0 x); [tauto |]. destruct (Rlt_dec x 0); [tauto |]. right. right. split; lra. Qed.
Lemma turn_small (k : Z) x lon : -180 <= x <= 180 -> -180 <= lon <= 180 -> Rabs (x + 360 * IZR k - lon) < 90 -> k = (-1)%Z \/ k = 0%Z \/ k = 1%Z.
Proof.
  intros Hx Hl H. apply Rabs_def2 in H as [H1 H2]. assert (A : -2 < IZR k < 2) by lra. destruct A as [A B]. apply lt_IZR in A, B. lia.
Qed.
Lemma ptp_spec l : forall x y, In x l -> In y l -> x - y <= ptp l.
Proof.
  destruct l as [| a l]; [intros x y []|]. intros x y Hx Hy. unfold ptp. pose proof (proj2 (Region_more.rmax_spec l a) x Hx). pose proof (proj2 (Region_more.rmin_spec l a) y Hy). lra.
Qed.
Lemma ptp_attained l : l <> [] -> exists x y, In x l /\ In y l /\ ptp l = x - y.
Proof.
  destruct l as [| a l]; [congruence |]. intros _. exists (Region_model.rmax a l), (Region_model.rmin a l).
  split; [apply Region_more.rmax_spec |]. split; [apply Region_more.rmin_spec | reflexivity].
Qed.

Section Unwrap.
Variables (lon : R) (l : list R).
Hypothesis Hlon : -180 <= lon <= 180.
Hypothesis near : forall x, In x l -> -180 <= x <= 180 /\ exists k : Z, Rabs (x + 360 * IZR k - lon) < 90.
(** Not wrapped. *)
Lemma together : ~ 180 < ptp l -> forall x y, In x l -> In y l -> Rabs (x - y) < 180.
Proof.
  intros N x y Hx Hy. destruct (near x Hx) as (Bx & kx & Kx). destruct (near y Hy) as (By & ky & Ky).
  pose proof (ptp_spec l x y Hx Hy). pose proof (ptp_spec l y x Hy Hx).
  apply Rabs_def2 in Kx as [K1 K2]. apply Rabs_def2 in Ky as [K3 K4].
  destruct (Z.eq_dec kx ky) as [-> | D]; [apply Rabs_def1; lra |].
  assert (E : (kx - ky >= 1)%Z \/ (ky - kx >= 1)%Z) by lia. exfalso.
  destruct E as [E | E]; apply Z.ge_le, IZR_le in E; rewrite minus_IZR in E; lra.
Qed.
(** Wrapped. *)
Lemma far_side : 180 < ptp l -> 90 < Rabs lon.
Proof.
  intros W. destruct l as [| a r] eqn:E; [cbn in W; lra |]. destruct (ptp_attained (a :: r)) as (x & y & Hx & Hy & D); [discriminate |].
  rewrite D in W. destruct (near x) as (Bx & kx & Kx); [rewrite ?E; exact Hx |]. destruct (near y) as (By & ky & Ky); [rewrite ?E; exact Hy |].
  pose proof (turn_small kx x lon Bx Hlon Kx) as Tx. pose proof (turn_small ky y lon By Hlon Ky) as Ty. apply Rabs_def2 in Kx as [K1 K2]. apply Rabs_def2 in Ky as [K3 K4].
  destruct (Rle_dec 0 lon); [rewrite Rabs_pos_eq by lra | rewrite Rabs_left by lra];
  destruct Tx as [-> | [-> | ->]]; destruct Ty as [-> | [-> | ->]]; lra.
Qed.
Lemma unwrapped x : 180 < ptp l -> In x l -> Rabs (unwrap lon x - lon) < 90 /\ exists k : Z, unwrap lon x = x + 360 * IZR k.
Proof.
  intros W Hx. pose proof (far_side W) as F. destruct (near x Hx) as (Bx & k & K). pose proof (turn_small k x lon Bx Hlon K) as T.
  apply Rabs_def2 in K as [K1 K2]. unfold unwrap.
  destruct (sign_cases lon) as [[Sl El] | [[Sl El] | [Sl El]]]; [rewrite Rabs_pos_eq in F by lra | rewrite Rabs_left in F by lra | subst lon; rewrite Rabs_R0 in F; lra];
  rewrite El; destruct (sign_cases x) as [[Sx Ex] | [[Sx Ex] | [Sx Ex]]]; rewrite Ex; destruct (Req_EM_T _ _) as [Q | Q]; try lra;
  (split; [apply Rabs_def1; destruct T as [-> | [-> | ->]]; lra |]);
  first [exists 0%Z; lra | exists 1%Z; lra | exists (-1)%Z; lra].
Qed.
End Unwrap.

(** The outline. *)
Section Shape.
Variable radius : R.
Variable fwd : R -> R -> R -> R -> R * R.
Variable cut : list point -> R -> list (list point).
Variable centroid : list point -> R.
Variable elevations : R -> R -> R -> list R.
Hypothesis pos : 0 < radius.
Hypothesis good : solves radius fwd.
Hypothesis cutting : cuts cut centroid.

Lemma map_drawn (f : R * R -> point) vs : (forall v, In v vs -> drawn (f v) v) -> Forall2 drawn (map f vs) vs.
Proof. induction vs as [| v vs IH]; intros H; constructor; [apply H; left; reflexivity | apply IH; intros w Hw; apply H; right; exact Hw]. Qed.
Lemma map_related {A B} (f : A -> B) (P : B -> A -> Prop) l : (forall x, In x l -> P (f x) x) -> Forall2 P (map f l) l.
Proof. induction l as [| x l IH]; intros H; constructor; [apply H; left; reflexivity | apply IH; intros w Hw; apply H; right; exact Hw]. Qed.

Lemma part_ok lon poly part : 90 < Rabs lon -> -180 <= lon <= 180 -> (forall p, In p poly -> Rabs (p_lon p - lon) < 90) -> In part (cut poly (180 * sign lon)) ->
  let part' := if Rlt_dec 180 (Rabs (centroid part)) then map lon_flip part else part in
  Forall2 moved part' part /\ (forall p, In p part' -> -180 <= p_lon p <= 180) /\ (forall p q, In p part' -> In q part' -> Rabs (p_lon p - p_lon q) <= 180).
Proof.
  intros F B N I. destruct (cutting poly (180 * sign lon) part I) as (Side & Bnd).
  destruct (Bnd (lon - 90) (lon + 90)) as (Bp & Bc). { intros p Hp. specialize (N p Hp). apply Rabs_def2 in N. lra. }
  assert (Cases : (0 < lon /\ sign lon = 1 /\ 90 < lon) \/ (lon < 0 /\ sign lon = -1 /\ lon < -90)).
  { destruct (sign_cases lon) as [[Sl El] | [[Sl El] | [Sl El]]]; [rewrite Rabs_pos_eq in F by lra | rewrite Rabs_left in F by lra | subst lon; rewrite Rabs_R0 in F; lra]; [left | right]; repeat split; auto; lra. }
  assert (Id : Forall2 moved part part) by (clear; induction part; constructor; [reflexivity | assumption]).
  destruct Cases as [(L1 & L2 & L3) | (L1 & L2 & L3)]; rewrite L2 in Side; cbv zeta; destruct Side as [[S1 S2] | [S1 S2]].
  - destruct (Rlt_dec 180 (Rabs (centroid part))) as [W | W]; [rewrite Rabs_pos_eq in W; lra |]. split; [exact Id |].
    split; [intros p Hp; specialize (Bp p Hp); specialize (S1 p Hp); lra |]. intros p q Hp Hq. pose proof (Bp p Hp). pose proof (Bp q Hq). apply Rabs_le. lra.
  - destruct (Rlt_dec 180 (Rabs (centroid part))) as [W | W]; [| exfalso; apply W; rewrite Rabs_pos_eq; lra].
    assert (G : forall p, In p part -> p_lon (lon_flip p) = p_lon p - 360).
    { intros p Hp. specialize (S1 p Hp). unfold lon_flip. cbn [p_lon]. destruct (Rle_dec 180 (Rabs (p_lon p))) as [Q | Q]; [| exfalso; apply Q; rewrite Rabs_pos_eq; lra].
      destruct (sign_cases (p_lon p)) as [[? ->] | [[? ?] | [? ?]]]; lra. }
    split.
    + apply map_related. intros p Hp. unfold moved. rewrite (G p Hp). cbn [lon_flip p_lat]. replace (p_lon p - 360) with (p_lon p + 360 * IZR (-1)) by (rewrite ?opp_IZR; lra). apply place_turns.
    + split; [intros p Hp; apply in_map_iff in Hp as (p0 & <- & Hp0); rewrite (G p0 Hp0); specialize (Bp p0 Hp0); specialize (S1 p0 Hp0); lra |].
      intros p q Hp Hq. apply in_map_iff in Hp as (p0 & <- & Hp0). apply in_map_iff in Hq as (q0 & <- & Hq0). rewrite (G p0 Hp0), (G q0 Hq0). pose proof (Bp p0 Hp0). pose proof (Bp q0 Hq0). apply Rabs_le. lra.
  - destruct (Rlt_dec 180 (Rabs (centroid part))) as [W | W]; [| exfalso; apply W; rewrite Rabs_left; lra].
    assert (G : forall p, In p part -> p_lon (lon_flip p) = p_lon p + 360).
    { intros p Hp. specialize (S1 p Hp). unfold lon_flip. cbn [p_lon]. destruct (Rle_dec 180 (Rabs (p_lon p))) as [Q | Q]; [| exfalso; apply Q; rewrite Rabs_left; lra].
      destruct (sign_cases (p_lon p)) as [[? ?] | [[? ->] | [? ?]]]; lra. }
    split.
    + apply map_related. intros p Hp. unfold moved. rewrite (G p Hp). cbn [lon_flip p_lat]. replace (p_lon p + 360) with (p_lon p + 360 * IZR 1) by lra. apply place_turns.
    + split; [intros p Hp; apply in_map_iff in Hp as (p0 & <- & Hp0); rewrite (G p0 Hp0); specialize (Bp p0 Hp0); specialize (S1 p0 Hp0); lra |].
      intros p q Hp Hq. apply in_map_iff in Hp as (p0 & <- & Hp0). apply in_map_iff in Hq as (q0 & <- & Hq0). rewrite (G p0 Hp0), (G q0 Hq0). pose proof (Bp p0 Hp0). pose proof (Bp q0 Hq0). apply Rabs_le. lra.
  - destruct (Rlt_dec 180 (Rabs (centroid part))) as [W | W]; [rewrite Rabs_left in W; lra |]. split; [exact Id |].
    split; [intros p Hp; specialize (Bp p Hp); specialize (S1 p Hp); lra |]. intros p q Hp Hq. pose proof (Bp p Hp). pose proof (Bp q Hq). apply Rabs_le. lra.
Qed.

Lemma contiguous n m initial measured : let e := chosen m initial measured in proper e -> clear_of_poles radius e ->
  match to_geoseries fwd cut centroid elevations n true m initial measured with
  | Whole poly => Forall2 drawn poly (vertices fwd n e) /\ (forall p q, In p poly -> In q poly -> Rabs (p_lon p - p_lon q) < 180)
  | Parts parts => exists poly antimeridian, Rabs antimeridian = 180 /\
      Forall2 drawn poly (vertices fwd n e) /\ (forall p, In p poly -> Rabs (p_lon p - e_lon e) < 90) /\
      Forall2 (fun part piece => Forall2 moved part piece /\ (forall p, In p part -> -180 <= p_lon p <= 180) /\
                                 (forall p q, In p part -> In q part -> Rabs (p_lon p - p_lon q) <= 180))
        parts (cut poly antimeridian)
  end.
Proof.
  intros e Pr Cl. unfold to_geoseries. fold e. set (vs := vertices fwd n e). cbn [andb].
  assert (Near : forall x, In x (map fst vs) -> -180 <= x <= 180 /\ exists k : Z, Rabs (x + 360 * IZR k - e_lon e) < 90).
  { intros x Hx. apply in_map_iff in Hx as (v & <- & Hv). exact (vertex_near radius fwd pos good n e v Pr Cl Hv). }
  destruct Pr as (_ & _ & Hlon). destruct (Rlt_dec 180 (ptp (map fst vs))) as [W | W].
  - pose proof (far_side (e_lon e) (map fst vs) Hlon Near W) as F.
    set (poly := map _ vs). exists poly, (180 * sign (e_lon e)).
    split. { destruct (sign_cases (e_lon e)) as [[Sl El] | [[Sl El] | [Sl El]]].
      - rewrite El, Rabs_pos_eq; lra.
      - rewrite El, Rabs_left; lra.
      - exfalso. rewrite Sl, Rabs_R0 in F. lra. }
    assert (U : forall p, In p poly -> Rabs (p_lon p - e_lon e) < 90).
    { intros p Hp. apply in_map_iff in Hp as (v & <- & Hv). cbn [p_lon]. apply (unwrapped (e_lon e) (map fst vs) Hlon Near (fst v) W). apply in_map, Hv. }
    split. { apply map_drawn. intros v Hv. unfold drawn. cbn [p_lon p_lat]. destruct (unwrapped (e_lon e) (map fst vs) Hlon Near (fst v) W (in_map fst _ _ Hv)) as (_ & k & ->). apply place_turns. }
    split; [exact U |]. apply map_related. intros part Hpart. apply (part_ok (e_lon e) poly part F Hlon U Hpart).
  - split; [apply map_drawn; reflexivity |]. intros p q Hp Hq. apply in_map_iff in Hp as (v & <- & Hv). apply in_map_iff in Hq as (w & <- & Hw). cbn [p_lon].
    apply (together (e_lon e) (map fst vs) Near W); apply in_map; assumption.
Qed.

Lemma whole_points n sp m initial measured : let e := chosen m initial measured in
  (sp = false \/ ptp (map fst (vertices fwd n e)) <= 180) ->
  elevations (e_lon e) (e_lat e) (e_radius e) <> [] ->
  exists z, highest (elevations (e_lon e) (e_lat e) (e_radius e)) z /\
    to_geoseries fwd cut centroid elevations n sp m initial measured = Whole (map (fun v => mk_point (fst v) (snd v) (Some z)) (vertices fwd n e)).
Proof.
  intros e H E. exists (top elevations e). split.
  - unfold top. destruct (elevations _ _ _) as [| x l]; [congruence |]. split; apply Region_more.rmax_spec.
  - unfold to_geoseries. fold e. destruct (Rlt_dec 180 (ptp (map fst (vertices fwd n e)))) as [W | W]; [destruct H as [-> | H]; [reflexivity | lra] |].
    rewrite Bool.andb_false_r. reflexivity.
Qed.

(** A part beyond the antimeridian. *)
Lemma far_part_flat n m initial measured : let e := chosen m initial measured in
  180 < ptp (map fst (vertices fwd n e)) ->
  exists poly antimeridian parts, to_geoseries fwd cut centroid elevations n true m initial measured = Parts parts /\
    Forall2 (fun part piece => 180 < Rabs (centroid piece) -> forall p, In p part -> p_z p = None) parts (cut poly antimeridian).
Proof.
  intros e W. unfold to_geoseries. fold e. cbn [andb]. destruct (Rlt_dec 180 (ptp (map fst (vertices fwd n e)))) as [_ | N]; [| contradiction].
  eexists _, _, _. split; [reflexivity |]. apply map_related. intros part _ C p Hp. destruct (Rlt_dec 180 (Rabs (centroid part))); [| contradiction].
  apply in_map_iff in Hp as (q & <- & _). reflexivity.
Qed.

(** A centre on the prime meridian. *)
Lemma prime n m initial measured : let e := chosen m initial measured in
  180 < ptp (map fst (vertices fwd n e)) -> e_lon e = 0 ->
  exists z parts, to_geoseries fwd cut centroid elevations n true m initial measured = Parts parts /\
    (parts = map (fun p => if Rlt_dec 180 (Rabs (centroid p)) then map lon_flip p else p) (cut (map (fun v => mk_point (fst v) (snd v) (Some z)) (vertices fwd n e)) 0)).
Proof.
  intros e W L. unfold to_geoseries. fold e. cbn [andb]. destruct (Rlt_dec 180 (ptp (map fst (vertices fwd n e)))) as [_ | N]; [| contradiction].
  exists (top elevations e). eexists. split; [reflexivity |]. rewrite L. assert (Z : sign 0 = 0) by (unfold sign; destruct (Rlt_dec 0 0); [lra | reflexivity]).
  rewrite Z, Rmult_0_r. f_equal. f_equal. apply map_ext. intros v. unfold unwrap. rewrite Z, Rmult_0_r, Rplus_0_r. destruct (Req_EM_T _ _); reflexivity.
Qed.

(** A circle around a pole: every vertex has the same latitude. *)
Lemma pole_flat n e v : proper e -> e_lat e = 90 -> e_a e = e_b e -> In v (vertices fwd n e) -> sin (rad (snd v)) = cos (e_a e / radius).
Proof.
  intros (Hab & Hl & Hlon) L C I. unfold vertices in I. apply in_map_iff in I as (theta & <- & _).
  destruct (fwd_spec radius fwd good (e_lon e) (e_lat e) (theta + fmod (e_phi e) 360) (polar (e_a e) (e_b e) theta) Hl) as (_ & _ & P).
  assert (Pa : polar (e_a e) (e_b e) theta = e_a e) by (pose proof (polar_bounds (e_a e) (e_b e) theta Hab); lra).
  rewrite Pa in *. set (w := fwd _ _ _ _) in *. clearbody w. rewrite L in P. unfold place, reached, direction, north, east, add, scale in P. injection P as _ _ P.
  replace (rad 90) with (PI / 2) in P by (unfold rad; field). rewrite sin_PI2, cos_PI2 in P. lra.
Qed.
End Shape.
