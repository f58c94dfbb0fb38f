From Coq Require Import Reals ZArith List Lra Lia Psatz.
From Verif Require Import Common Hires_model Hires_rings Hires_grid Arb_model Arb_spec Arb_geom Arb_grid Arb_rows Arb_cover Arb_sep Arb_count.
Import ListNotations.
Open Scope R_scope.

Lemma Int_part_spec x z : IZR z <= x < IZR z + 1 -> Int_part x = z.
Proof. intros [A B]. unfold Int_part. rewrite <- (tech_up x (z + 1)); [lia| |]; rewrite plus_IZR; lra. Qed.
Lemma round_spec x z : Rabs (x - IZR z) < / 2 -> round x = z.
Proof.
  intro H. assert (- / 2 < x - IZR z < / 2) by (unfold Rabs in H; destruct (Rcase_abs _); lra).
  unfold round. destruct (Rle_dec (IZR z) x) as [L|L].
  - rewrite (Int_part_spec x z) by lra. destruct (Rlt_dec _ _); [reflexivity|exfalso; apply n; lra].
  - assert (E : Int_part x = (z - 1)%Z) by (apply Int_part_spec; rewrite minus_IZR; lra). rewrite E, minus_IZR.
    destruct (Rlt_dec (x - (IZR z - 1)) (1 / 2)); [exfalso; lra|]. destruct (Rlt_dec (1 / 2) (x - (IZR z - 1))); [lia|exfalso; lra].
Qed.

Lemma ratio_sq pix radius : 0 < pix -> 0 < radius -> 4 * PI / (pix / radius) ^ 2 = 4 * PI * radius ^ 2 / pix ^ 2.
Proof. intros. field. lra. Qed.
Lemma fine_spec pix radius : fine pix radius -> 0 < pix / radius /\ (8 <= number (pix / radius))%Z.
Proof.
  intros (A & B & C). split; [apply Rdiv_lt_0_compat; assumption|]. unfold number.
  rewrite ratio_sq by assumption. destruct (base_Int_part (4 * PI * radius ^ 2 / pix ^ 2)) as [_ U].
  assert (P2 : 0 < pix ^ 2) by (apply pow_lt; exact A).
  assert (X : 8 <= 4 * PI * radius ^ 2 / pix ^ 2).
  { apply Rmult_le_reg_r with (pix ^ 2); [exact P2|]. replace (4 * PI * radius ^ 2 / pix ^ 2 * pix ^ 2) with (4 * PI * radius ^ 2) by (field; lra). lra. }
  assert (7 < IZR (Int_part (4 * PI * radius ^ 2 / pix ^ 2))) by lra. apply (lt_IZR 7) in H. lia.
Qed.
Lemma generated pix radius : fine pix radius -> exists mid j,
  keys (pix / radius) = ((0%nat, 0%nat) :: mid ++ [((rings (pix / radius) - 1)%nat, j)])%list /\
  generate pix radius = Ok ((0, 0, 1) :: map (placed (pix / radius)) mid ++ [(0, 0, -1)])%list.
Proof.
  intro Fi. destruct (fine_spec _ _ Fi) as [A B]. destruct (keys_ends _ A B) as (mid & j & K). exists mid, j. split; [exact K|].
  unfold generate. exact (points_eq _ A B mid j K).
Qed.
Lemma gen_ok pix radius : fine pix radius -> exists pts, generate pix radius = Ok pts.
Proof. intro Fi. destruct (generated _ _ Fi) as (mid & j & _ & E). eauto. Qed.
Lemma gen_cover pix radius pts : fine pix radius -> generate pix radius = Ok pts -> covers (1.8 * (pix / radius)) pts.
Proof.
  intros Fi G. destruct (fine_spec _ _ Fi) as [A B]. destruct (generated _ _ Fi) as (mid & j & K & E). rewrite G in E. injection E as ->.
  exact (cover_points _ A B mid j K).
Qed.
Lemma gen_apart pix radius pts : fine pix radius -> generate pix radius = Ok pts -> apart (0.09 * (pix / radius)) pts.
Proof.
  intros Fi G. destruct (fine_spec _ _ Fi) as [A B]. destruct (generated _ _ Fi) as (mid & j & K & E). rewrite G in E. injection E as ->.
  exact (apart_points _ A B mid j K).
Qed.
Lemma gen_count pix radius pts : fine pix radius -> generate pix radius = Ok pts ->
  Rabs (INR (List.length pts) - IZR (Int_part (4 * PI * radius ^ 2 / pix ^ 2))) <= sqrt (4 * PI * radius ^ 2 / pix ^ 2) / 2 + 3 / 2.
Proof.
  intros Fi G. destruct (fine_spec _ _ Fi) as [A B]. destruct (generated _ _ Fi) as (mid & j & K & E). rewrite G in E. injection E as ->.
  pose proof (count _ A B) as C. rewrite K in C. destruct Fi as (P & Q & _).
  destruct (n_spec _ B) as [[L _] _]. unfold number in *. rewrite ratio_sq in * by assumption.
  cbn [List.length] in *. rewrite app_length, ?map_length in *. cbn [List.length] in *.
  eapply Rle_trans; [exact C|]. pose proof (sqrt_le_1_alt _ _ L). lra.
Qed.
Lemma sph_on p : on_sphere (mirror (sph2cart p)).
Proof.
  destruct p as [t f]. unfold on_sphere, mirror, sph2cart. pose proof (cs t). pose proof (cs f). rewrite !Rpow_mult_distr, H, H0. ring.
Qed.
Lemma gen_sphere pix radius pts : fine pix radius -> generate pix radius = Ok pts ->
  forall p, In p pts -> exists u, on_sphere u /\ dist p u <= 0.139 * (pix / radius).
Proof.
  intros Fi G p I. destruct (fine_spec _ _ Fi) as [A B]. destruct (generated _ _ Fi) as (mid & j & K & E). rewrite G in E. injection E as ->.
  assert (Z : forall u, dist u u = 0). { intros [[x y] z]. unfold dist. replace ((x - x) ^ 2 + (y - y) ^ 2 + (z - z) ^ 2) with 0 by ring. apply sqrt_0. }
  destruct I as [<-|I]; [|apply in_app_iff in I as [I|[<-|[]]]].
  - exists (0, 0, 1). split; [unfold on_sphere; ring|]. rewrite Z. lra.
  - apply in_map_iff in I as (q & <- & _). exists (mirror (sph2cart (at_key (pix / radius) q))). split; [apply sph_on|]. apply round_vec_near. exact A.
  - exists (0, 0, -1). split; [unfold on_sphere; ring|]. rewrite Z. lra.
Qed.
Lemma gen_poles pix radius pts : fine pix radius -> generate pix radius = Ok pts ->
  nth 0 pts (0, 0, 0) = (0, 0, 1) /\ nth (List.length pts - 1) pts (0, 0, 0) = (0, 0, -1).
Proof.
  intros Fi G. destruct (generated _ _ Fi) as (mid & j & K & E). rewrite G in E. injection E as ->. split; [reflexivity|].
  rewrite app_comm_cons. rewrite app_length. cbn [List.length]. rewrite app_nth2; cbn [List.length]; [|lia].
  replace (S (List.length (map (placed (pix / radius)) mid)) + 1 - 1 - S (List.length (map (placed (pix / radius)) mid)))%nat with 0%nat by lia. reflexivity.
Qed.

(** Meshes that are too coarse. *)
Lemma too_coarse pix radius : 0 < pix -> 0 < radius -> 4 * PI * radius ^ 2 < pix ^ 2 -> generate pix radius = Err TypeError.
Proof.
  intros A B C. unfold generate, distribute_points, angles. destruct (Z_lt_dec _ _) as [L|L]; [reflexivity|]. exfalso. apply L. clear L.
  unfold number. rewrite ratio_sq by assumption. pose proof PI_lo. assert (P2 : 0 < pix ^ 2) by (apply pow_lt; exact A).
  assert (X : 0 <= 4 * PI * radius ^ 2 / pix ^ 2 < 1).
  { split; [apply Rmult_le_pos; [nra|apply Rlt_le, Rinv_0_lt_compat; exact P2]|].
    apply Rmult_lt_reg_r with (pix ^ 2); [exact P2|]. replace (4 * PI * radius ^ 2 / pix ^ 2 * pix ^ 2) with (4 * PI * radius ^ 2) by (field; lra). lra. }
  rewrite (Int_part_spec _ 0) by lra. lia.
Qed.
Lemma one_face pix radius : 0 < pix -> 0 < radius -> 2 * PI * radius ^ 2 < pix ^ 2 <= 4 * PI * radius ^ 2 -> generate pix radius = Err ValueError.
Proof.
  intros A B [C D]. pose proof PI_lo as PL. pose proof PI_hi as PH. assert (P2 : 0 < pix ^ 2) by (apply pow_lt; exact A).
  set (x := pix / radius). assert (N1 : number x = 1%Z).
  { unfold number, x. rewrite ratio_sq by assumption. apply Int_part_spec.
    assert (E : 4 * PI * radius ^ 2 / pix ^ 2 * pix ^ 2 = 4 * PI * radius ^ 2) by (field; lra).
    split; [apply Rmult_le_reg_r with (pix ^ 2)|apply Rmult_lt_reg_r with (pix ^ 2)]; try exact P2; rewrite E; lra. }
  assert (AR : area x = 4 * PI) by (unfold area; rewrite N1; field).
  assert (MT : mtheta x = 1%Z).
  { unfold mtheta. rewrite AR. apply round_spec. set (s := sqrt (4 * PI)). assert (S2 : s * s = 4 * PI) by (apply sqrt_sqrt; lra). assert (SP : 0 < s) by (apply sqrt_lt_R0; lra).
    assert (E : PI / s = s / 4) by (replace PI with (s * s / 4) by lra; field; lra). rewrite E.
    assert (3 < s < 4) by (split; nra). apply Rabs_def1; lra. }
  assert (DT : dtheta x = PI) by (unfold dtheta; rewrite MT; field).
  assert (DH : dphi x = 4) by (unfold dphi; rewrite DT, AR; field; lra).
  assert (TH : thetavals x = [PI / 2]).
  { unfold thetavals. rewrite MT. cbn [Z.to_nat Pos.to_nat Pos.iter_op seq map filter INR].
    replace (PI * (0 + 0.5) / 1) with (PI / 2) by lra. change (Pos.to_nat 1) with 1%nat. cbn [seq map filter INR].
    replace (PI * (0 + 0.5) / 1) with (PI / 2) by lra. rewrite in_range_true; [reflexivity|].
    split; [replace (-90 * (PI / 180) + PI / 2) with 0 by field; lra|replace (90 * (PI / 180) + PI / 2) with PI by field; lra]. }
  assert (MP : mphi x (PI / 2) = 2%Z).
  { unfold mphi. rewrite DH, sin_PI2, Rmult_1_r. rewrite (round_spec _ 2); [reflexivity|]. apply Rabs_def1; lra. }
  assert (PV : phivals x (PI / 2) = [0; PI]).
  { unfold phivals. rewrite MP. change (Z.to_nat 2) with 2%nat. cbn [seq map INR].
    replace (2 * PI * 0 / 2) with 0 by field. replace (2 * PI * 1 / 2) with PI by field. cbn [filter].
    replace (-180 * (PI / 180) + PI) with 0 by field. replace (180 * (PI / 180) + PI) with (2 * PI) by field.
    rewrite !in_range_true by lra. reflexivity. }
  unfold generate, distribute_points, angles. fold x. rewrite N1. destruct (Z_lt_dec 1 1) as [L|_]; [lia|].
  rewrite TH. cbn [map]. rewrite PV. cbn [map List.concat List.app sph2cart coordinate_rows fst snd].
  rewrite sin_PI2, cos_PI2, cos_0, sin_0, cos_PI, sin_PI, !Rmult_0_r.
  set (rd := round_to (decimals x)). cbn [unique fold_right]. cbn [insert_row].
  assert (LE : lex [rd 0; rd 0] [rd 0; rd 0] = Eq).
  { cbn. destruct (total_order_T (rd 0) (rd 0)) as [[H|_]|H]; [lra| |lra]. reflexivity. }
  rewrite ?LE. cbn [insert_row]. destruct (lex [rd (1 * 1); rd (1 * -1)] [rd 0; rd 0]); reflexivity.
Qed.

Lemma coarse pix radius : 0 < pix -> 0 < radius -> 2 * PI * radius ^ 2 < pix ^ 2 ->
  set_pix radius (Some pix) = Ok pix /\
  generate pix radius = Err (if Rlt_dec (4 * PI * radius ^ 2) (pix ^ 2) then TypeError else ValueError).
Proof.
  intros A B C. split; [unfold set_pix; destruct (Rle_dec pix 0); [lra|reflexivity]|].
  destruct (Rlt_dec _ _); [apply too_coarse; assumption|apply one_face; try assumption; lra].
Qed.

(** The default mesh. *)
Lemma default_pix radius : 0 < radius -> exists pix, set_pix radius None = Ok pix /\ fine pix radius /\ 4 * PI * radius ^ 2 / pix ^ 2 = 1000000.
Proof.
  intro P. eexists. split; [reflexivity|]. pose proof PI_lo. pose proof PI_hi. assert (P2 : 0 < radius ^ 2) by (apply pow_lt; exact P).
  set (a := 4 * PI * radius ^ 2). assert (AP : 0 < a) by (unfold a; nra). set (s := sqrt a). assert (SP : 0 < s) by (apply sqrt_lt_R0; exact AP).
  assert (S2 : s ^ 2 = a) by (simpl; rewrite Rmult_1_r; apply sqrt_sqrt; lra).
  split.
  - split; [lra|]. split; [exact P|]. replace (2 * (s * 1e-3) ^ 2) with (2e-6 * s ^ 2) by lra. rewrite S2. unfold a. nra.
  - replace ((s * 1e-3) ^ 2) with (1e-6 * s ^ 2) by lra. rewrite S2. field. lra.
Qed.
Lemma default_count radius pix pts : 0 < radius -> set_pix radius None = Ok pix -> generate pix radius = Ok pts ->
  Rabs (INR (List.length pts) - 1000000) <= 501.5.
Proof.
  intros P E G. destruct (default_pix radius P) as (pix' & E' & Fi & N). rewrite E in E'. injection E' as <-.
  pose proof (gen_count _ _ _ Fi G) as C. rewrite N in C. rewrite (Int_part_spec _ 1000000) in C by lra.
  replace 1000000 with (1000 ^ 2) in C at 2 by ring. rewrite sqrt_pow2 in C by lra. lra.
Qed.
Lemma pix_accepts radius v : (exists p, set_pix radius (Some v) = Ok p) <-> 0 < v.
Proof.
  unfold set_pix. destruct (Rle_dec v 0) as [L|L]; split.
  - intros [p E]. discriminate.
  - lra.
  - lra.
  - eauto.
Qed.

(** The icosphere. *)
Lemma faces_pos g : 0 < 10 * 4 ^ g + 2.
Proof. pose proof (pow_lt 4 g ltac:(lra)). lra. Qed.
Definition fresh (radius : R) (g : Z) : icosphere := mkIco radius g None.
Lemma ico_area radius g : 0 < radius -> (10 * 4 ^ Z.to_nat g + 2) * fst (ico_pix (fresh radius g)) ^ 2 = 4 * PI * radius ^ 2.
Proof.
  intro P. cbn [ico_pix fresh i_pix fst i_radius i_level]. pose proof (faces_pos (Z.to_nat g)) as FP. pose proof PI_lo.
  set (f := 10 * 4 ^ Z.to_nat g + 2) in *. rewrite pow2_sqrt.
  - field. lra.
  - apply Rmult_le_pos; [nra|apply Rlt_le, Rinv_0_lt_compat; exact FP].
Qed.
Lemma ico_halves radius g : 0 < radius -> (0 <= g)%Z ->
  let p := fst (ico_pix (fresh radius g)) in let q := fst (ico_pix (fresh radius (g + 1))) in / 2 * p < q <= 0.535 * p.
Proof.
  intros P G. cbn zeta. pose proof (ico_area radius g P) as E1. pose proof (ico_area radius (g + 1) P) as E2.
  assert (P0 : forall z, 0 < fst (ico_pix (fresh radius z))).
  { intro z. cbn [ico_pix fresh i_pix fst i_radius i_level]. apply sqrt_lt_R0. pose proof PI_lo. apply Rdiv_lt_0_compat; [|apply faces_pos]. pose proof (pow_lt radius 2 P). nra. }
  pose proof (P0 g) as P1. pose proof (P0 (g + 1)%Z) as P2.
  set (p := fst (ico_pix (fresh radius g))) in *. set (q := fst (ico_pix (fresh radius (g + 1)))) in *.
  replace (Z.to_nat (g + 1)) with (S (Z.to_nat g)) in E2 by lia. rewrite <- E1 in E2. rewrite <- tech_pow_Rmult in E2.
  assert (W : 1 <= 4 ^ Z.to_nat g) by (apply pow_R1_Rle; lra). set (w := 4 ^ Z.to_nat g) in *.
  clear E1. clearbody w p q. assert (E3 : (10 * (4 * w) + 2) * (q * q) = (10 * w + 2) * (p * p)) by (rewrite <- (Rmult_1_r (q * q)), <- (Rmult_1_r (p * p)), !Rmult_assoc in *; simpl in E2; lra). clear E2.
  split.
  - apply Rsqr_incrst_0; [unfold Rsqr|lra|lra]. nra.
  - apply Rsqr_incr_0_var; [unfold Rsqr|lra]. nra.
Qed.
Lemma level_set s v s' : set_gridlevel v s = Ok s' -> 0 <= v /\ IZR (i_level s') <= v < IZR (i_level s') + 1 /\ (0 <= i_level s')%Z.
Proof.
  unfold set_gridlevel. destruct (Rlt_dec v 0) as [L|L]; [discriminate|]. intro E. injection E as <-. cbn.
  unfold py_int. destruct (Rlt_dec v 0); [contradiction|]. destruct (base_Int_part v) as [A B]. split; [lra|]. split; [lra|].
  assert (-1 < IZR (Int_part v)) by lra. apply (lt_IZR (-1)) in H. lia.
Qed.
Lemma level_stale : exists s s', set_gridlevel 5 (snd (ico_pix (fresh 1 4))) = Ok s' /\ s = fresh 1 4 /\
  i_level s' = 5%Z /\ fst (ico_pix s') = fst (ico_pix (fresh 1 4)) /\ fst (ico_pix s') <> fst (ico_pix (fresh 1 5)).
Proof.
  exists (fresh 1 4). eexists. split; [unfold set_gridlevel; destruct (Rlt_dec 5 0); [lra|reflexivity]|].
  split; [reflexivity|]. split.
  - cbn. unfold py_int. destruct (Rlt_dec 5 0); [lra|]. apply Int_part_spec. lra.
  - split; [reflexivity|]. intro E. destruct (ico_halves 1 4 ltac:(lra) ltac:(lia)) as [_ H].
    change (fst (ico_pix (fresh 1 4)) = fst (ico_pix (fresh 1 5))) in E. change (4 + 1)%Z with 5%Z in H. rewrite <- E in H.
    assert (P0 : 0 < fst (ico_pix (fresh 1 4))).
    { cbn [ico_pix fresh i_pix fst i_radius i_level]. apply sqrt_lt_R0. pose proof PI_lo. apply Rdiv_lt_0_compat; [lra|apply faces_pos]. }
    lra.
Qed.
