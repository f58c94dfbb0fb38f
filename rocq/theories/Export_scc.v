(** SCC files. *)
From Coq Require Import Reals NArith Lra.
From Verif Require Import Common Sorting Conf_model Crater_model Crater_spec Crater_proofs Export_model Export_spec.
Open Scope R_scope.

Section S.
Context {dataset : Type} (fx : dataset -> option Z -> result (list crater)).
Context (dist : R * R -> R * R -> R) (overlap : (R * R) * R -> crater -> R).
Notation scc_rows := (scc_rows dataset dist overlap).

Lemma only_map' cs : only_craters dataset (map Some cs) = Ok (map ICrater cs).
Proof. induction cs as [|c cs IH]; [reflexivity|]. cbn [map only_craters]. rewrite IH. reflexivity. Qed.

Lemma row_listed region c : listable c -> exists l, scc_row dataset dist overlap region (ICrater c) = Ok l /\ lists c l /\
  (region = None -> s_frac l = 1) /\
  (forall loc rad p r, region = Some (loc, rad) -> f_loc (fixed c) = Some p -> measured_radius (vars c) = Some r ->
     s_frac l = if Rlt_dec rad (dist loc p + r) then overlap (loc, rad) c else 1).
Proof.
  intros (M & m & EM & Em & P & L & V). destruct (f_loc (fixed c)) as [p|] eqn:EL; [|congruence].
  destruct (v_loc (vars c)) as [[lon lat]|] eqn:EV; [|congruence].
  unfold scc_row, lists, measured_diameter, measured_radius, overlap_fraction. rewrite EM, Em, EV. cbn [option_map]. destruct region as [[loc rad]|].
  - rewrite EL. unfold measured_radius. rewrite EM, Em. cbn [rbind]. eexists. split; [reflexivity|]. cbn. split; [split; [f_equal; field|reflexivity]|].
    split; [discriminate|]. intros loc' rad' p' r' E E2 E3. injection E as <- <-. injection E2 as <-. injection E3 as <-. reflexivity.
  - cbn [rbind]. eexists. split; [reflexivity|]. cbn. split; [split; [f_equal; field|reflexivity]|]. split; [reflexivity|]. discriminate.
Qed.

Definition row_ok (region : option ((R * R) * R)) (c : crater) (l : scc_line) : Prop :=
  lists c l /\ (region = None -> s_frac l = 1) /\
  (forall loc rad p r, region = Some (loc, rad) -> f_loc (fixed c) = Some p -> measured_radius (vars c) = Some r ->
     s_frac l = if Rlt_dec rad (dist loc p + r) then overlap (loc, rad) c else 1).

Lemma rows_listed region cs : Forall listable cs -> exists t, scc_rows region (map ICrater cs) = (t, None) /\ Forall2 (row_ok region) cs t.
Proof.
  induction 1 as [|c cs Lc _ IH]; [exists []; split; [reflexivity|constructor]|]. destruct IH as (t & Q & F).
  destruct (row_listed region c Lc) as (l & E & O). exists (l :: t). cbn [map Export_model.scc_rows]. rewrite E, Q. split; [reflexivity|]. constructor; assumption.
Qed.

Theorem scc_written st region ty i cs file : ty = "observed"%string \/ ty = "emplaced"%string -> Forall listable cs ->
  exists t, to_scc dataset fx dist overlap true st region ty (Some i) (CraterList (map Some cs)) file = (Some t, None) /\ Forall2 (row_ok region) cs t.
Proof.
  intros Ty F. unfold to_scc. assert (E : validate_export dataset fx st ty (Some i) (CraterList (map Some cs)) = Ok (map ICrater cs)).
  { destruct Ty as [-> | ->]; cbn; apply only_map'. }
  rewrite E. destruct (rows_listed region cs F) as (t & Q & G). rewrite Q. exists t. auto.
Qed.

Theorem scc_no_interval go st region ty s file : exists e, to_scc dataset fx dist overlap go st region ty None s file = (file, Some e).
Proof. unfold to_scc. destruct (validate_export _ _ _ _ _ _); eexists; reflexivity. Qed.
End S.

(* ---------- reading ---------- *)
Section Read.
Context (norm_loc : R * R -> R * R)
  (hash : option num -> option R -> option R -> option (R * R) -> option R -> option R ->
          option R -> option R -> option R -> option R -> N)
  (project : option R -> option R -> option R -> option R -> option (R * R) -> option R -> result proj)
  (f2t t2f : R -> R * string) (t2p p2t : R -> R).
Hypothesis U : usable project f2t t2p.

Lemma read_line l : 0 < s_diam l -> exists c, maker norm_loc hash project f2t t2f t2p p2t true None (scc_args l) = Ok c /\
  f_major (fixed c) = Some (s_diam l * 1000 / 2) /\ f_minor (fixed c) = Some (s_diam l * 1000 / 2) /\
  f_loc (fixed c) = Some (s_lon l, s_lat l) /\ v_major (vars c) = Some (s_diam l * 1000 / 2) /\
  v_minor (vars c) = Some (s_diam l * 1000 / 2) /\ v_loc (vars c) = Some (norm_loc (s_lon l, s_lat l)).
Proof.
  intros P. destruct U as [UP US]. destruct (UP (s_lon l, s_lat l)) as (j & EJ & LJ & V & Rho).
  set (d := s_diam l * 1000). assert (Pd : 0 < d) by (unfold d; lra).
  assert (Sq : 2 * sqrt (d / 2 * (d / 2)) = d) by (rewrite sqrt_square by lra; lra).
  destruct (US d Pd) as [Td Pp].
  unfold maker, scc_args. fold d. cbn. unfold compute. cbn. rewrite EJ. cbn. rewrite Sq. destruct (f2t d) as [td mt] eqn:EF. cbn in Td, Pp |- *.
  destruct (Rlt_dec (d / 2) 0); [exfalso; lra|]. destruct (Rlt_dec td 0); [exfalso; lra|].
  destruct (Rlt_dec (t2p td) 0); [exfalso; lra|]. destruct (Rlt_dec (j_v j) 0); [exfalso; lra|].
  destruct (Rlt_dec (j_rho j) 0); [exfalso; lra|]. cbn. unfold finish. cbn. rewrite LJ.
  unfold var_init. cbn. unfold set_major. cbn. destruct (Rle_dec (d / 2) 0); [exfalso; lra|]. cbn.
  unfold set_minor. cbn. destruct (Rle_dec (d / 2) 0); [exfalso; lra|]. destruct (Rgt_dec (d / 2) (d / 2)); [exfalso; lra|]. cbn.
  eexists. split; [reflexivity|]. cbn. repeat split; reflexivity.
Qed.

Lemma read_lists c l : listable c -> lists c l -> exists c', maker norm_loc hash project f2t t2f t2p p2t true None (scc_args l) = Ok c' /\ read_from norm_loc c c'.
Proof.
  intros (M & m & EM & Em & P & _ & _) [D V].
  assert (Pl : 0 < s_diam l).
  { unfold measured_diameter, measured_radius in D. rewrite EM, Em in D. cbn in D. injection D as D.
    assert (0 < sqrt (M * m)) by (apply sqrt_lt_R0; apply Rmult_lt_0_compat; lra). lra. }
  destruct (read_line l Pl) as (c' & E & F1 & F2 & F3 & F4 & F5 & F6). exists c'. split; [exact E|].
  assert (Sq : sqrt (s_diam l * 1000 / 2 * (s_diam l * 1000 / 2)) * 2 = 1000 * s_diam l) by (rewrite sqrt_square by lra; lra).
  unfold read_from, d_diameter, d_radius. rewrite F1, F2, F3, F4, F5, F6, D, V. cbn [option_map]. rewrite Sq.
  repeat split. unfold measured_diameter, measured_radius. rewrite F4, F5. cbn. rewrite Sq. reflexivity.
Qed.

Theorem scc_read cs t : Forall listable cs -> Forall2 lists cs t ->
  exists cs', from_scc (maker norm_loc hash project f2t t2f t2p p2t true None) t = Ok cs' /\ Forall2 (read_from norm_loc) cs cs'.
Proof.
  intros L F. induction F as [|c l cs t Q _ IH]; [exists []; split; [reflexivity|constructor]|]. inversion L; subst.
  destruct IH as (cs' & E & G); [assumption|]. destruct (read_lists c l) as (c' & E1 & R1); [assumption|assumption|].
  exists (c' :: cs'). cbn [from_scc]. rewrite E1. cbn [rbind]. rewrite E. split; [reflexivity|]. constructor; assumption.
Qed.
End Read.
