(** Concrete placements. *)
From Coq Require Import Reals NArith Lra Lia.
From Verif Require Import Common Trig_model Geo_spec Geo_proofs Outline_model Outline_spec Outline_proofs Crater_model Crater_spec Crater_proofs Place_model Place_spec Place_proofs.
Import ListNotations.
Open Scope R_scope.

Definition a_hash := ex_hash.
Definition a_project (v m a d : option R) (l : option (R * R)) (rho : option R) : result proj :=
  Ok (mk_proj 20000 45 90 2000 (match l with Some x => normalize x | None => (10, 20) end)).
Lemma a_keeps : keeps_location a_project.
Proof. intros v m a d l rho j E. injection E as <-. reflexivity. Qed.
Definition a_put := put a_hash a_project ex_f2t ex_t2f ex_one ex_one.
Definition moon := mk_surf 1737400 None.
Definition patch := mk_surf 1737400 (Some (30, -20)).
(** Only a location is given. *)
Definition at_only (l : option (R * R)) : margs := at_location l no_args.
Definition small : margs := at_location None (radius_arg 10 None None).

Lemma norm_10_20 : normalize (10, 20) = (10, 20).
Proof.
  rewrite normalize_inner by lra. unfold modulo. replace ((10 + 180) / 360) with (19 / 36) by field.
  assert (I : Int_part (19 / 36) = 0%Z). { destruct (base_Int_part (19 / 36)) as [A B]. apply Z.le_antisymm; [apply Z.lt_succ_r, lt_IZR; cbn; lra | apply Z.lt_pred_le, lt_IZR; cbn; lra]. }
  rewrite I. f_equal. lra.
Qed.
Local Opaque normalize.
Lemma new_crater : exists c, a_put moon true None small None None (Some (Dict (Some 5) (Some 30) (At (10, 20)) false)) = Ok c.
Proof.
  unfold a_put, put, moon. cbn [morph_location small at_location p_loc radius_arg given andb located rbind lonlat_location]. set (l := from_reference _ _ _ _). clearbody l.
  unfold maker. cbn - [var_init normalize]. unfold ex_one. decide_reals. cbn - [var_init normalize]. rewrite (var_init_axes normalize 10 10) by lra. cbn - [normalize]. eexists. reflexivity.
Qed.
Definition at_190 : margs := mk_margs None None None None None None None None None None None None None None None None (Some (190, 0)) None None None None None None None None None None None None None None None None.
Lemma moved : exists c, a_put patch true (Some (ex_crater None None)) at_190 None None None = Ok c /\ f_loc (fixed c) = Some (190, 0) /\ v_loc (vars c) = Some (10, 20).
Proof.
  pose proof (ex_old None None) as O. unfold a_put, put. cbn [morph_location p_loc at_190 given andb rbind lonlat_location].
  change (at_location (Some (190, 0)) at_190) with at_190. unfold maker, at_190. rewrite O. cbn - [var_init normalize].
  rewrite (var_init_axes normalize (10 * 2 / 2) (10 * 2 / 2)) by lra. cbn - [normalize]. eexists. split; [reflexivity |]. cbn - [normalize]. rewrite norm_10_20. split; reflexivity.
Qed.

Section Claims.
Context (hash : option num -> option R -> option R -> option (R * R) -> option R -> option R ->
                option R -> option R -> option R -> option R -> N)
        (project : option R -> option R -> option R -> option R -> option (R * R) -> option R -> result proj)
        (f2t t2f : R -> R * string) (t2p p2t : R -> R).
Hypothesis keeps : keeps_location project.
Notation put := (put hash project f2t t2f t2p p2t).
Lemma relative_claim s chk old p d b r other c l : 0 < s_radius s -> proper_location l -> reference_point s r l ->
  put s chk old p None None (Some (Dict (Some d) (Some b) r other)) = Ok c ->
  exists m, f_loc (fixed c) = Some m /\ (0 <= d <= PI * s_radius s -> s_radius s * apart l m = d) /\
    (-90 < snd l < 90 -> place (fst m) (snd m) = reached (rad (fst l)) (rad (snd l)) (rad b) (d / s_radius s)).
Proof.
  intros P L Rf E. destruct (from_reference_spec s d b l L P) as (Q & A & B).
  destruct (put_priority hash project f2t t2f t2p p2t keeps s chk old p None None _ c _ E Q (ex_intro _ l (conj Rf eq_refl))) as (m & M & Sm). exists m. split; [exact M |].
  unfold apart, same_spot in *. rewrite Sm. split; assumption.
Qed.
End Claims.
Lemma pole_case : exists d b b' c c', 0 <= b < b' /\ b' < 360 /\ 0 < d < PI * s_radius moon /\
  a_put moon true None small None None (Some (Dict (Some d) (Some b) (At (0, 90)) false)) = Ok c /\
  a_put moon true None small None None (Some (Dict (Some d) (Some b') (At (0, 90)) false)) = Ok c' /\ f_loc (fixed c) = f_loc (fixed c').
Proof.
  assert (E : forall b, a_put moon true None small None None (Some (Dict (Some 5) (Some b) (At (0, 90)) false)) = a_put moon true None small None None (Some (Dict (Some 5) (Some 0) (At (0, 90)) false))).
  { intros b. unfold a_put, put. cbn [morph_location small at_location p_loc radius_arg given andb located rbind lonlat_location]. rewrite (from_pole moon 5 b 0). reflexivity. }
  assert (C : exists c, a_put moon true None small None None (Some (Dict (Some 5) (Some 0) (At (0, 90)) false)) = Ok c).
  { unfold a_put, put, moon. cbn [morph_location small at_location p_loc radius_arg given andb located rbind lonlat_location]. set (l := from_reference _ _ _ _). clearbody l.
    unfold maker. cbn - [var_init normalize]. unfold ex_one. decide_reals. cbn - [var_init normalize]. rewrite (var_init_axes normalize 10 10) by lra. cbn - [normalize]. eexists. reflexivity. }
  destruct C as [c C]. exists 5, 0, 90, c, c. split; [lra |]. split; [lra |]. split; [cbn [moon s_radius]; pose proof PI2_3_2; lra |]. rewrite (E 90). auto.
Qed.
Lemma over_pole : exists c, a_put moon true None small (Some 10) (Some 100) None = Ok c.
Proof.
  unfold a_put, put, moon. cbn [morph_location small at_location p_loc p_ploc radius_arg given andb orb rbind lonlat_location].
  unfold maker. cbn - [var_init normalize]. unfold ex_one. decide_reals. cbn - [var_init normalize]. rewrite (var_init_axes normalize 10 10) by lra. cbn - [normalize]. eexists. reflexivity.
Qed.
