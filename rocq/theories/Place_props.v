(** C100: where a crater is put. *)
From Coq Require Import Reals NArith Lra Lia.
From Verif Require Import Common Trig_model Geo_spec Outline_model Outline_spec Crater_model Crater_spec Crater_proofs Place_model Place_spec Place_proofs Place_cases.
Import ListNotations.
Open Scope R_scope.

Section Claims.
Context (hash : option num -> option R -> option R -> option (R * R) -> option R -> option R ->
                option R -> option R -> option R -> option R -> N)
        (project : option R -> option R -> option R -> option R -> option (R * R) -> option R -> result proj)
        (f2t t2f : R -> R * string) (t2p p2t : R -> R).

(** A crater that is made is where it was asked to be: at the longitude and latitude if they are given,
    else at the relative location, else at the location, else at the location of the projectile, else
    where the crater it is made from is. *)
Theorem C100_place : keeps_location project -> forall s chk old p lon lat rel c l,
  put hash project f2t t2f t2p p2t s chk old p lon lat rel = Ok c -> proper_location l ->
  match lon, lat, rel, p_loc p, p_ploc p with
  | Some x, Some y, _, _, _ => l = (x, y)
  | None, None, Some (Dict (Some d) (Some b) r _), _, _ => exists l0, reference_point s r l0 /\ l = from_reference s d b l0
  | None, None, None, Some m, _ => l = m
  | None, None, None, None, Some m => l = m
  | None, None, None, None, None => exists o, old = Some o /\ f_loc (fixed o) = Some l
  | _, _, _, _, _ => False
  end -> sits_at c l.
Proof. exact (put_priority hash project f2t t2f t2p p2t). Qed.

(** A crater put at a distance and a bearing from a reference point (the one given, or the centre of
    the local surface) is at that distance, if it is at most half way round the body, and on the great
    circle that leaves with that bearing, if the reference point is not a pole. *)
Theorem C100_relative : keeps_location project -> forall s chk old p d b r other c l,
  0 < s_radius s -> proper_location l -> reference_point s r l ->
  put hash project f2t t2f t2p p2t s chk old p None None (Some (Dict (Some d) (Some b) r other)) = Ok c ->
  exists m, f_loc (fixed c) = Some m /\ (0 <= d <= PI * s_radius s -> s_radius s * apart l m = d) /\
    (-90 < snd l < 90 -> place (fst m) (snd m) = reached (rad (fst l)) (rad (snd l)) (rad b) (d / s_radius s)).
Proof. exact (relative_claim hash project f2t t2f t2p p2t). Qed.

(** With redundant arguments checked, giving the location in two ways is an error. *)
Theorem C100_conflict : forall s old p lon lat rel, (2 <= ways p lon lat rel)%nat ->
  exists e, put hash project f2t t2f t2p p2t s true old p lon lat rel = Err e /\ (e = ValueError \/ e = TypeError).
Proof. exact (conflict hash project f2t t2f t2p p2t). Qed.

(** A latitude beyond a pole, up to a half turn, stands for the point that is reached by going over the pole. *)
Theorem C100_beyond_pole : keeps_location project -> forall s chk old p lon lat c,
  put hash project f2t t2f t2p p2t s chk old p (Some lon) (Some lat) None = Ok c -> -270 <= lat <= 270 -> sits_at c (lon, lat).
Proof. exact (put_beyond hash project f2t t2f t2p p2t). Qed.

(** Without a reference point a relative location is an error on a surface that has no centre of its own. *)
Theorem C100_no_reference : forall s chk old p d b, s_local s = None -> p_loc p = None ->
  put hash project f2t t2f t2p p2t s chk old p None None (Some (Dict (Some d) (Some b) Missing false)) = Err TypeError /\
  put hash project f2t t2f t2p p2t s chk old p None None (Some (Dict (Some d) (Some b) IsNone false)) = Err ValueError.
Proof. exact (no_reference hash project f2t t2f t2p p2t). Qed.
End Claims.
Print Assumptions C100_place.
Print Assumptions C100_relative.
Print Assumptions C100_conflict.
Print Assumptions C100_beyond_pole.
Print Assumptions C100_no_reference.
Example C100_beyond_case : exists c, a_put moon true None small (Some 10) (Some 100) None = Ok c.
Proof. exact over_pole. Qed.
Example C100_no_reference_case : s_local moon = None /\ p_loc small = None. Proof. split; reflexivity. Qed.
Example C100_place_case : keeps_location a_project /\
  exists c, a_put moon true None small None None (Some (Dict (Some 5) (Some 30) (At (10, 20)) false)) = Ok c.
Proof. exact (conj a_keeps new_crater). Qed.
Example C100_relative_case : proper_location (30, -20) /\ reference_point patch Missing (30, -20) /\ 0 < s_radius patch.
Proof. unfold proper_location. cbn. split; [lra |]. split; [right; auto | lra]. Qed.
Example C100_conflict_case : ways at_190 (Some 10) (Some 20) None = 2%nat. Proof. reflexivity. Qed.

(** A crater put at another location by making it from an existing one keeps the old measured location,
    and its location is not normalised. *)
Theorem C100_moved_refuted : exists c, a_put patch true (Some (ex_crater None None)) at_190 None None None = Ok c /\
  f_loc (fixed c) = Some (190, 0) /\ v_loc (vars c) = Some (10, 20).
Proof. exact moved. Qed.
Print Assumptions C100_moved_refuted.

(** From a pole the bearing is ignored: two different bearings lead to the same place. *)
Theorem C100_pole_refuted : exists d b b' c c', 0 <= b < b' /\ b' < 360 /\ 0 < d < PI * s_radius moon /\
  a_put moon true None small None None (Some (Dict (Some d) (Some b) (At (0, 90)) false)) = Ok c /\
  a_put moon true None small None None (Some (Dict (Some d) (Some b') (At (0, 90)) false)) = Ok c' /\ f_loc (fixed c) = f_loc (fixed c').
Proof. exact pole_case. Qed.
Print Assumptions C100_pole_refuted.
