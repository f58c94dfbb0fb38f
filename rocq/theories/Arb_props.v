(** C85 the points of a mesh of arbitrary resolution; C86 the pixel size of an icosphere. *)
From Coq Require Import Reals ZArith List Lra Lia.
From Verif Require Import Common Hires_model Arb_model Arb_spec Arb_geom Arb_cases.
Import ListNotations.
Open Scope R_scope.

Lemma fine_wit : fine 0.1 1.
Proof. pose proof PI_lo. unfold fine. lra. Qed.

(** A pixel size that asks for at least eight faces gives a mesh. *)
Theorem C85_makes : forall pix radius, fine pix radius -> exists pts, generate pix radius = Ok pts.
Proof. exact gen_ok. Qed.
Print Assumptions C85_makes.
Example C85_makes_ex : exists pts, generate 0.1 1 = Ok pts.
Proof. apply C85_makes, fine_wit. Qed.

(** There is no hole: every point of the sphere has a mesh point within 1.8 pixel sizes. *)
Theorem C85_cover : forall pix radius pts, fine pix radius -> generate pix radius = Ok pts ->
  covers (1.8 * (pix / radius)) pts.
Proof. exact gen_cover. Qed.
Print Assumptions C85_cover.
Example C85_cover_ex : exists pts, generate 0.1 1 = Ok pts /\ covers (1.8 * (0.1 / 1)) pts.
Proof. destruct (C85_makes _ _ fine_wit) as [pts E]. exists pts. split; [exact E|exact (C85_cover _ _ _ fine_wit E)]. Qed.

(** No two mesh points coincide: they are at least 0.09 pixel sizes apart. *)
Theorem C85_apart : forall pix radius pts, fine pix radius -> generate pix radius = Ok pts ->
  apart (0.09 * (pix / radius)) pts.
Proof. exact gen_apart. Qed.
Print Assumptions C85_apart.
Example C85_apart_ex : exists pts, generate 0.1 1 = Ok pts /\ apart (0.09 * (0.1 / 1)) pts.
Proof. destruct (C85_makes _ _ fine_wit) as [pts E]. exists pts. split; [exact E|exact (C85_apart _ _ _ fine_wit E)]. Qed.

(** There is about one mesh point for each square pixel of the surface: the number of points
    differs from the area of the sphere over the area of a pixel by about half its square root. *)
Theorem C85_count : forall pix radius pts, fine pix radius -> generate pix radius = Ok pts ->
  Rabs (INR (List.length pts) - IZR (Int_part (4 * PI * radius ^ 2 / pix ^ 2))) <=
  sqrt (4 * PI * radius ^ 2 / pix ^ 2) / 2 + 3 / 2.
Proof. exact gen_count. Qed.
Print Assumptions C85_count.
Example C85_count_ex : exists pts, generate 0.1 1 = Ok pts /\ (1 <= List.length pts)%nat.
Proof.
  destruct (C85_makes _ _ fine_wit) as [pts E]. exists pts. split; [exact E|].
  pose proof (C85_apart _ _ _ fine_wit E) as _. destruct (C85_cover _ _ _ fine_wit E (0, 0, 1)) as (p & I & _); [unfold on_sphere; ring|].
  destruct pts; [destruct I|cbn; lia].
Qed.

(** Every mesh point is within 0.139 pixel sizes of the sphere. *)
Theorem C85_sphere : forall pix radius pts, fine pix radius -> generate pix radius = Ok pts ->
  forall p, In p pts -> exists u, on_sphere u /\ dist p u <= 0.139 * (pix / radius).
Proof. exact gen_sphere. Qed.
Print Assumptions C85_sphere.
Example C85_sphere_ex : exists pts p, generate 0.1 1 = Ok pts /\ In p pts.
Proof.
  destruct (C85_makes _ _ fine_wit) as [pts E].
  destruct (C85_cover _ _ _ fine_wit E (0, 0, 1)) as (p & I & _); [unfold on_sphere; ring|]. exists pts, p. auto.
Qed.

(** The first mesh point is the north pole and the last one the south pole. *)
Theorem C85_poles : forall pix radius pts, fine pix radius -> generate pix radius = Ok pts ->
  nth 0 pts (0, 0, 0) = (0, 0, 1) /\ nth (List.length pts - 1) pts (0, 0, 0) = (0, 0, -1).
Proof. exact gen_poles. Qed.
Print Assumptions C85_poles.
Example C85_poles_ex : exists pts, generate 0.1 1 = Ok pts /\ nth 0 pts (0, 0, 0) = (0, 0, 1).
Proof. destruct (C85_makes _ _ fine_wit) as [pts E]. exists pts. split; [exact E|apply (C85_poles _ _ _ fine_wit E)]. Qed.

(** Without a pixel size the mesh has a million faces, to within 502, whatever the body. *)
Theorem C85_default : forall radius, 0 < radius ->
  exists pix pts, set_pix radius None = Ok pix /\ generate pix radius = Ok pts /\ Rabs (INR (List.length pts) - 1000000) <= 501.5.
Proof.
  exact (fun radius P => match default_pix radius P with
    | ex_intro _ pix (conj E (conj F _)) => match gen_ok pix radius F with
      | ex_intro _ pts G => ex_intro _ pix (ex_intro _ pts (conj E (conj G (default_count radius pix pts P E G)))) end end).
Qed.
Print Assumptions C85_default.
Example C85_default_ex : exists pix pts, set_pix 1737400 None = Ok pix /\ generate pix 1737400 = Ok pts /\ Rabs (INR (List.length pts) - 1000000) <= 501.5.
Proof. apply C85_default. lra. Qed.

(** A pixel size is accepted exactly when it is positive. *)
Theorem C85_accepts : forall radius v, (exists p, set_pix radius (Some v) = Ok p) <-> 0 < v.
Proof. exact pix_accepts. Qed.
Print Assumptions C85_accepts.
Example C85_accepts_ex : exists p, set_pix 1737400 (Some 1000) = Ok p.
Proof. apply C85_accepts. lra. Qed.

(** C85 is refuted for coarse meshes: the setter accepts every positive pixel size, but a pixel
    larger than the whole surface makes the generation of the mesh fail with a TypeError
    (there are no points, and the poles are assigned to columns of None), and a pixel larger than
    half of the surface makes it fail with a ValueError (numpy.unique is applied to the three rows
    of x, y and z coordinates: the rows of y and z are both zero, and one of them is dropped). *)
Theorem C85_coarse_refuted : forall pix radius, 0 < pix -> 0 < radius -> 2 * PI * radius ^ 2 < pix ^ 2 ->
  set_pix radius (Some pix) = Ok pix /\
  generate pix radius = Err (if Rlt_dec (4 * PI * radius ^ 2) (pix ^ 2) then TypeError else ValueError).
Proof. exact coarse. Qed.
Print Assumptions C85_coarse_refuted.
Example C85_coarse_ex : generate 3 1 = Err ValueError /\ generate 4 1 = Err TypeError.
Proof.
  pose proof PI_lo. pose proof PI_hi. split.
  - destruct (C85_coarse_refuted 3 1) as [_ E]; [lra|lra|lra|]. rewrite E. destruct (Rlt_dec _ _); [lra|reflexivity].
  - destruct (C85_coarse_refuted 4 1) as [_ E]; [lra|lra|lra|]. rewrite E. destruct (Rlt_dec _ _); [reflexivity|lra].
Qed.

(** The pixel size of a new icosphere is the square root of the area of the sphere over the number of its faces. *)
Theorem C86_area : forall radius g, 0 < radius ->
  (10 * 4 ^ Z.to_nat g + 2) * fst (ico_pix (mkIco radius g None)) ^ 2 = 4 * PI * radius ^ 2.
Proof. exact ico_area. Qed.
Print Assumptions C86_area.
Example C86_area_ex : (10 * 4 ^ 8 + 2) * fst (ico_pix (mkIco 1737400 8 None)) ^ 2 = 4 * PI * 1737400 ^ 2.
Proof. apply (C86_area 1737400 8). lra. Qed.

(** One more level halves the pixel size, to within seven percent. *)
Theorem C86_halves : forall radius g, 0 < radius -> (0 <= g)%Z ->
  let p := fst (ico_pix (mkIco radius g None)) in let q := fst (ico_pix (mkIco radius (g + 1) None)) in / 2 * p < q <= 0.535 * p.
Proof. exact ico_halves. Qed.
Print Assumptions C86_halves.
Example C86_halves_ex : fst (ico_pix (mkIco 1737400 9 None)) <= 0.535 * fst (ico_pix (mkIco 1737400 8 None)).
Proof. apply (C86_halves 1737400 8); [lra|lia]. Qed.

(** A level that is set is the integer part of the value given, which is not negative. *)
Theorem C86_level : forall s v s', set_gridlevel v s = Ok s' ->
  0 <= v /\ IZR (i_level s') <= v < IZR (i_level s') + 1 /\ (0 <= i_level s')%Z.
Proof. exact level_set. Qed.
Print Assumptions C86_level.
Example C86_level_ex : exists s', set_gridlevel 2.7 (mkIco 1 4 None) = Ok s'.
Proof. unfold set_gridlevel. destruct (Rlt_dec 2.7 0); [lra|eauto]. Qed.

(** C86 is refuted once the pixel size has been read: it is a cached property that changing the
    level does not clear, so a surface of level 4 whose level is set to 5 still reports the
    pixel size of level 4. *)
Theorem C86_stale_refuted : exists s s', set_gridlevel 5 (snd (ico_pix (mkIco 1 4 None))) = Ok s' /\ s = mkIco 1 4 None /\
  i_level s' = 5%Z /\ fst (ico_pix s') = fst (ico_pix (mkIco 1 4 None)) /\ fst (ico_pix s') <> fst (ico_pix (mkIco 1 5 None)).
Proof. exact level_stale. Qed.
Print Assumptions C86_stale_refuted.
