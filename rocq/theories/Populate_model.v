(** Model of Simulation.populate (cratermaker/core/simulation.py:650-816): how a population of
    craters is drawn bin by bin over the faces of the surface, and of the part of
    Production.sample (production/__init__.py:193-284) it relies on.
    Simplifications: floats are reals; a crater and a location are abstract; everything random
    is an argument: the Poisson count of a bin, the diameters drawn, the times drawn, the
    uniform draws of rng.choice and the point drawn on a face; so are Crater.maker, the merge
    with the user's craters (C12) and morphology.emplace (C28). *)
From Coq Require Import Reals.
From Verif Require Import Common Sorting.
From Verif Require Run_model Limits_model Region_model Random_model.
Open Scope R_scope.

(** surface.face_area[face_indices] *)
Definition areas_of (areas : list R) (faces : list nat) : list R := map (fun f => nth f areas 0) faces.
(** surface.area and surface.face_bin_area: surface/__init__.py:1517-1522, 1639 (np.sum). *)
Definition total (l : list R) : R := Random_model.rsum l.
Definition bin_area (areas : list R) (faces : list nat) : R := total (areas_of areas faces).
(** surface.face_bin_min_sizes: 1641-1643, 1705-1711, the face size (square root of the area,
    1381) of the smallest face of the bin; a bin is never empty (1637). *)
Definition bin_min_size (areas : list R) (faces : list nat) : R :=
  match areas_of areas faces with [] => 0 | a :: r => sqrt (Region_model.rmin a r) end.

(** rng.choice(faces, p=p) for one uniform draw u: numpy's Generator.choice searches the
    cumulated and normalised probabilities, from the right. *)
Definition choose (faces : list nat) (p : list R) (u : R) : result nat :=
  let cum := Random_model.cumsum 0 p in
  match nth_error faces (Random_model.searchsorted_right (map (fun c => c / List.last cum 0) cum) u) with
  | Some f => Ok f
  | None => Err IndexError
  end.

Fixpoint mapr {A B} (f : A -> result B) (l : list A) : result (list B) :=
  match l with
  | [] => Ok []
  | x :: r => rbind (f x) (fun y => rbind (mapr f r) (fun ys => Ok (y :: ys)))
  end.
(** zip(..., strict=False) of three lists: 772 stops with the shortest. *)
Fixpoint zip3 {A B D} (a : list A) (b : list B) (c : list D) : list (A * B * D) :=
  match a, b, c with
  | x :: a, y :: b, z :: c => (x, y, z) :: zip3 a b c
  | _, _, _ => []
  end.

Section Populate.
Context {C L : Type}.
(** The production function (see Run_model) and the conversions of N(D). *)
Context (csfd chron : R -> R) (age_of : R -> R -> result R) (tlo thi : option R) (Dconv Nconv : R).
(** production.generator_type and production.diameter_range, the crater of a projectile and the
    projectile of a crater, and the sizes allowed on the surface (see Limits_model). *)
Context (g : Limits_model.generator) (r : Limits_model.range)
  (crater_of projectile_of : Limits_model.limit -> R -> R) (size_lo size_hi : R).
(** surface.face_area *)
Context (areas : list R).
(** The random choices in bin number i: the Poisson count for a mean, the diameters for a count
    and a range, the times for a period and the diameters, the k-th draw for the face, and the
    k-th point, on the face chosen. *)
Context (poisson : nat -> R -> nat) (sizes : nat -> nat -> R -> option R -> list R)
  (times : nat -> R -> R -> list R -> list R) (pick : nat -> nat -> R) (spot : nat -> nat -> nat -> L).
(** Crater.maker(location, time, diameter), crater.time, production.quasimc_merge for a period
    (None when do_quasimc is off), and emplace. *)
Context (make : L -> R -> R -> result C) (ctime : C -> R) (merge : option (R -> R -> list C -> list C))
  (emplace : list C -> result (list C)).

(** diam_min and diam_max before the loop: 722-727. *)
Definition start_min : R :=
  match g with
  | Limits_model.GProjectile => Limits_model.smallest_projectile projectile_of size_lo size_hi g r
  | Limits_model.GCrater => Limits_model.smallest_crater crater_of size_lo size_hi g r
  end.
Definition diam_max : option R :=
  match g with
  | Limits_model.GProjectile => Limits_model.largest_projectile projectile_of size_lo size_hi g r
  | Limits_model.GCrater => Limits_model.largest_crater crater_of size_lo size_hi g r
  end.
(** The smallest size of a bin as a diameter of the generator's kind: 740-744. *)
Definition own_min (faces : list nat) : R :=
  match g with
  | Limits_model.GProjectile => Limits_model.projectile_limit projectile_of size_lo size_hi Limits_model.Smallest (Some (bin_min_size areas faces))
  | Limits_model.GCrater => bin_min_size areas faces
  end.
(** The (diameter, number) pair for a part of the surface: 746-755. *)
Definition scaled (ratio : R) (dn : R * R) : R * R := (fst dn, snd dn * ratio).

(** production.sample for a bin: production/__init__.py:235-284, with the checks of
    _validate_sample_args on the diameter range (697-702) and the rest of it from Run_model.
    The mean number is the cumulative number density at the smallest diameter times the area
    (262).  Returns the diameters and the times. *)
Definition sample (i : nat) (lo : R) (hi : option R) (area : R) (dn dne : R * R) : result (list R * list R) :=
  if Rle_dec lo 0 then Err ValueError
  else if match hi with Some h => if Rlt_dec h lo then true else false | None => false end then Err ValueError
  else rbind (Run_model.sample_args csfd chron age_of tlo thi area None None (Some dn) (Some dne)) (fun y =>
    let '(ts, te, _, _) := y in
    let ds := sizes i (poisson i (Run_model.fn csfd chron lo ts te * area)) lo hi in
    Ok (ds, match ds with [] => [] | _ => times i ts te ds end)).

(** The loop over the bins: 734-773.  [i] is the number of the bin, [dmin] the value of
    diam_min so far; the three lists are extended bin by bin. *)
Fixpoint over_bins (i : nat) (dmin : R) (dn dne : R * R) (bins : list (list nat))
  : result (list R * list R * list L) :=
  match bins with
  | [] => Ok ([], [], [])
  | faces :: rest =>
      let area := bin_area areas faces in
      let ratio := area / total areas in
      let dmin := Rmax (own_min faces) dmin in
      rbind (sample i dmin diam_max area (scaled ratio dn) (scaled ratio dne)) (fun dt =>
      let '(ds, ts) := dt in
      let p := map (fun a => a / area) (areas_of areas faces) in
      rbind (mapr (fun k => rbind (choose faces p (pick i k)) (fun f => Ok (spot i k f))) (seq 0 (List.length ds))) (fun ls =>
      rbind (over_bins (S i) dmin dn dne rest) (fun out =>
      let '(dss, tss, lss) := out in
      Ok ((ds ++ dss)%list, (ts ++ tss)%list, (ls ++ lss)%list))))
  end.

(** sort(key=lambda c: c.time, reverse=True), which keeps the order of equal times: 793. *)
Definition older (a b : C) : bool := if Rle_dec (ctime b) (ctime a) then true else false.

(** The crater list: 697-811.  [cur] is the time of the simulation, [a] the arguments. *)
Definition crater_list (cur : option R) (a : Run_model.args) : result (list C) :=
  rbind (Run_model.validate_run_args csfd chron age_of tlo thi (total areas) Dconv Nconv cur a) (fun p =>
  rbind (Region_model.face_bins areas) (fun bins =>
  rbind (over_bins 0 start_min (Run_model.p_dn p) (Run_model.p_dne p) bins) (fun out =>
  let '(ds, ts, ls) := out in
  rbind (mapr (fun x => let '(d, l, t) := x in make l t d) (zip3 ds ls ts)) (fun cs =>
  let cs := sort older cs in
  Ok (match merge with
      | Some m => m (Run_model.p_ts p) (Run_model.p_te p) cs
      | None => cs
      end))))).

(** populate: 650-816.  [craters_given]: the caller passes the documented craters keyword,
    which ends up in **kwargs and so a second time in emplace(craterlist, **kwargs) (814). *)
Definition populate (craters_given : bool) (cur : option R) (a : Run_model.args) : result (list C) :=
  rbind (crater_list cur a) (fun cs =>
  match cs with
  | [] => Ok []
  | _ => if craters_given then Err TypeError else emplace cs
  end).
End Populate.
