(** Model of the crater and ejecta profiles:
    crates/cratermaker-components/src/morphology/basicmoon.rs and the
    morphometric relations of cratermaker/components/morphology/basicmoon.py.
    Floating point is idealised to reals; [powf] is [Rpower] (all bases are
    positive where it is used). *)
From Coq Require Import Reals.
From Verif Require Import Common.
Open Scope R_scope.

(** The crater attributes read by the profile functions. *)
Record shape := mk_shape {
  diameter : R; floor_depth : R; floor_diameter : R; rim_height : R; ejrim : R }.

(** basicmoon.rs:14-15. *)
Definition RIMDROP : R := 42 / 10.
Definition EJPROFILE : R := 3.

(** basicmoon.rs:52-53. *)
Definition coef_A : R := 4 / 11.
Definition coef_B : R := - 32 / 187.

(** basicmoon.rs:132-147 crater_profile_function. *)
Definition crater_profile_function (r elevation c0 c1 c2 c3 rim ej : R) : R :=
  if Rle_dec 1 r then elevation + (rim - ej) * Rpower r (- RIMDROP)
  else elevation + c0 + c1 * r + c2 * r ^ 2 + c3 * r ^ 3.

Definition sum_list (l : list R) : R := fold_right Rplus 0 l.

(** basicmoon.rs:67-74 min_by on the radial distance: the first minimal point. *)
Fixpoint nearest (best : R * R) (l : list (R * R)) : R * R :=
  match l with
  | [] => best
  | p :: t => nearest (if Rlt_dec (fst p) (fst best) then p else best) t
  end.

(** basicmoon.rs:66-83 meanref; [None] is the panic of [unwrap] on an empty input.
    Points are (radial distance, reference elevation). *)
Definition meanref (radius : R) (pts : list (R * R)) : option R :=
  let inside := filter (fun p => if Rle_dec (fst p) radius then true else false) pts in
  match inside with
  | [] => match pts with
          | [] => None
          | p :: t => Some (snd (nearest p t))
          end
  | _ => Some (sum_list (map snd inside) / INR (List.length inside))
  end.

(** basicmoon.rs:43-105 crater_profile.  The two arrays are one list of pairs, so
    the length assertion of line 52 always holds. *)
Definition crater_profile (p : shape) (pts : list (R * R)) : result (list R) :=
  let flrad := floor_diameter p / diameter p in
  let radius := diameter p / 2 in
  let c1 := (floor_depth p - rim_height p)
            / (flrad - 1 + coef_A * (flrad ^ 2 - 1) + coef_B * (flrad ^ 3 - 1)) in
  let c0 := rim_height p - c1 * (1 + coef_A + coef_B) in
  let c2 := coef_A * c1 in
  let c3 := coef_B * c1 in
  match meanref radius pts with
  | None => Err RustErr
  | Some m =>
      let min_elevation := m + floor_depth p in
      Ok (map (fun q : R * R =>
             let r := fst q / radius in
             let e := crater_profile_function r (snd q) c0 c1 c2 c3 (rim_height p) (ejrim p) in
             if Rle_dec (fst q) radius then Rmax e min_elevation else e) pts)
  end.

(** basicmoon.rs:190-197 ejecta_profile_function. *)
Definition ejecta_profile_function (r_actual crater_radius ej : R) : R :=
  if Rle_dec crater_radius r_actual
  then ej * Rpower (r_actual / crater_radius) (- EJPROFILE)
  else 0.

(** basicmoon.rs:163-175 ejecta_profile. *)
Definition ejecta_profile (rs : list R) (crater_diameter ej : R) : list R :=
  map (fun r => ejecta_profile_function r (crater_diameter / 2) ej) rs.

(** Morphology types accepted by basicmoon.py:98-113; any other string is an error. *)
Inductive morph := Simple | Transitional | Complex | Peakring | Multiring | OtherMorph.

(** basicmoon.py:92-126 BasicMoonCrater.maker, without user overrides of the
    morphometric parameters; rim_width and peak_height are not used by the profiles
    and are left out.  ([x ** y] with positive [x] is [Rpower x y].) *)
Definition basicmoon_shape (m : morph) (d : R) : result shape :=
  let km := d / 1000 in
  let ej := 14 / 100 * Rpower (d / 2) (74 / 100) in
  match m with
  | Simple | Transitional =>
      Ok (mk_shape d (- (224 / 1000 * Rpower km (1010 / 1000) * 1000))
                   (200 / 1000 * Rpower km (1143 / 1000) * 1000)
                   (43 / 1000 * Rpower km (1014 / 1000) * 1000) ej)
  | Complex | Peakring | Multiring =>
      Ok (mk_shape d (- (1044 / 1000 * Rpower km (301 / 1000) * 1000))
                   (Rmin (187 / 1000 * Rpower km (1249 / 1000) * 1000) (9 / 10 * d))
                   (236 / 1000 * Rpower km (399 / 1000) * 1000) ej)
  | OtherMorph => Err ValueError
  end.

(** basicmoon.py:596-654 rmax.  [truncation = None] (or 0) means no truncation.
    [brentq f a b] is scipy's root finder: the root and the converged flag.
    A bracket whose ends have the same strict sign makes scipy raise ValueError. *)
Inductive feature := FEjecta | FCrater | FOther.

Definition feature_height (p : shape) (ft : feature) (r : R) : result R :=
  match ft with
  | FEjecta => Ok (ejecta_profile_function r (diameter p / 2) (ejrim p))
  | FCrater => match crater_profile p [(r, 0)] with
               | Ok (z :: _) => Ok z
               | Ok [] => Err IndexError
               | Err e => Err e
               end
  | FOther => Err ValueError
  end.

Definition rmax (brentq : (R -> result R) -> R -> R -> R * bool) (p : shape)
    (truncation : option R) (target_radius minimum_thickness : R) (ft : feature) : result R :=
  let radius := diameter p / 2 in
  let f := fun r => rbind (feature_height p ft r) (fun h => Ok (h - minimum_thickness)) in
  let lower := radius * (10001 / 10000) in
  let upper := match truncation with
               | None => PI * target_radius
               | Some k => if Req_EM_T k 0 then PI * target_radius else k * radius
               end in
  rbind (f lower) (fun fl =>
  if Rlt_dec fl 0 then Ok lower else
  rbind (f upper) (fun fu =>
  if Rlt_dec 0 fu then Ok upper else
  let '(root, converged) := brentq f lower upper in
  Ok (if converged : bool then root else radius))).
