(** Where a crater is put: the ways of giving its location to MorphologyCrater.maker
    (components/morphology/__init__.py) and Crater.maker (components/crater/__init__.py).
    Simplification: f64 is idealised as R. *)
From Coq Require Import Reals NArith.
From Verif Require Import Common Trig_model Crater_model.
Import ListNotations.
Open Scope R_scope.

(** utils/general_utils.py:242-260 normalize_coords, on reals (Coords_model has it on rationals). *)
Definition modulo (x m : R) : R := x - m * IZR (Int_part (x / m)).
Definition normalize (l : R * R) : R * R :=
  let '(lon, lat) := l in
  let '(lon', lat') := if Rlt_dec 90 lat then (lon - 180, 180 - lat)
                       else if Rlt_dec lat (-90) then (lon - 180, -180 - lat)
                       else (modulo (lon + 180) 360 - 180, lat) in
  (lon', if Rle_dec 90 lat' then 90 else if Rle_dec lat' (-90) then -90 else lat').

(** np.radians, np.degrees. *)
Definition radians (x : R) : R := x * PI / 180.
Definition degrees (x : R) : R := x * 180 / PI.

(** A surface: its radius and, for the types that have one, its local_location. *)
Record surf := mk_surf { s_radius : R; s_local : option (R * R) }.
(** The value of the key reference_location. *)
Inductive reference := Missing | IsNone | At (l : R * R).
(** The relative_location argument: something that is not a dict, or a dict with these values and
    perhaps other keys.  Simplification: distance and bearing are single numbers. *)
Inductive relative := NotDict | Dict (distance bearing : option R) (ref : reference) (other_keys : bool).

(** surface/__init__.py:3922-3933 for a reference location. *)
Definition from_reference (s : surf) (d b : R) (l : R * R) : R * R :=
  let '(lon1, lat1) := normalize l in
  let '(lon2, lat2) := compute_location_elem (radians lon1) (radians lat1) d (radians b) (s_radius s) in
  normalize (degrees lon2, degrees lat2).
(** compute_location_from_distance_bearing: surface/__init__.py:1006-1033 (the argument is required)
    and 3917-3921, surface/hireslocal.py:677-705. *)
Definition located (s : surf) (d b : R) (r : reference) : result (R * R) :=
  match r, s_local s with
  | At l, _ => Ok (from_reference s d b l)
  | _, Some l => Ok (from_reference s d b l)
  | Missing, None => Err TypeError
  | IsNone, None => Err ValueError
  end.
(** morphology/__init__.py:177-182. *)
Definition morph_location (s : surf) (chk : bool) (loc : option (R * R)) (rel : option relative) : result (option (R * R)) :=
  match rel with
  | None => Ok loc
  | Some r =>
      if chk && given loc then Err ValueError else
      match r with
      | Dict (Some d) (Some b) ref other => if other then Err TypeError else rbind (located s d b ref) (fun l => Ok (Some l))
      | _ => Err TypeError
      end
  end.
(** crater/__init__.py:775-780. *)
Definition lonlat_location (chk : bool) (loc ploc : option (R * R)) (lon lat : option R) : result (option (R * R)) :=
  match lon, lat with
  | None, None => Ok loc
  | Some x, Some y => if chk && (given loc || given ploc) then Err ValueError else Ok (Some (x, y))
  | _, _ => Err ValueError
  end.
(** The arguments with another location. *)
Definition at_location (l : option (R * R)) (p : margs) : margs :=
  mk_margs (p_major p) (p_minor p) (p_radius p) (p_diameter p) (p_td p) (p_tr p) (p_pd p) (p_pr p) (p_pm p) (p_rho p)
    (p_v p) (p_mv p) (p_vv p) (p_ang p) (p_orient p) (p_pdir p) l (p_ploc p) (p_time p) (p_name p) (p_mt p)
    (p_mmajor p) (p_mminor p) (p_mdiam p) (p_mrad p) (p_morient p) (p_mloc p) (p_rim p) (p_floor p) (p_deg p)
    (p_ptime p) (p_pND p) (p_pseq p).

Section Maker.
Context (hash : option num -> option R -> option R -> option (R * R) -> option R -> option R ->
                option R -> option R -> option R -> option R -> N)
        (project : option R -> option R -> option R -> option R -> option (R * R) -> option R -> result proj)
        (f2t t2f : R -> R * string) (t2p p2t : R -> R).
(** MorphologyCrater.maker: morphology/__init__.py:145-193, calling Crater.maker.  (The checks of
    crater/__init__.py:767-774 that come before line 775 raise the same ValueError.) *)
Definition put (s : surf) (chk : bool) (old : option crater) (p : margs) (lon lat : option R) (rel : option relative) : result crater :=
  rbind (morph_location s chk (p_loc p) rel) (fun l =>
  rbind (lonlat_location chk l (p_ploc p) lon lat) (fun l =>
  maker normalize hash project f2t t2f t2p p2t chk old (at_location l p))).
End Maker.
