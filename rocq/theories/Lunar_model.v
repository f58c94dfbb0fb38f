(** Model of how a lunar crater gets its shape from keywords:
    cratermaker/components/morphology/basicmoon.py (BasicMoonCrater.maker),
    morphology/__init__.py (MorphologyCrater.maker) and crater/__init__.py
    (Crater.__init__, the end of Crater.maker).
    What Crater.maker computes from its named arguments is Crater_model.maker; here it is
    the argument [core], which gives the keywords assembled for the constructor.  Only the
    fixed attributes of the crater are modelled. *)
From Coq Require Import Reals.
From Verif Require Import Common Crater_model.
Open Scope R_scope.

(** Keyword arguments and attributes. *)
Definition dict := list (string * value).
Fixpoint get (k : string) (d : dict) : option value :=
  match d with [] => None | (k', v) :: d => if String.eqb k k' then Some v else get k d end.
Definition del (k : string) (d : dict) : dict := filter (fun p => negb (String.eqb k (fst p))) d.
Definition set (k : string) (v : value) (d : dict) : dict := (k, v) :: del k d.
Definition has (k : string) (d : dict) : bool := match get k d with Some _ => true | None => false end.
(** {**a, **b} *)
Definition merge (a b : dict) : dict := (b ++ a)%list.

(** The fields of BasicMoonCraterFixed in order, and whether they are arguments of its
    constructor (crater/__init__.py:31-66, basicmoon.py:26-39). *)
Definition shape_names : list string :=
  ["rim_height"; "rim_width"; "floor_depth"; "floor_diameter"; "peak_height"; "ejrim"]%string.
Definition base_init_names : list string :=
  ["id"; "semimajor_axis"; "semiminor_axis"; "orientation"; "transient_diameter"; "projectile_diameter";
   "projectile_velocity"; "projectile_angle"; "projectile_mass"; "location"; "morphology_type"; "time"]%string.
Definition derived_names : list string :=
  ["radius"; "diameter"; "transient_radius"; "projectile_radius"; "projectile_density";
   "projectile_vertical_velocity"; "projectile_direction"]%string.
Definition fields : list (string * bool) :=
  (map (fun n => (n, true)) base_init_names ++ map (fun n => (n, false)) derived_names ++
   map (fun n => (n, true)) shape_names)%list.

(** crater/__init__.py:553-563 _scrub_measured_input_size: dividing anything but a number
    by 2.0 raises TypeError. *)
Definition scrub (kw : dict) : result dict :=
  match get "measured_diameter" kw with
  | Some (VNum d) => Ok (set "measured_semiminor_axis" (VNum (d / 2))
                          (set "measured_semimajor_axis" (VNum (d / 2)) (del "measured_diameter" kw)))
  | Some _ => Err TypeError
  | None =>
      match get "measured_radius" kw with
      | Some r => Ok (set "measured_semiminor_axis" r (set "measured_semimajor_axis" r (del "measured_radius" kw)))
      | None => Ok kw
      end
  end.

(** crater/__init__.py:451-455: the fields taken from the keywords.  (The second condition
    of the loop never holds after the first.) *)
Fixpoint take (names : list (string * bool)) (fixed kw : dict) : dict :=
  match names with
  | [] => fixed
  | (f, init) :: names =>
      match get f kw with
      | Some v =>
          if init && match get f fixed with None | Some VNone => true | _ => false end
          then take names (set f v fixed) (del f kw)
          else take names fixed kw
      | None => take names fixed kw
      end
  end.

(** The dataclass constructor: every field, None when it is not given. *)
Definition complete (fixed : dict) : dict :=
  map (fun f => (fst f, match get (fst f) fixed with Some v => v | None => VNone end))
      (filter (fun f => snd f) fields).

(** crater/__init__.py:428-459 Crater.__init__ for a BasicMoonCrater; a crater is its fixed
    attributes. *)
Definition init (crater : option dict) (kw : dict) : result dict :=
  match crater with
  | None => Ok (complete (take fields [] kw))
  | Some c => rbind (scrub kw) (fun kw => Ok (complete (take fields c kw)))
  end.

(** The named arguments of Crater.maker (567-617) and MorphologyCrater.maker
    (morphology/__init__.py:145-153) that a caller may give, without scaling. *)
Definition explicit_names : list string :=
  ["target"; "projectile"; "diameter"; "radius"; "final_diameter"; "final_radius"; "transient_diameter";
   "transient_radius"; "semimajor_axis"; "semiminor_axis"; "orientation"; "projectile_diameter";
   "projectile_radius"; "projectile_mass"; "projectile_density"; "projectile_velocity";
   "projectile_mean_velocity"; "projectile_vertical_velocity"; "projectile_angle"; "projectile_direction";
   "projectile_location"; "location"; "longitude"; "latitude"; "time"; "name"; "measured_semimajor_axis";
   "measured_semiminor_axis"; "measured_orientation"; "measured_diameter"; "measured_radius";
   "measured_location"; "measured_rim_height"; "measured_floor_depth"; "degradation_state";
   "production_time"; "production_ND"; "production_sequence"; "simdir"; "rng"; "rng_seed"; "rng_state";
   "check_redundant_inputs"; "relative_location"]%string.
Definition is_explicit (k : string) : bool := existsb (String.eqb k) explicit_names.

Section Lunar.
(** What Crater.maker assembles for the constructor from the crater it is given and its
    named arguments, and whether it took morphology_type out of the other keywords
    (crater/__init__.py:966-969, a new crater whose sizes are not worked out). *)
Context (core : option dict -> dict -> result (dict * bool)).

(** crater/__init__.py:1117-1136: the end of Crater.maker; Python raises TypeError for a
    keyword given twice. *)
Definition crater_maker (crater : option dict) (kw : dict) : result dict :=
  let rest := filter (fun p => negb (is_explicit (fst p))) kw in
  rbind (core crater (filter (fun p => is_explicit (fst p)) kw)) (fun '(args, popped) =>
  let rest := if popped : bool then del "morphology_type" rest else rest in
  if existsb (fun p => has (fst p) args) rest then Err TypeError
  else init None (args ++ rest)).

(** morphology/__init__.py:174-193: scaling is passed on by name, so that a scaling among
    the keywords is there twice. *)
Definition morphology_maker (crater : option dict) (kw : dict) : result dict :=
  if has "scaling" kw then Err TypeError else
  rbind (crater_maker crater kw) (fun c => init (Some c) []).

(** crater/__init__.py:68-73: the diameter. *)
Definition diameter_of (c : dict) : option R :=
  match get "semimajor_axis" c, get "semiminor_axis" c with
  | Some (VNum a), Some (VNum b) => Some (sqrt (a * b) * 2)
  | _, _ => None
  end.

(** basicmoon.py:99-119: the standard shape. *)
Definition standard (mt : string) (d : R) : result dict :=
  let km := d / 1000 in
  if existsb (String.eqb mt) ["simple"; "transitional"]%string then
    Ok [("rim_height", VNum (43 / 1000 * Rpower km (1014 / 1000) * 1000));
        ("rim_width", VNum (257 / 1000 * Rpower km (1011 / 1000) * 1000));
        ("floor_depth", VNum (- (224 / 1000 * Rpower km (1010 / 1000) * 1000)));
        ("floor_diameter", VNum (200 / 1000 * Rpower km (1143 / 1000) * 1000));
        ("peak_height", VNone);
        ("ejrim", VNum (14 / 100 * Rpower (d / 2) (74 / 100)))]%string
  else if existsb (String.eqb mt) ["complex"; "peakring"; "multiring"]%string then
    Ok [("rim_height", VNum (236 / 1000 * Rpower km (399 / 1000) * 1000));
        ("rim_width", VNum (467 / 1000 * Rpower km (836 / 1000) * 1000));
        ("floor_depth", VNum (- (1044 / 1000 * Rpower km (301 / 1000) * 1000)));
        ("floor_diameter", VNum (Rmin (187 / 1000 * Rpower km (1249 / 1000) * 1000) (9 / 10 * d)));
        ("peak_height", VNum (32 / 1000 * Rpower km (9 / 10) * 1000));
        ("ejrim", VNum (14 / 100 * Rpower (d / 2) (74 / 100)))]%string
  else Err ValueError.

(** basicmoon.py:75-126 BasicMoonCrater.maker. *)
Definition lunar_maker (crater : option dict) (kw : dict) : result dict :=
  rbind (morphology_maker crater kw) (fun c =>
  match diameter_of c with
  | None => Err TypeError
  | Some d =>
      rbind (match get "morphology_type" c with
             | Some (VStr mt) => standard mt d
             | _ => Err ValueError
             end) (fun args =>
      init (Some c) (merge args kw))
  end).
End Lunar.
