(** Specification vocabulary for crater objects. *)
From Coq Require Import Reals NArith.
From Verif Require Import Common Crater_model.
Open Scope R_scope.

(** Reading a fixed attribute of a crater by name. *)
Inductive reading := RNum (x : option R) | RId (n : N) | RLoc (x : option (R * R)) | RText (x : option string)
  | RTime (x : option num).
Definition read_fixed (name : string) (f : fixedf) : option reading :=
  if String.eqb name "id" then Some (RId (f_id f))
  else if String.eqb name "semimajor_axis" then Some (RNum (f_major f))
  else if String.eqb name "semiminor_axis" then Some (RNum (f_minor f))
  else if String.eqb name "orientation" then Some (RNum (f_orient f))
  else if String.eqb name "transient_diameter" then Some (RNum (f_td f))
  else if String.eqb name "projectile_diameter" then Some (RNum (f_pd f))
  else if String.eqb name "projectile_velocity" then Some (RNum (f_pv f))
  else if String.eqb name "projectile_angle" then Some (RNum (f_pang f))
  else if String.eqb name "projectile_mass" then Some (RNum (f_pm f))
  else if String.eqb name "location" then Some (RLoc (f_loc f))
  else if String.eqb name "morphology_type" then Some (RText (f_mt f))
  else if String.eqb name "time" then Some (RTime (f_time f))
  else if String.eqb name "radius" then Some (RNum (d_radius f))
  else if String.eqb name "diameter" then Some (RNum (d_diameter f))
  else if String.eqb name "transient_radius" then Some (RNum (d_tr f))
  else if String.eqb name "projectile_radius" then Some (RNum (d_pr f))
  else if String.eqb name "projectile_density" then Some (RNum (d_rho f))
  else if String.eqb name "projectile_vertical_velocity" then Some (RNum (d_vv f))
  else if String.eqb name "projectile_direction" then Some (RNum (f_orient f))
  else option_map (fun p => RNum (snd p)) (find (fun p => String.eqb name (fst p)) (f_extra f)).

(** Measured axes that are set are positive and ordered. *)
Definition axes_ok (v : var) : Prop :=
  (forall a, v_major v = Some a -> 0 < a) /\ (forall b, v_minor v = Some b -> 0 < b) /\
  (forall a b, v_major v = Some a -> v_minor v = Some b -> b <= a).

(** All the measured properties have a value. *)
Definition measured_complete (c : crater) : Prop :=
  v_major (vars c) <> None /\ v_minor (vars c) <> None /\ v_orient (vars c) <> None /\ v_loc (vars c) <> None.

(** Craters that calls of maker and assignments can produce. *)
Section Made.
Context (norm_loc : R * R -> R * R) (str_of : value -> string) (trunc : R -> Z)
  (hash : option num -> option R -> option R -> option (R * R) -> option R -> option R ->
          option R -> option R -> option R -> option R -> N)
  (project : option R -> option R -> option R -> option R -> option (R * R) -> option R -> result proj)
  (f2t t2f : R -> R * string) (t2p p2t : R -> R).
Inductive made : crater -> Prop :=
| made_new chk p c : maker norm_loc hash project f2t t2f t2p p2t chk None p = Ok c -> made c
| made_from chk o p c : made o -> maker norm_loc hash project f2t t2f t2p p2t chk (Some o) p = Ok c -> made c
| made_assign name x c : made c -> made (fst (assign norm_loc str_of trunc name x c)).
End Made.

(** Arguments that do not touch sizes, name, density, mean or vertical velocity. *)
Definition plain_override (p : margs) : Prop :=
  p_major p = None /\ p_minor p = None /\ p_radius p = None /\ p_diameter p = None /\ p_td p = None /\ p_tr p = None /\
  p_pd p = None /\ p_pr p = None /\ p_pm p = None /\ p_name p = None /\ p_mv p = None /\ p_vv p = None /\
  p_mmajor p = None /\ p_mminor p = None /\ p_mdiam p = None /\ p_mrad p = None.
