(** Model of the ray pattern of ejecta:
    crates/cratermaker-components/src/morphology/basicmoon.rs:200-412, and its Python callers
    cratermaker/components/morphology/basicmoon.py:389-501.
    Simplifications: f64 is idealised as R, so that overflow and rounding are absent; the parallel
    maps are maps; [powf] with the exponent 4.0 is [^ 4]. *)
From Coq Require Import Reals ZArith List.
From Verif Require Import Common Trig_model Profile_model.
Open Scope R_scope.

(** lib.rs:7 VSMALL: ten times f64::EPSILON. *)
Definition VSMALL : R := 10 / 2 ^ 52.
(** basicmoon.rs:16-18; :268-269 rmax and rmin. *)
Definition NRAYMAX : nat := 5.
Definition NPATT : nat := 8.
Definition FRAYREDUCTION : R := 9 / 10.
Definition ray_rmax : R := 100.
Definition ray_rmin : R := 1.

(** What the generator seeded with [seed] yields (basicmoon.rs:271-279): the shuffled ray azimuths
    and the NPATT uniform numbers.  The generator itself is not modelled. *)
Record draws := mk_draws { azimuths : list R; numbers : list R }.

(** The azimuths before shuffling, basicmoon.rs:274-276. *)
Definition even_azimuths : list R := map (fun i => PI * 2 * INR (i + 1) / INR NRAYMAX) (seq 0 NRAYMAX).

(** A float that may not be a number. *)
Inductive float := Num (x : R) | NaN.

(** f64::powf for a non-negative base and a positive exponent. *)
Definition powf (x y : R) : R := if Req_EM_T x 0 then 0 else Rpower x y.

Section Ray.
(** libm::erf *)
Variable erf : R -> R.

(** basicmoon.rs:397-412 ejecta_ray_func. *)
Definition ejecta_ray_func (theta thetar r : R) (n : Z) (w : R) : R :=
  let c := w / r in
  let dtheta := Rmin (2 * PI - Rabs (theta - thetar)) (Rabs (theta - thetar)) in
  let logval := - dtheta ^ 2 / (2 * c ^ 2) in
  if Rlt_dec logval (ln VSMALL) then 0
  else
    let denom := erf (PI / (2 * sqrt 2 * c)) in
    if Rle_dec (Rabs denom) VSMALL then 0
    else sqrt (2 * PI) / (IZR n * c * denom) * exp logval.

(** basicmoon.rs:346-357, the number [n] of rays at a distance [r] (1 <= r <= rmax). *)
Definition rays_counted (r minray : R) : Z :=
  let tmp := INR NRAYMAX ^ 4 - (INR NRAYMAX ^ 4 - 1) * ln (r / minray) / ln (ray_rmax / minray) in
  if Rlt_dec tmp 0 then Z.of_nat NRAYMAX
  else Z.min (Z.max (Int_part (powf tmp (1 / 4))) 1) (Z.of_nat NRAYMAX).

(** basicmoon.rs:361-365, the length of ray [i]. *)
Definition ray_length (minray : R) (i : nat) : R :=
  minray * exp (ln (ray_rmax / minray) * ((INR (NRAYMAX - i + 2) ^ 4 - 1) / (INR NRAYMAX ^ 4 - 1))).

(** basicmoon.rs:361-375, the contribution of ray [i]. *)
Definition one_ray (r theta minray : R) (thetari : list R) (i : nat) : R :=
  let length := ray_length minray i in
  if Rlt_dec length r then 0
  else
    let w := ray_rmax / length in
    let rw := PI / (w * INR NRAYMAX) * (ray_rmin / r)
              * (1 - (1 - w / ray_rmin) * exp (1 - Rpower (r / ray_rmin) (125 / 100))) in
    ejecta_ray_func theta (nth i thetari 0) r (rays_counted r minray) rw.

(** basicmoon.rs:331-379 ray_intensity_func. *)
Definition ray_intensity_func (r theta : R) (thetari : list R) (minray : R) : R :=
  if Rle_dec r 0 then 0
  else if Rlt_dec ray_rmax r then 0
  else if Rlt_dec r 1 then 1
  else sum_list (map (one_ray r theta minray thetari) (seq 0 NRAYMAX)).

(** basicmoon.rs:238, the shortest ray. *)
Definition minray_of (crater_radius : R) : R := 2348 / 1000 * Rpower crater_radius (6 / 1000).

(** basicmoon.rs:228-239, the term of pattern [j]; powi with the exponent j - 1. *)
Definition pattern_term (d : draws) (crater_radius r theta0 : R) (j : nat) : R :=
  let rn := nth j (numbers d) 0 in
  powerRZ FRAYREDUCTION (Z.of_nat j - 1)
  * ray_intensity_func (r / crater_radius - rn) (rust_rem (theta0 + rn * TAU) TAU)
      (azimuths d) (minray_of crater_radius).

(** basicmoon.rs:214-242 ray_intensity_point. *)
Definition ray_intensity_point (d : draws) (crater_radius r theta0 : R) : R :=
  if Rlt_dec r crater_radius then 0
  else sum_list (map (pattern_term d crater_radius r theta0) (seq 0 NPATT)).

(** f64::MIN *)
Definition f64_min : R := - ((2 - / 2 ^ 52) * 2 ^ 1023).

(** Division by the maximum: the intensities are non-negative and at most the maximum, so that a
    zero maximum only divides zeros. *)
Definition fdiv (x y : R) : float := if Req_EM_T y 0 then NaN else Num (x / y).

(** basicmoon.rs:281-311 ray_intensity after the check of the lengths, on (distance, bearing)
    pairs. *)
Definition outside (crater_radius : R) (p : R * R) : bool :=
  if Rle_dec crater_radius (fst p) then true else false.
Definition max_outside (d : draws) (crater_radius : R) (pts : list (R * R)) : R :=
  fold_left Rmax (map (fun p => ray_intensity_point d crater_radius (fst p) (snd p))
                      (filter (outside crater_radius) pts)) f64_min.
Definition ray_values (d : draws) (crater_radius : R) (pts : list (R * R)) : list float :=
  let m := max_outside d crater_radius pts in
  map (fun p => let x := ray_intensity_point d crater_radius (fst p) (snd p) in
                if outside crater_radius p then fdiv x m else Num x) pts.

(** basicmoon.rs:258-266 ray_intensity; the error becomes a ValueError
    (morphology_bindings.rs:121-136). *)
Definition ray_intensity (d : draws) (rs thetas : list R) (crater_diameter : R) : result (list float) :=
  if Nat.eqb (List.length rs) (List.length thetas)
  then Ok (ray_values d (crater_diameter / 2) (combine rs thetas))
  else Err ValueError.

(** What a caller may pass for distances and bearings: a number, a list of numbers or an array of
    some shape.  Simplification: numbers are floats. *)
Inductive arg := PyFloat (x : R) | PyList (l : list R) | Arr (shape : list nat) (data : list R).
Definition ravel (a : arg) : list R := match a with PyFloat x => [x] | PyList l => l | Arr _ l => l end.
(** The attribute [shape]; numbers and lists have none. *)
Definition shape_of (a : arg) : result (list nat) :=
  match a with Arr s _ => Ok s | _ => Err AttributeError end.
Definition radians (x : R) : R := x * (PI / 180).
Record farray := mk_fa { fa_shape : list nat; fa_data : list float }.

(** basicmoon.py:465-501 BasicMoon.ray_intensity. *)
Definition py_ray_intensity (d : draws) (diameter : R) (r theta : arg) : result farray :=
  rbind (ray_intensity d (ravel r) (map radians (ravel theta)) diameter) (fun v =>
  rbind (shape_of r) (fun s => Ok (mk_fa s v))).

(** basicmoon.py:389-421 BasicMoon.ejecta_profile: numbers and lists become one-dimensional
    arrays. *)
Definition py_ejecta_profile (diameter ej : R) (r : arg) : list nat * list R :=
  (match r with PyFloat _ => [1%nat] | PyList l => [List.length l] | Arr s _ => s end,
   ejecta_profile (ravel r) diameter ej).

(** [a *= b] for an array of shape [s] and a one-dimensional array of [n] elements, where both have
    as many elements: NumPy aligns the last axes.  A zero-dimensional output cannot hold the
    result. *)
Definition broadcasts (s : list nat) (n : nat) : bool :=
  match s with [] => false | _ => Nat.eqb (last s 0%nat) n || Nat.eqb n 1 end.
Definition ftimes (x : R) (y : float) : float := match y with Num v => Num (x * v) | NaN => NaN end.

(** basicmoon.py:423-463 BasicMoon.ejecta_distribution. *)
Definition py_ejecta_distribution (d : draws) (diameter ej : R) (r theta : arg) : result (farray * farray) :=
  let (s, thickness) := py_ejecta_profile diameter ej r in
  rbind (ray_intensity d (ravel r) (map radians (ravel theta)) diameter) (fun intensity =>
  if broadcasts s (List.length intensity) then
    rbind (shape_of r) (fun s' =>
    Ok (mk_fa s' (map (fun p => ftimes (fst p) (snd p)) (combine thickness intensity)), mk_fa s' intensity))
  else Err ValueError).
End Ray.
