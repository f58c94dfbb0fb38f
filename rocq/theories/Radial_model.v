(** Model of the calls that evaluate a crater at distances given by the user:
    cratermaker/components/morphology/basicmoon.py:305-352 crater_profile, :389-420 ejecta_profile,
    :422-461 ejecta_distribution, :463-501 ray_intensity, and the types their compiled counterparts
    accept (crates/cratermaker-py/src/morphology_bindings.rs:49-145).
    Simplifications: the crater is already a crater of this morphology, given by its shape; numbers
    are reals; kinds of numbers other than 64-bit floats, integers and 32-bit floats are left out;
    the ray pattern for the seed that is drawn is a function of the distances and bearings (it is
    modelled in Ray_model). *)
From Coq Require Import Reals List Arith.
From Verif Require Import Common Profile_model.
Import ListNotations.
Open Scope R_scope.

(** The kind of the numbers, as numpy sees them. *)
Inductive kind := F64 | F32 | Ints.
Definition is_f64 (k : kind) : bool := match k with F64 => true | _ => false end.
(** An array: its kind, shape and values in order. *)
Record array := mk_array { a_kind : kind; a_shape : list nat; a_data : list R }.
(** What a user may pass. A scalar is a numpy scalar or a plain number; a list or tuple has the
    shape of its nesting, or its rows have different lengths. *)
Inductive given :=
| Scalar (numpy : bool) (k : kind) (x : R)
| Nested (k : kind) (shape : list nat) (data : list R)
| Ragged
| Arr (a : array).

(** np.asarray, as used by np.ravel and np.zeros_like; an empty list has 64-bit floats *)
Definition asarray (g : given) : result array :=
  match g with
  | Scalar _ k x => Ok (mk_array k [] [x])
  | Nested _ s [] => Ok (mk_array F64 s [])
  | Nested k s d => Ok (mk_array k s d)
  | Ragged => Err ValueError
  | Arr a => Ok a
  end.
Definition ravel (a : array) : array := mk_array (a_kind a) [List.length (a_data a)] (a_data a).
Definition zeros_like (a : array) : array := mk_array (a_kind a) (a_shape a) (map (fun _ => 0) (a_data a)).
(** :331-334 and :408-411: scalars become arrays of one number, lists arrays of 64-bit floats *)
Definition to_array (r : given) : result array :=
  match r with
  | Scalar _ _ x => Ok (mk_array F64 [1%nat] [x])
  | Nested _ s d => Ok (mk_array F64 s d)
  | Ragged => Err ValueError
  | Arr a => Ok a
  end.

(** PyReadonlyArray1<f64>: other kinds are refused *)
Definition readonly (a : array) : result (list R) := if is_f64 (a_kind a) then Ok (a_data a) else Err TypeError.

(** :305-352 and morphology_bindings.rs:49-73; basicmoon.rs:52 asserts that the lengths agree *)
Definition py_crater_profile (p : shape) (r : given) (r_ref : option given) : result array :=
  rbind (match r_ref with
         | None => rbind (asarray r) (fun a => Ok (Arr (zeros_like a)))
         | Some g => Ok g
         end) (fun ref =>
  rbind (to_array r) (fun a =>
  let rflat := ravel a in
  rbind (asarray ref) (fun b =>
  let r_ref_flat := ravel b in
  rbind (readonly rflat) (fun rs =>
  rbind (readonly r_ref_flat) (fun refs =>
  if negb (Nat.eqb (List.length rs) (List.length refs)) then Err RustErr else
  rbind (crater_profile p (combine rs refs)) (fun elevation =>
  Ok (mk_array F64 (a_shape a) elevation))))))).

(** :389-420 and morphology_bindings.rs:89-104 *)
Definition py_ejecta_profile (p : shape) (r : given) : result array :=
  rbind (to_array r) (fun a =>
  rbind (readonly (ravel a)) (fun rs =>
  Ok (mk_array F64 (a_shape a) (ejecta_profile rs (diameter p) (ejrim p))))).

(** r.shape *)
Definition shape_attr (r : given) : result (list nat) :=
  match r with
  | Arr a => Ok (a_shape a)
  | Scalar true _ _ => Ok []
  | _ => Err AttributeError
  end.
(** np.radians keeps 32-bit floats *)
Definition radians_of (a : array) : array :=
  mk_array (match a_kind a with F32 => F32 | _ => F64 end) (a_shape a) (map (fun x => x * PI / 180) (a_data a)).
(** a *= b for a flat b: the last dimension of a has to be the length of b *)
Definition multiply_in_place (a : array) (b : list R) : result array :=
  match rev (a_shape a) with
  | [] => Err ValueError
  | last :: _ =>
      if Nat.eqb last (List.length b)
      then Ok (mk_array F64 (a_shape a) (map (fun q => fst q * snd q) (combine (a_data a) b)))
      else Err ValueError
  end.
Section Rays.
(** the pattern for the seed that is drawn, at distances and bearings in radians *)
Variable rays : list R -> list R -> list R.
(** morphology_bindings.rs:120-145; basicmoon.rs:264-266 *)
Definition bound_ray_intensity (r theta : array) : result (list R) :=
  rbind (readonly r) (fun rs =>
  rbind (readonly theta) (fun ts =>
  if Nat.eqb (List.length rs) (List.length ts) then Ok (rays rs ts) else Err ValueError)).
(** :422-461; the number beside the result counts the seeds drawn *)
Definition ejecta_distribution (p : shape) (r theta : given) : result (array * array) * nat :=
  match py_ejecta_profile p r, asarray r, asarray theta with
  | Ok thickness, Ok a, Ok t =>
      (rbind (bound_ray_intensity (ravel a) (radians_of (ravel t))) (fun intensity =>
       rbind (multiply_in_place thickness intensity) (fun product =>
       rbind (shape_attr r) (fun s =>
       Ok (mk_array F64 s (a_data product), mk_array F64 s intensity)))), 1%nat)
  | Err e, _, _ | _, Err e, _ | _, _, Err e => (Err e, 0%nat)
  end.
(** :463-501 *)
Definition ray_intensity (r theta : given) : result array * nat :=
  match asarray r, asarray theta with
  | Ok a, Ok t =>
      (rbind (bound_ray_intensity (ravel a) (radians_of (ravel t))) (fun intensity =>
       rbind (shape_attr r) (fun s => Ok (mk_array F64 s intensity))), 1%nat)
  | Err e, _ | _, Err e => (Err e, 0%nat)
  end.
End Rays.
