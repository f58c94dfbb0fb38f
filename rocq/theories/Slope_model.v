(** Model of the slopes and radial gradients a surface reports:
    surface/__init__.py (LocalSurface.compute_slope, compute_radial_gradient),
    the bindings they call (crates/cratermaker-py/src/surface_bindings.rs) and
    crates/cratermaker-components/src/surface/mod.rs.  The gradient at one face and the
    squared slope are [compute_one_face_gradient] and [slope_squared] of Mesh_model. *)
From Coq Require Import Reals List ZArith Arith String.
From Verif Require Import Common Trig_model Mesh_model.
Import ListNotations.
Open Scope R_scope.

(** Calling a compiled function by keyword: pyo3 raises TypeError for a keyword that is
    not among the function's arguments, and for an argument that is not given. *)
Definition call_keywords (arguments given : list string) : result unit :=
  if forallb (fun k => existsb (String.eqb k) arguments) given
     && forallb (fun a => existsb (String.eqb a) given) arguments
  then Ok tt else Err TypeError.

(** surface_bindings.rs:309-313: the arguments of compute_slope (the interpreter token is
    not one). *)
Definition slope_arguments : list string := ["region"%string].

(** surface_bindings.rs:279-284: the arguments of compute_radial_gradient. *)
Definition radial_arguments : list string := ["variable"%string; "region"%string].

(** mod.rs:298-309 compute_slope: the square root of the squared slope of each face. *)
Definition compute_slope (rg : region) (h : nat -> R) : list R :=
  map (fun f => sqrt (slope_squared rg h f)) (seq 0 (n_face rg)).

(** surface/__init__.py:2407-2421 compute_slope: calls the binding with the keywords of
    lines 2417-2418 and turns the slopes into degrees. *)
Definition py_compute_slope (rg : region) (h : nat -> R) : result (list R) :=
  rbind (call_keywords slope_arguments ["face_elevation"%string; "region"%string]) (fun _ =>
  Ok (map (fun s => atan s * 180 / PI) (compute_slope rg h))).

(** mod.rs:138-155 compute_radial_gradient: the bearings are in degrees, and are missing
    for a view of the whole surface, which is an error that the binding turns into a
    ValueError (surface_bindings.rs:288-290).  Reading past the end of the variable panics
    in Rust; it is RuntimeError here. *)
Definition compute_radial_gradient (rg : region) (bearing : option (nat -> R)) (variable : list R)
    : result (list R) :=
  match bearing with
  | None => Err ValueError
  | Some b =>
      if (List.length variable <? n_face rg)%nat then Err RuntimeError else
      Ok (map (fun f =>
        let '(grad_zonal, grad_meridional) :=
          compute_one_face_gradient rg (fun i => nth i variable 0) f in
        grad_meridional * cos (to_radians (b f)) + grad_zonal * sin (to_radians (b f)))
        (seq 0 (n_face rg)))
  end.

(** What a caller passes: the name of a variable of the surface or an array. *)
Inductive field := Named (name : string) | Values (v : list R).

(** surface/__init__.py:2744-2769 compute_radial_gradient; [data] is the dataset of the
    surface, which also holds variables that live on the nodes. *)
Definition py_compute_radial_gradient (rg : region) (bearing : option (nat -> R))
    (data : string -> option (list R)) (variable : field) : result (list R) :=
  rbind (match variable with
         | Named s => match data s with None => Err ValueError | Some v => Ok v end
         | Values v => if (List.length v =? n_face rg)%nat then Ok v else Err ValueError
         end) (fun v =>
  rbind (call_keywords radial_arguments ["variable"%string; "region"%string]) (fun _ =>
  compute_radial_gradient rg bearing v)).
