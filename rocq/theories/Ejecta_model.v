(** Model of the volume bookkeeping in
    cratermaker/components/morphology/__init__.py (form_crater, form_ejecta) and
    morphology/basicmoon.py (form_ejecta), over one ejecta region.
    The shapes (crater profile, ejecta profile, ray intensity) are arbitrary
    fields; profiles are modelled separately in Profile_model.v. *)
From Coq Require Import Reals.
From Verif Require Import Common RSum Mesh_model.
Open Scope R_scope.

Record fields := mk_fields { elev : nat -> R; thick : nat -> R }.

(** surface/__init__.py:2701-2717 compute_volume. *)
Definition compute_volume (rg : region) (h : nat -> R) : R :=
  fsum (n_face rg) (fun f => h f * face_area rg f).

(** morphology/__init__.py:622-660 form_ejecta.  [V] is the recorded
    _excavated_volume, [shape] the ejecta thickness profile.  [Ok None] is the bare
    [return] for a zero volume.  A zero ejecta volume gives inf/nan in numpy; the
    model stops with [Err ZeroDivisionError] there. *)
Definition form_ejecta (rg : region) (V : R) (shape : nat -> R) (s : fields)
    : result (option (fields * (nat -> R))) :=
  if Req_EM_T V 0 then Ok None else
  let t := fun f => Rmax (shape f) 0 in
  let ejecta_volume := compute_volume rg t in
  if Req_EM_T ejecta_volume 0 then Err ZeroDivisionError else
  let conservation_factor := - V / ejecta_volume in
  let t' := fun f => t f * conservation_factor in
  Ok (Some (mk_fields (fun f => elev s f + t' f) (fun f => thick s f + t' f), t')).

(** basicmoon.py:245-271 form_ejecta: unpacking the [None] of the base method is a
    TypeError; then two diffusion steps, with the burial degradation
    1.5 t^2 (basicmoon.py:503-525) and a degradation proportional to the ejecta
    intensity. *)
Definition form_ejecta_basicmoon (rg : region) (V : R) (shape intensity : nat -> R)
    (k_deg : R) (s : fields) : result fields :=
  rbind (form_ejecta rg V shape s) (fun r =>
  match r with
  | None => Err TypeError
  | Some (s1, t) =>
      rbind (py_apply_diffusion (fun f => 3 / 2 * t f ^ 2) rg (elev s1) (thick s1)) (fun '(e2, h2) =>
      rbind (py_apply_diffusion (fun f => k_deg * intensity f) rg e2 h2) (fun '(e3, h3) =>
      Ok (mk_fields e3 h3)))
  end).

(** morphology/__init__.py:575-620 form_crater followed by basicmoon's form_ejecta.
    [dz] is the elevation change of the crater shape, [inner] the faces of the inner
    crater region whose ejecta thickness is reset, [crater_area] and [centre_area]
    the two sides of the size test at line 595, [limit] the slope-collapse loop limit.
    Not modelled here: counting (add/tally) and the node half of the arrays. *)
Definition form_crater (rg : region) (limit : nat) (do_collapse : bool)
    (crater_area centre_area : R) (dz : nat -> R) (inner : nat -> bool)
    (shape intensity : nat -> R) (k_deg : R) (s : fields) : result fields :=
  if Rlt_dec centre_area crater_area then
    let e1 := fun f => elev s f + dz f in
    rbind (if do_collapse then
             rbind (slope_collapse_deg limit 35 rg e1) (fun '(_, d) =>
               Ok (fun f => e1 f + d f, fun f => Rmax 0 (thick s f + d f)))
           else Ok (e1, thick s)) (fun '(e2, h2) =>
    let V := compute_volume rg dz in
    let h3 := fun f => if inner f then 0 else h2 f in
    form_ejecta_basicmoon rg V shape intensity k_deg (mk_fields e2 h3))
  else Ok s.
