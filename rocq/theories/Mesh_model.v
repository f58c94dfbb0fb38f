(** Model of the mesh operators of
    crates/cratermaker-components/src/surface/mod.rs.
    Simplifications: f64 is R; arrays are functions [nat -> R] read only below
    the array length; parallel maps are ordinary maps (each element is computed
    independently of the others in the source). *)
From Coq Require Import Reals List ZArith Arith.
From Verif Require Import Common Trig_model.
Import ListNotations.
Open Scope R_scope.

(** One row of edge_face_connectivity with edge_face_distance and edge_length. *)
Record edge := mk_edge { e_f1 : Z; e_f2 : Z; e_dist : R; e_len : R }.

(** The fields of LocalSurfaceView (mod.rs:8-52) that these operators read.
    [face_edges f] is the row of face_edge_connectivity as edge numbers, and
    [node_faces] the rows of node_face_connectivity. *)
Record region := mk_region {
  n_face : nat;
  face_area : nat -> R;
  face_lon : nat -> R;
  face_lat : nat -> R;
  edges : list edge;
  face_edges : nat -> list Z;
  node_faces : list (list Z)
}.

(** mod.rs:714-753 extract_edge_faces: a negative i64 cast to usize is out of
    range, hence None. *)
Definition extract_edge_faces (e : edge) (n : nat) : option (nat * nat) :=
  if ((0 <=? e_f1 e) && (e_f1 e <? Z.of_nat n) &&
      (0 <=? e_f2 e) && (e_f2 e <? Z.of_nat n))%Z%bool
  then Some (Z.to_nat (e_f1 e), Z.to_nat (e_f2 e)) else None.

(** a[i] += v *)
Definition add_at (a : nat -> R) (i : nat) (v : R) : nat -> R :=
  fun j => if Nat.eqb j i then a j + v else a j.

(** mod.rs:672-696: accumulation of inverse time steps. *)
Definition inv_dt_step (kappa : nat -> R) (rg : region) (acc : nat -> R) (e : edge) : nat -> R :=
  if Rle_dec (e_dist e) 0 then acc else
  match extract_edge_faces e (n_face rg) with
  | None => acc
  | Some (f1, f2) =>
      let k_avg := / 2 * (kappa f1 + kappa f2) in
      if Rlt_dec 0 k_avg then
        let c1 := 2 * k_avg * e_len e / (e_dist e * face_area rg f1) in
        let c2 := 2 * k_avg * e_len e / (e_dist e * face_area rg f2) in
        add_at (add_at acc f1 c1) f2 c2
      else acc
  end.

Definition inverse_dt_sum (kappa : nat -> R) (rg : region) : nat -> R :=
  fold_left (inv_dt_step kappa rg) (edges rg) (fun _ => 0).

(** mod.rs:698-703: min over positive entries of 1/x; [None] is +infinity. *)
Definition min_inv (acc : option R) (x : R) : option R :=
  if Rlt_dec 0 x then
    match acc with None => Some (1 / x) | Some m => Some (Rmin m (1 / x)) end
  else acc.

Definition compute_dt_max (kappa : nat -> R) (rg : region) : option R :=
  fold_left min_inv (map (inverse_dt_sum kappa rg) (seq 0 (n_face rg))) None.

(** f64::ceil *)
Definition ceil (x : R) : Z := (- Int_part (- x))%Z.

(** mod.rs:93-116: accumulate fluxes of one edge. [h] is face_variable+face_delta. *)
Definition flux_step (kappa h : nat -> R) (rg : region) (dhdt : nat -> R) (e : edge) : nat -> R :=
  match extract_edge_faces e (n_face rg) with
  | None => dhdt
  | Some (f1, f2) =>
      let flux := (kappa f1 + kappa f2) * (h f2 - h f1) / e_dist e * e_len e in
      add_at (add_at dhdt f1 (flux / face_area rg f1)) f2 (- (flux / face_area rg f2))
  end.

Definition dhdt (kappa h : nat -> R) (rg : region) : nat -> R :=
  fold_left (flux_step kappa h rg) (edges rg) (fun _ => 0).

(** mod.rs:88-120: one pass of the outer loop. *)
Definition diffusion_loop (fac : R) (kappa variable : nat -> R) (rg : region)
    (delta : nat -> R) : nat -> R :=
  let d := dhdt kappa (fun f => variable f + delta f) rg in
  fun f => delta f + fac * d f.

(** mod.rs:72-123 apply_diffusion. *)
Definition apply_diffusion (kappa variable : nat -> R) (rg : region) : nat -> R :=
  match compute_dt_max kappa rg with
  | None => fun _ => 0
  | Some dt_max =>
      if Rle_dec dt_max 0 then fun _ => 0 else
      let nloops := Z.to_nat (ceil (1 / dt_max)) in
      let dt := 1 / INR nloops in
      let fac := dt / 2 in
      Nat.iter nloops (diffusion_loop fac kappa variable rg) (fun _ => 0)
  end.

(** mod.rs:217-249: neighbours of a face through its edges, with distance and
    length. An edge number out of range of the edge list would panic in Rust;
    here it is skipped ([nth_error]). *)
Definition neighbour (rg : region) (f : nat) (eid : Z) : option (nat * R * R) :=
  if (eid <? 0)%Z then None else
  match nth_error (edges rg) (Z.to_nat eid) with
  | None => None
  | Some e =>
    match extract_edge_faces e (n_face rg) with
    | None => None
    | Some (f1, f2) =>
      let keep o := if Rle_dec (e_dist e) 0 then None
                    else if Rle_dec (e_len e) 0 then None
                    else Some (o, e_dist e, e_len e) in
      if Nat.eqb f f1 then keep f2 else if Nat.eqb f f2 then keep f1 else None
    end
  end.

Fixpoint filter_map {A B} (g : A -> option B) (l : list A) : list B :=
  match l with
  | [] => []
  | a :: l => match g a with Some b => b :: filter_map g l | None => filter_map g l end
  end.

Definition to_radians (x : R) : R := x * PI / 180.

(** mod.rs:206-281 compute_one_face_gradient. *)
Definition compute_one_face_gradient (rg : region) (variable : nat -> R) (f : nat) : R * R :=
  let neighbors := filter_map (neighbour rg f) (face_edges rg f) in
  if (List.length neighbors <? 2)%nat then (0, 0) else
  let '(dz, dm, ws) :=
    fold_left (fun '(dz, dm, ws) '(other, distance, len) =>
      let theta := compute_one_bearing (to_radians (face_lon rg f)) (to_radians (face_lat rg f))
                     (to_radians (face_lon rg other)) (to_radians (face_lat rg other)) in
      let flux := (variable other - variable f) * len / distance in
      (dz + flux * sin theta, dm + flux * cos theta, ws + len))
      neighbors (0, 0, 0) in
  if Rlt_dec 0 ws then (dz / ws, dm / ws) else (0, 0).

(** mod.rs:177-186 compute_face_slope_squared. *)
Definition slope_squared (rg : region) (h : nat -> R) (f : nat) : R :=
  let '(dx, dy) := compute_one_face_gradient rg h f in dx * dx + dy * dy.

(** mod.rs:298-309 compute_slope, and surface/__init__.py:2407-2421 (degrees). *)
Definition compute_slope_deg (rg : region) (h : nat -> R) (f : nat) : R :=
  atan (sqrt (slope_squared rg h f)) * 180 / PI.

(** mod.rs:343-352: diffusivity of a face in a slope collapse step, for a finite
    diffmax. *)
Definition collapse_kappa (rg : region) (diffmax crit_sq : R) (h : nat -> R) (f : nat) : R :=
  let slope_sq := slope_squared rg h f in
  if Rlt_dec crit_sq slope_sq then diffmax * (1 + slope_sq / crit_sq) * 10 else 0.

(** mod.rs:356: number of faces with kappa > 0 is not zero. *)
Definition any_positive (n : nat) (kappa : nat -> R) : bool :=
  existsb (fun f => if Rlt_dec 0 (kappa f) then true else false) (seq 0 n).

Definition any_steep (rg : region) (crit_sq : R) (h : nat -> R) : bool :=
  existsb (fun f => if Rlt_dec crit_sq (slope_squared rg h f) then true else false)
          (seq 0 (n_face rg)).

(** mod.rs:336-365: the loop; [fuel] is what remains of looplimit = 1000.
    The boolean tells whether the loop left through [break] (mod.rs:357-359).
    An infinite diffmax ([None]) or a zero critical slope makes the diffusivity of
    an over-steep face infinite in f64; the model reports [Err RustErr] there
    instead of computing with infinities. *)
Fixpoint collapse_loop (fuel : nat) (rg : region) (diffmax : option R) (crit_sq : R)
    (h0 delta : nat -> R) : result (bool * (nat -> R)) :=
  match fuel with
  | O => Ok (false, delta)
  | S fuel =>
      let h := fun f => h0 f + delta f in
      match diffmax, Req_EM_T crit_sq 0 with
      | Some dm, right _ =>
          let kappa := collapse_kappa rg dm crit_sq h in
          if any_positive (n_face rg) kappa then
            let d := apply_diffusion kappa h rg in
            collapse_loop fuel rg diffmax crit_sq h0 (fun f => delta f + d f)
          else Ok (true, delta)
      | _, _ => if any_steep rg crit_sq h then Err RustErr else Ok (true, delta)
      end
  end.

(** mod.rs:325-367 slope_collapse.  The iteration limit is a parameter; the source
    fixes it to 1000 (mod.rs:333) and the theorems hold for every limit. *)
Definition slope_collapse (looplimit : nat) (critical_slope : R) (rg : region) (h0 : nat -> R)
    : result (bool * (nat -> R)) :=
  let crit_sq := critical_slope * critical_slope in
  let diffmax := compute_dt_max (fun _ => 1) rg in
  collapse_loop looplimit rg diffmax crit_sq h0 (fun _ => 0).

(** surface/__init__.py:2389-2405 slope_collapse: tangent of the angle in degrees. *)
Definition slope_collapse_deg (looplimit : nat) (angle : R) (rg : region) (h0 : nat -> R) :=
  slope_collapse looplimit (tan (to_radians angle)) rg h0.

(** mod.rs:379-401 interpolate_node_elevation_from_faces, one node. *)
Definition node_elevation (rg : region) (h : nat -> R) (row : list Z) : R :=
  let '(ws, area) :=
    fold_left (fun '(ws, area) fid =>
      if (fid <? 0)%Z then (ws, area)
      else let f := Z.to_nat fid in (ws + h f * face_area rg f, area + face_area rg f))
      row (0, 0) in
  if Rlt_dec 0 area then ws / area else 0.

Definition interpolate_node_elevation (rg : region) (h : nat -> R) : list R :=
  map (node_elevation rg h) (node_faces rg).

(** constants.py:20: 10 * the smallest normal double. *)
Definition VSMALL : R := 10 * powerRZ 2 (-1022).

(** np.max over the faces, with a starting value below every admissible entry. *)
Definition face_max (n : nat) (k : nat -> R) : R :=
  fold_left Rmax (map k (seq 0 n)) 0.

(** surface/__init__.py:2360-2387 LocalSurface.apply_diffusion on (face elevation,
    ejecta thickness).  Simplifications: [kdiff] is already an array with one
    entry per face (a scalar is a constant array); the node elevations that
    update_elevation re-interpolates are [interpolate_node_elevation] of the
    result; reaching [face_max] every entry is >= 0, so starting it at 0 is exact.
    The thickness is clipped at zero by positive_only (2188-2189). *)
Definition py_apply_diffusion (kdiff : nat -> R) (rg : region) (elev ejecta : nat -> R)
    : result ((nat -> R) * (nat -> R)) :=
  if existsb (fun f => if Rlt_dec (kdiff f) 0 then true else false) (seq 0 (n_face rg))
  then Err ValueError
  else if Rlt_dec (Rabs (face_max (n_face rg) kdiff)) VSMALL then Ok (elev, ejecta)
  else
    let delta := apply_diffusion kdiff elev rg in
    Ok (fun f => elev f + delta f, fun f => Rmax 0 (ejecta f + delta f)).
