(** Model of the operations of a region of a high resolution local surface:
    cratermaker/components/surface/hireslocal.py: LocalHiResLocalSurface (838-1086), which act on
    the part of the region inside the local region only, and the same operations of a plain
    region (surface/__init__.py: apply_diffusion 2360-2387, slope_collapse 2389-2405, apply_noise
    2423-2467, add_tag 2259-2324).
    Simplifications as in Region_model; the compiled diffusion and slope collapse and the noise
    are arguments (functions of the view and its elevations that may fail). *)
From Coq Require Import Reals List Arith NArith.
From Verif Require Import Common RSum Mesh_model Region_model.
From Verif Require Tags_model.
Import ListNotations.
Open Scope R_scope.

(** Index sets of a view: slice(None) or an index array. *)
Inductive index := All | Ids (l : list nat).
Record hview := mk_hv { h_faces : index; h_nodes : index; h_edges : index; h_radius : R }.

(** surface.face_indices[self.face_indices] and the like: 1031-1039. *)
Definition ids (n : nat) (i : index) : list nat := match i with All => seq 0 n | Ids l => l end.
(** np.isin(a, b, kind="table"): only for integers; a slice is not an array of integers. *)
Definition isin (a : list nat) (b : index) : result (list bool) :=
  match b with All => Err ValueError | Ids l => Ok (map (fun x => existsb (Nat.eqb x) l) a) end.
(** a[mask] *)
Fixpoint select {A} (l : list A) (mask : list bool) : list A :=
  match l, mask with
  | x :: l, b :: mask => if b then x :: select l mask else select l mask
  | _, _ => []
  end.
Definition any (mask : list bool) : bool := existsb (fun b => b) mask.

(** The view as a plain region. *)
Definition plain (m : mesh) (v : hview) : view :=
  mkView (ids (m_nface m) (h_faces v)) (ids (m_nnode m) (h_nodes v)) (ids (m_nedge m) (h_edges v)) (h_radius v).

(** local_overlap and face_mask: 1024-1086.  [loc] is surface.local. *)
Definition overlap (m : mesh) (loc : option hview) (v : hview) : result (option (list bool * view)) :=
  match loc with
  | None => Ok None
  | Some lo =>
      let face_indices := v_faces (plain m v) in
      let node_indices := v_nodes (plain m v) in
      let edge_indices := v_edges (plain m v) in
      rbind (isin face_indices (h_faces lo)) (fun face_mask =>
      if negb (any face_mask) then Ok None else
      let shared_faces := select face_indices face_mask in
      if Nat.eqb (List.length shared_faces) (List.length face_indices)
      then Ok (Some (face_mask, mkView shared_faces node_indices edge_indices (h_radius v)))
      else
        rbind (isin node_indices (h_nodes lo)) (fun node_mask =>
        if negb (any node_mask) then Ok None else
        rbind (isin edge_indices (h_edges lo)) (fun edge_mask =>
        if negb (any edge_mask) then Ok None else
        Ok (Some (face_mask, mkView shared_faces (select node_indices node_mask) (select edge_indices edge_mask) (h_radius v))))))
  end.

Section Operations.
Context (m : mesh) (areas : list R).
(** surface_bindings.apply_diffusion (kappa, elevations) and slope_collapse (angle, elevations) of a
    region; the raw noise of a region. *)
Context (diffuse : view -> list R -> list R -> result (list R)) (collapse : view -> R -> list R -> result (list R)) (noise : view -> list R).
(** _VSMALL of constants.py:20, positive *)
Context (vsmall : R).

Definition elevations (v : view) (s : dataset) : list R :=
  match s "face_elevation"%string with Some l => take l (v_faces v) | None => [] end.
(** 2385-2386, 2404-2405: the change goes to the elevations and to the ejecta layer. *)
Definition spread (v : view) (s : dataset) (delta : list R) : dataset * result unit :=
  sbind (update_elevation m areas v s delta false) (fun s =>
    add_data m v s "ejecta_thickness" (Arr delta) true false 0 true).

(** LocalSurface.apply_diffusion: 2360-2387. *)
Definition apply_diffusion (v : view) (kdiff : data) (s : dataset) : dataset * result unit :=
  let nf := List.length (v_faces v) in
  let k := match kdiff with Scalar x => repeat x nf | Arr l => l end in
  if negb (Nat.eqb (List.length k) nf) then (s, Err ValueError)
  else if existsb (fun x => if Rlt_dec x 0 then true else false) k then (s, Err ValueError)
  else match k with
       | [] => (s, Err ValueError)
       | a :: r =>
           if Rlt_dec (Rabs (rmax a r)) vsmall then (s, Ok tt)
           else match diffuse v k (elevations v s) with
                | Err e => (s, Err e)
                | Ok delta => spread v s delta
                end
       end.
(** LocalSurface.slope_collapse: 2389-2405. *)
Definition slope_collapse (v : view) (angle : R) (s : dataset) : dataset * result unit :=
  match collapse v angle (elevations v s) with
  | Err e => (s, Err e)
  | Ok delta => spread v s delta
  end.

Context (loc : option hview).
(** LocalHiResLocalSurface.apply_diffusion: 919-939. *)
Definition hires_diffusion (v : hview) (kdiff : data) (s : dataset) : dataset * result unit :=
  match overlap m loc v with
  | Err e => (s, Err e)
  | Ok None => (s, Ok tt)
  | Ok (Some (face_mask, w)) =>
      match kdiff with
      | Scalar x => apply_diffusion w (Scalar x) s
      | Arr l => if Nat.eqb (List.length l) (List.length face_mask)
                 then apply_diffusion w (Arr (select l face_mask)) s
                 else (s, Err IndexError)
      end
  end.
(** LocalHiResLocalSurface.slope_collapse: 941-956. *)
Definition hires_collapse (v : hview) (angle : R) (s : dataset) : dataset * result unit :=
  match overlap m loc v with
  | Err e => (s, Err e)
  | Ok None => (s, Ok tt)
  | Ok (Some (_, w)) => slope_collapse w angle s
  end.
(** LocalHiResLocalSurface.apply_noise: 958-985. *)
Definition hires_noise (v : hview) (s : dataset) : dataset * result unit :=
  match overlap m loc v with
  | Err e => (s, Err e)
  | Ok None => (s, Ok tt)
  | Ok (Some (_, w)) => apply_noise m areas w s (noise w)
  end.
(** LocalHiResLocalSurface.add_tag: 890-917, on the tag table of Tags_model. *)
Definition hires_tag (v : hview) (tag : option N) (tag_superdomain : bool) (t : option Tags_model.table) : result (option Tags_model.table) :=
  if tag_superdomain then Ok (Tags_model.add_tag (v_faces (plain m v)) tag t)
  else match overlap m loc v with
       | Err e => Err e
       | Ok None => Ok t
       | Ok (Some (_, w)) => Ok (Tags_model.add_tag (v_faces w) tag t)
       end.

(** The same operations of the surface itself: surface/__init__.py:407-504 and _full (1227-1230), a plain
    region of everything. *)
Definition everything : view := mkView (seq 0 (m_nface m)) (seq 0 (m_nnode m)) (seq 0 (m_nedge m)) 0.
Definition surface_diffusion (kdiff : data) (s : dataset) : dataset * result unit := apply_diffusion everything kdiff s.
End Operations.
