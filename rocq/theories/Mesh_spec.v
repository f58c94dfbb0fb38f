(** Independent specification vocabulary for meshes. *)
From Coq Require Import Reals List ZArith.
From Verif Require Import RSum Mesh_model.
Import ListNotations.
Open Scope R_scope.

(** An edge joins faces [a] and [b] of the mesh. *)
Definition joins (rg : region) (e : edge) (a b : nat) : Prop :=
  e_f1 e = Z.of_nat a /\ e_f2 e = Z.of_nat b /\ (a < n_face rg)%nat /\ (b < n_face rg)%nat.

(** A geometrically sensible mesh: positive face areas, and every edge between
    two faces of the region has a positive centre distance and a non-negative
    length.  Boundary edges (with a missing face) are unconstrained. *)
Definition sensible (rg : region) : Prop :=
  (forall f, (f < n_face rg)%nat -> 0 < face_area rg f) /\
  (forall e a b, In e (edges rg) -> joins rg e a b -> 0 < e_dist e /\ 0 <= e_len e).

(** Volume under a field over the region. *)
Definition volume (rg : region) (h : nat -> R) : R :=
  fsum (n_face rg) (fun f => face_area rg f * h f).

Definition energy (rg : region) (h : nat -> R) : R :=
  fsum (n_face rg) (fun f => face_area rg f * (h f * h f)).

Definition within (rg : region) (lo hi : R) (h : nat -> R) : Prop :=
  forall f, (f < n_face rg)%nat -> lo <= h f <= hi.

Definition nonneg_on (rg : region) (k : nat -> R) : Prop :=
  forall f, (f < n_face rg)%nat -> 0 <= k f.

(** Gather form of the finite-volume right-hand side at one face: sum over the
    edges of the face of mean diffusivity * height difference * length / distance,
    divided by the face area (documented at mod.rs:54-60). *)
Definition edge_inflow (kappa h : nat -> R) (rg : region) (f : nat) (e : edge) : R :=
  if ((0 <=? e_f1 e) && (e_f1 e <? Z.of_nat (n_face rg)) &&
      (0 <=? e_f2 e) && (e_f2 e <? Z.of_nat (n_face rg)))%Z%bool then
    let a := Z.to_nat (e_f1 e) in
    let b := Z.to_nat (e_f2 e) in
    let w := (kappa a + kappa b) / 2 * e_len e / e_dist e in
    (if Nat.eqb f a then w * (h b - h a) else 0) +
    (if Nat.eqb f b then w * (h a - h b) else 0)
  else 0.

Definition fv_step (dt : R) (kappa : nat -> R) (rg : region) (h : nat -> R) : nat -> R :=
  fun f => h f + dt * (lsum (edge_inflow kappa h rg f) (edges rg) / face_area rg f).

(** Face numbers of a node's row: the non-negative entries (negative = fill). *)
Definition real_faces (row : list Z) : list nat :=
  map Z.to_nat (filter (fun z => (0 <=? z)%Z) row).

Definition faces_in_range (rg : region) (row : list Z) : Prop :=
  forall z, In z row -> (z < Z.of_nat (n_face rg))%Z.
