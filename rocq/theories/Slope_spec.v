(** Vocabulary of the claim about slopes (C101). *)
From Coq Require Import Reals List ZArith Arith.
From Verif Require Import Common RSum Trig_model Mesh_model Mesh_spec.
Import ListNotations.
Open Scope R_scope.

(** A face next to another one: its number, how far its centre is, and how long the edge
    between the two is. *)
Notation next_to := (nat * R * R)%type.
Definition face_of (p : next_to) : nat := fst (fst p).
Definition dist_of (p : next_to) : R := snd (fst p).
Definition len_of (p : next_to) : R := snd p.

(** Edge number [z] leads from face [f] to face [o], and has a distance and a length. *)
Definition leads (rg : region) (f : nat) (z : Z) (p : next_to) : Prop :=
  exists e, (0 <= z)%Z /\ nth_error (edges rg) (Z.to_nat z) = Some e /\
    (joins rg e f (face_of p) \/ joins rg e (face_of p) f) /\
    dist_of p = e_dist e /\ len_of p = e_len e /\ 0 < e_dist e /\ 0 < e_len e.

(** The faces around [f], one for each edge of its row that leads somewhere. *)
Inductive around (rg : region) (f : nat) : list Z -> list next_to -> Prop :=
| around_end : around rg f [] []
| around_next z p row l : leads rg f z p -> around rg f row l -> around rg f (z :: row) (p :: l)
| around_none z row l : (forall p, ~ leads rg f z p) -> around rg f row l -> around rg f (z :: row) l.

(** The bearing on which a face sees another one, in radians clockwise from north. *)
Definition azimuth (rg : region) (f o : nat) : R :=
  compute_one_bearing (to_radians (face_lon rg f)) (to_radians (face_lat rg f))
                      (to_radians (face_lon rg o)) (to_radians (face_lat rg o)).

(** How fast the field rises from [f] towards a face around it. *)
Definition rise (h : nat -> R) (f : nat) (p : next_to) : R := (h (face_of p) - h f) / dist_of p.

(** The field is a plane around [f]: it rises [gx] per metre eastwards and [gy] northwards. *)
Definition plane (rg : region) (h : nat -> R) (f : nat) (l : list next_to) (gx gy : R) : Prop :=
  forall p, In p l ->
    rise h f p = gx * sin (azimuth rg f (face_of p)) + gy * cos (azimuth rg f (face_of p)).

(** The faces around [f] lie as evenly around it as those of a regular grid do: the edges,
    weighted by their lengths, favour no direction. *)
Definition even_around (rg : region) (f : nat) (l : list next_to) : Prop :=
  lsum (fun p => len_of p * cos (2 * azimuth rg f (face_of p))) l = 0 /\
  lsum (fun p => len_of p * sin (2 * azimuth rg f (face_of p))) l = 0.

(** The direction from the centre of a region to a face, as seen at that face: the
    opposite of the bearing back to the centre. *)
Definition outward (rg : region) (lon0 lat0 : R) (f : nat) : R :=
  compute_one_bearing (to_radians (face_lon rg f)) (to_radians (face_lat rg f))
                      (to_radians lon0) (to_radians lat0) + PI.

(** The bearings a local region has: those of its faces as seen from its centre, in
    degrees (surface/__init__.py:2510-2549). *)
Definition bearing_from (rg : region) (lon0 lat0 : R) (f : nat) : R :=
  compute_bearing_elem (to_radians lon0) (to_radians lat0)
                       (to_radians (face_lon rg f)) (to_radians (face_lat rg f)) * 180 / PI.
