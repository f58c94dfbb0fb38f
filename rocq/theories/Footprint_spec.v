(** Vocabulary for the theorems about Footprint_model. *)
From Coq Require Import Reals.
From Verif Require Import Common Region_model Region_spec Footprint_model.
Import ListNotations.
Open Scope R_scope.

Section Spec.
Context {L : Type}.

(** The region of the surface within a distance of the crater, if it has any face. *)
Definition around (w : world L) (c : fixed L) (r : R) : option view :=
  extract_region (w_mesh w) (w_radius w) (w_query w (c_at c)) (w_nearest w (c_at c)) r false.
(** The crater is large enough for the mesh: there are faces within one and a half radii. *)
Definition resolved (w : world L) (c : fixed L) : Prop := around w c (1.5 * c_radius c) <> None.

(** The answers as functions of the crater and of the surface alone. *)
Definition right (w : world L) (c : fixed L) (o : op L) (a : result answer) : Prop :=
  let inner := around w c (1.5 * c_radius c) in
  let outer := around w c (w_extent w c) in
  match o with
  | FaceIndex => a = Ok (AnIndex (Some (w_nearest w (c_at c))))
  | EjectaRmax => a = Ok (ALength (Some (w_extent w c)))
  | CraterRegion => a = Ok (ARegion inner)
  | EjectaRegion => (resolved w c -> a = Ok (ARegion outer)) /\ (~ resolved w c -> a = Ok (ARegion None))
  | AffectedFaces =>
      (~ resolved w c -> a = Ok (ASet None)) /\
      (resolved w c -> forall r, outer = Some r -> a = Ok (ASet (Some (v_faces r)))) /\
      (resolved w c -> outer = None -> a = Ok (ASet (Some [])))
  | AffectedNodes =>
      (~ resolved w c -> a = Ok (ASet None)) /\
      (resolved w c -> forall r, outer = Some r -> a = Ok (ASet (Some (v_nodes r)))) /\
      (resolved w c -> outer = None -> a = Ok (ASet (Some [])))
  | Emplaceable => exists b, a = Ok (AFlag (Some b)) /\ (b = true <-> resolved w c)
  | Overlap =>
      (forall r, resolved w c -> outer = Some r -> a = Ok (ASets (v_nodes r) (v_faces r))) /\
      (~ resolved w c \/ outer = None -> a = Ok (ASets [] []))
  | Form =>
      (* formed when resolved and larger, with its rim, than the face below it *)
      let big := w_area w (w_nearest w (c_at c)) < PI * (1.5 * c_radius c) ^ 2 in
      (~ resolved w c \/ ~ big -> a = Ok (ADigging Skipped)) /\
      (resolved w c -> big -> forall r, outer = Some r -> a = Ok (ADigging (Digs r))) /\
      (resolved w c -> big -> outer = None -> a = Err AttributeError)
  | Drop | Surface _ => a = Ok Nothing
  end.

(** No other surface is set. *)
Definition stays (o : op L) : Prop := match o with Surface _ => False | _ => True end.
(** Each surface that is set has no data yet. *)
Definition waits (o : op L) : Prop := match o with Surface w => w_ready w = false | _ => True end.
(** Nothing is known yet. *)
Definition unknown (o : op L) (a : result answer) : Prop :=
  match o with
  | FaceIndex => a = Ok (AnIndex None) | EjectaRmax => a = Ok (ALength None)
  | CraterRegion | EjectaRegion => a = Ok (ARegion None)
  | AffectedFaces | AffectedNodes => a = Ok (ASet None)
  | Emplaceable => a = Ok (AFlag None) | Overlap => a = Ok (ASets [] [])
  | Form => a = Ok (ADigging Skipped)
  | Drop | Surface _ => a = Ok Nothing
  end.

(** The ball tree finds faces of the mesh, and more of them in a larger circle. *)
Definition tree_like (w : world L) : Prop :=
  (forall p a f, In f (w_query w p a) -> (f < m_nface (w_mesh w))%nat) /\
  (forall p a b, a <= b -> incl (w_query w p a) (w_query w p b)).
End Spec.

(* ------------------------------ samples ------------------------------ *)
(** A strip of ten faces, face i at position i, with nodes and edges i and i + 1. *)
Definition row (k n : nat) (i : nat) : list (option nat) :=
  [ (if Nat.leb 1 i then Some (i - 1)%nat else None); (if Nat.ltb (i + k) n then Some (i + k)%nat else None) ].
Definition long_strip : mesh := {|
  m_nface := 10; m_nnode := 11; m_nedge := 11;
  face_edges := fun i => [Some i; Some (S i)]; face_nodes := fun i => [Some i; Some (S i)];
  face_faces := row 1 10; node_faces_of := row 0 10; edge_faces := row 0 10;
  edge_nodes := fun e => [Some e; None] |}.
Definition strip_faces (p a : R) : list nat :=
  filter (fun f => if Rle_dec (INR f) (p + a) then if Rle_dec (p - a) (INR f) then true else false else false) (seq 0 10).
(** Ejecta that end at [t] radii, on faces of area [area]. *)
Definition strip_world (ready : bool) (t area : R) : world R :=
  mk_world ready long_strip strip_radius strip_faces (fun p => Z.to_nat (Int_part (p + 1 / 2))) (fun _ => area) (fun c => t * c_radius c).
