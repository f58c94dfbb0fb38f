(** Model of the place of a crater on the mesh: the properties of MorphologyCrater that are
    computed when first read and then remembered (morphology/__init__.py:39-127, 217-318), what
    the queue reads of them (basicmoon.py:712-730) and the start of form_crater
    (morphology/__init__.py:575-613).
    Simplifications: floats are reals; sets of indices are lists; the crater has a morphology
    model; morphology.rmax and the ball tree of the surface always answer; a property read twice
    in a row inside another one is read once. *)
From Coq Require Import Reals.
From Verif Require Import Common Region_model.
From Verif Require Queue_model.
Import ListNotations.
Open Scope R_scope.

Section Footprint.
Context {L : Type}.

(** The fixed attributes used: location and radius (crater/__init__.py:60-160); immutable. *)
Record fixed := mk_fixed { c_at : L; c_radius : R }.

(** The surface of the morphology model.  [w_ready]: surface.uxds is not None; [w_query p a] are
    the faces of face_tree within the angle a (degrees) of p, [w_nearest] is find_nearest_face,
    [w_area] face_area, and [w_extent] is morphology.rmax(crater, smallest_length, "ejecta"). *)
Record world := mk_world {
  w_ready : bool; w_mesh : mesh; w_radius : R; w_query : L -> R -> list nat; w_nearest : L -> nat;
  w_area : nat -> R; w_extent : fixed -> R }.

(** surface.extract_region(location, region_radius): surface/__init__.py:249-323. *)
Definition extract (w : world) (p : L) (r : R) : option view :=
  extract_region (w_mesh w) (w_radius w) (w_query w p) (w_nearest w p) r false.

(** MorphologyCraterVariable: 39-51. *)
Record var := mk_var {
  x_face : option nat; x_extent : option R; x_crater : option view; x_ejecta : option view;
  x_faces : option (list nat); x_nodes : option (list nat); x_emplaceable : option bool }.
Definition fresh : var := mk_var None None None None None None None.

(** remove_complex_data: 217-227. *)
Definition remove_complex_data (v : var) : var :=
  mk_var (x_face v) (x_extent v) None None None None (x_emplaceable v).

(** _RIM_BUFFER_FACTOR: 17. *)
Definition rim_buffer : R := 1.5.

(** face_index: 229-234. *)
Definition face_index (w : world) (c : fixed) (v : var) : var * option nat :=
  match x_face v with
  | None => if w_ready w
            then let i := Some (w_nearest w (c_at c)) in
                 (mk_var i (x_extent v) (x_crater v) (x_ejecta v) (x_faces v) (x_nodes v) (x_emplaceable v), i)
            else (v, None)
  | i => (v, i)
  end.

(** ejecta_rmax: 236-243. *)
Definition ejecta_rmax (w : world) (c : fixed) (v : var) : var * option R :=
  match x_extent v with
  | None => if w_ready w
            then let e := Some (w_extent w c) in
                 (mk_var (x_face v) e (x_crater v) (x_ejecta v) (x_faces v) (x_nodes v) (x_emplaceable v), e)
            else (v, None)
  | e => (v, e)
  end.

(** crater_region: 259-271. *)
Definition crater_region (w : world) (c : fixed) (v : var) : var * option view :=
  match x_crater v with
  | None => if w_ready w
            then let r := extract w (c_at c) (rim_buffer * c_radius c) in
                 (mk_var (x_face v) (x_extent v) r (x_ejecta v) (x_faces v) (x_nodes v) (x_emplaceable v), r)
            else (v, None)
  | r => (v, r)
  end.

(** ejecta_region: 245-257.  Without an extent (no surface data any more) the division of None
    by the radius (surface/__init__.py:276) is a TypeError. *)
Definition ejecta_region (w : world) (c : fixed) (v : var) : var * result (option view) :=
  match x_ejecta v with
  | None =>
      let '(v, cr) := crater_region w c v in
      match cr with
      | None => (v, Ok None)
      | Some _ =>
          let '(v, e) := ejecta_rmax w c v in
          match e with
          | None => (v, Err TypeError)
          | Some e =>
              let r := extract w (c_at c) e in
              (mk_var (x_face v) (x_extent v) (x_crater v) r (x_faces v) (x_nodes v) (x_emplaceable v), Ok r)
          end
      end
  | r => (v, Ok r)
  end.

(** emplaceable: 313-318. *)
Definition emplaceable (w : world) (c : fixed) (v : var) : var * option bool :=
  match x_emplaceable v with
  | None => if w_ready w
            then let '(v, cr) := crater_region w c v in
                 let b := Some (match cr with None => false | Some _ => true end) in
                 (mk_var (x_face v) (x_extent v) (x_crater v) (x_ejecta v) (x_faces v) (x_nodes v) b, b)
            else (v, None)
  | b => (v, b)
  end.

(** affected_face_indices: 273-291. *)
Definition affected_faces (w : world) (c : fixed) (v : var) : var * result (option (list nat)) :=
  match x_faces v with
  | None =>
      if w_ready w then
        let '(v, b) := emplaceable w c v in
        match b with
        | Some true =>
            let '(v, r) := ejecta_region w c v in
            match r with
            | Err e => (v, Err e)
            | Ok r =>
                let s := Some (match r with Some a => v_faces a | None => [] end) in
                (mk_var (x_face v) (x_extent v) (x_crater v) (x_ejecta v) s (x_nodes v) (x_emplaceable v), Ok s)
            end
        | _ => (v, Ok None)
        end
      else (v, Ok None)
  | s => (v, Ok s)
  end.

(** affected_node_indices: 293-311. *)
Definition affected_nodes (w : world) (c : fixed) (v : var) : var * result (option (list nat)) :=
  match x_nodes v with
  | None =>
      if w_ready w then
        let '(v, b) := emplaceable w c v in
        match b with
        | Some true =>
            let '(v, r) := ejecta_region w c v in
            match r with
            | Err e => (v, Err e)
            | Ok r =>
                let s := Some (match r with Some a => v_nodes a | None => [] end) in
                (mk_var (x_face v) (x_extent v) (x_crater v) (x_ejecta v) (x_faces v) s (x_emplaceable v), Ok s)
            end
        | _ => (v, Ok None)
        end
      else (v, Ok None)
  | s => (v, Ok s)
  end.

(** overlap_function: basicmoon.py:712-730, the nodes and the faces. *)
Definition overlap_function (w : world) (c : fixed) (v : var) : var * result (list nat * list nat) :=
  let '(v, b) := emplaceable w c v in
  match b with
  | Some true =>
      let '(v, n) := affected_nodes w c v in
      match n with
      | Err e => (v, Err e)
      | Ok None => (v, Ok ([], []))
      | Ok (Some n) =>
          let '(v, f) := affected_faces w c v in
          match f with
          | Err e => (v, Err e)
          | Ok None => (v, Ok ([], []))
          | Ok (Some f) => (v, Ok (n, f))
          end
      end
  | _ => (v, Ok ([], []))
  end.

(** The start of form_crater, 575-597: nothing is formed, or the elevations of the ejecta region
    [a] are about to be changed.  LocalSurface.radius is the radius of the region
    (surface/__init__.py:4458-4461); None has no radius, and crater_shape asks None for its
    reference surface (basicmoon.py:292).  face_area[None] is an array, which has no truth
    value. *)
Inductive digging := Skipped | Digs (a : view).
Definition form_crater (w : world) (c : fixed) (v : var) : var * result digging :=
  let '(v, b) := emplaceable w c v in
  match b with
  | Some true =>
      let '(v, cr) := crater_region w c v in
      match cr with
      | None => (v, Err AttributeError)
      | Some cr =>
          let '(v, i) := face_index w c v in
          match i with
          | None => (v, Err ValueError)
          | Some i =>
              if Rlt_dec (w_area w i) (PI * (v_radius cr) ^ 2) then
                let '(v, r) := ejecta_region w c v in
                match r with
                | Err e => (v, Err e)
                | Ok None => (v, Err AttributeError)
                | Ok (Some a) => (v, Ok (Digs a))
                end
              else (v, Ok Skipped)
          end
      end
  | _ => (v, Ok Skipped)
  end.

(** What is done to a crater over its life: its properties are read, the large ones are dropped,
    the queue looks at it, it is formed; and the surface of the morphology model (or its mesh)
    may be another one from then on. *)
Inductive op :=
| FaceIndex | EjectaRmax | CraterRegion | EjectaRegion | AffectedFaces | AffectedNodes | Emplaceable
| Overlap | Form | Drop | Surface (w : world).
Inductive answer :=
| AnIndex (i : option nat) | ALength (e : option R) | ARegion (r : option view) | ASet (s : option (list nat))
| AFlag (b : option bool) | ASets (n f : list nat) | ADigging (d : digging) | Nothing.
Definition rmap {A B} (f : A -> B) (r : result A) : result B := match r with Ok x => Ok (f x) | Err e => Err e end.

Definition step (c : fixed) (o : op) (s : world * var) : (world * var) * result answer :=
  let '(w, v) := s in
  match o with
  | FaceIndex => let '(v, i) := face_index w c v in ((w, v), Ok (AnIndex i))
  | EjectaRmax => let '(v, e) := ejecta_rmax w c v in ((w, v), Ok (ALength e))
  | CraterRegion => let '(v, r) := crater_region w c v in ((w, v), Ok (ARegion r))
  | EjectaRegion => let '(v, r) := ejecta_region w c v in ((w, v), rmap ARegion r)
  | AffectedFaces => let '(v, s) := affected_faces w c v in ((w, v), rmap ASet s)
  | AffectedNodes => let '(v, s) := affected_nodes w c v in ((w, v), rmap ASet s)
  | Emplaceable => let '(v, b) := emplaceable w c v in ((w, v), Ok (AFlag b))
  | Overlap => let '(v, s) := overlap_function w c v in ((w, v), rmap (fun p => ASets (fst p) (snd p)) s)
  | Form => let '(v, d) := form_crater w c v in ((w, v), rmap ADigging d)
  | Drop => ((w, remove_complex_data v), Ok Nothing)
  | Surface w => ((w, v), Ok Nothing)
  end.

Fixpoint session (c : fixed) (os : list op) (s : world * var) : (world * var) * list (result answer) :=
  match os with
  | [] => (s, [])
  | o :: os => let '(s, a) := step c o s in let '(s, l) := session c os s in (s, a :: l)
  end.

(** What the queue of Queue_model reads from the craters [cs] (numbered by identity). *)
Definition geometry_of (w : world) (cs : nat -> fixed) (time : nat -> option QArith_base.Q) : Queue_model.geometry :=
  Queue_model.Build_geometry
    (fun i => match snd (emplaceable w (cs i) fresh) with Some b => b | None => false end)
    (fun i => match snd (overlap_function w (cs i) fresh) with Ok (n, _) => n | Err _ => [] end)
    (fun i => match snd (overlap_function w (cs i) fresh) with Ok (_, f) => f | Err _ => [] end)
    time.
End Footprint.
Arguments fixed : clear implicits.
Arguments world : clear implicits.
Arguments op : clear implicits.
