(** Model of looking for the face or node of a mesh nearest to a location:
    components/surface/__init__.py:548-608 find_nearest_node and find_nearest_face, the trees they
    ask (:1839-1863) and what else builds a tree (:276-283 extract_region).
    Simplifications: f64 is idealised as R; the tree is the list of the places it was built from,
    and its query an argument; locations are read as in Where_model. *)
From Coq Require Import Reals List.
From Verif Require Import Common Place_model Where_model.
Import ListNotations.
Open Scope R_scope.

(** A surface: the places of the faces and nodes of its mesh, and the trees it has kept
    (:89-94, both absent at first). *)
Record seeker := mk_seeker { faces : list (R * R); nodes : list (R * R);
  k_faces : option (list (R * R)); k_nodes : option (list (R * R)) }.
Definition new_seeker (f n : list (R * R)) : seeker := mk_seeker f n None None.

(** :1839-1863: the tree is built from the mesh when it is first needed *)
Definition tree (node : bool) (s : seeker) : list (R * R) * seeker :=
  if node then
    match k_nodes s with
    | Some t => (t, s)
    | None => (nodes s, mk_seeker (faces s) (nodes s) (k_faces s) (Some (nodes s)))
    end
  else
    match k_faces s with
    | Some t => (t, s)
    | None => (faces s, mk_seeker (faces s) (nodes s) (Some (faces s)) (k_nodes s))
    end.

Section Query.
(** the position, among the places of a tree, of the one nearest to a location *)
Variable query : list (R * R) -> R * R -> nat.
(** :568-577 and :599-608; the result of a query for several locations has several elements, so
    that item() is a ValueError *)
Definition find_nearest (node : bool) (s : seeker) (location : arg) : result nat * seeker :=
  match validate location with
  | Err e => (Err e, s)
  | Ok o =>
      let (t, s') := tree node s in
      match o with
      | One p => (Ok (query t p), s')
      | Several _ => (Err ValueError, s')
      end
  end.
(** What is done with a surface; a region is extracted with the tree of faces unless it covers the
    whole surface (:282-283). *)
Inductive act := Find (node : bool) (location : arg) | Extract (everything : bool).
Definition perform (a : act) (s : seeker) : seeker :=
  match a with
  | Find node l => snd (find_nearest node s l)
  | Extract everything => if everything then s else snd (tree false s)
  end.
Fixpoint after (acts : list act) (s : seeker) : seeker :=
  match acts with [] => s | a :: more => after more (perform a s) end.
End Query.

(** Another mesh for the same surface: :1076-1108, :1162-1181; no tree is dropped *)
Definition regrid (f n : list (R * R)) (s : seeker) : seeker := mk_seeker f n (k_faces s) (k_nodes s).
