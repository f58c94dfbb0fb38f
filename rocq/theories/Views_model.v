(** Model of cratermaker/components/surface/__init__.py: how a region shows the data of its
    surface (LocalSurface.__getattr__ 2092-2118, the arrays of the mesh 4070-4192 and
    4223-4318, uxds 4441-4446, uxgrid 4391-4439, read_saved_output 4336-4388), with add_data of
    Region_model.
    Simplifications: f64 is idealised as R; a variable is the list of its entries along its
    first dimension; a file is the dataset that was saved in it (the encoding is the subject of
    C83 and C87); the dataset has at least one face and one node variable, as every surface
    has, so that sel knows both dimensions. *)
From Coq Require Import Reals List Arith ZArith.
From Verif Require Import Common RSum Mesh_model Region_model.
Import ListNotations.
Open Scope R_scope.

(** The first dimension of a variable: n_face, n_node, n_edge, another one, or none. *)
Inductive kind := KFace | KNode | KEdge | KOther | KScalar.
(** surface.uxds: the variables and their dimensions. *)
Record data_of := mkData { d_vars : dataset; d_kind : string -> kind }.

(** A LocalSurface: its indices and whether it has a location (is_local 4540-4543).  The
    indices of a global one are slice(None), here all indices. *)
Record region := mkRegion { r_view : view; r_local : bool }.

(** LocalSurface.__getattr__: 2092-2118; the dimension is recognised by its size. *)
Definition attribute (m : mesh) (r : region) (d : data_of) (name : string) : result (list R) :=
  match d_vars d name with
  | None => Err AttributeError
  | Some arr =>
      match d_kind d name with
      | KScalar => Ok arr
      | _ =>
          if Nat.eqb (List.length arr) (m_nface m) then Ok (take arr (v_faces (r_view r)))
          else if Nat.eqb (List.length arr) (m_nnode m) then Ok (take arr (v_nodes (r_view r)))
          else if Nat.eqb (List.length arr) (m_nedge m) then Ok (take arr (v_edges (r_view r)))
          else Err AttributeError
      end
  end.

(** uxds.sel(n_face=face_indices, n_node=node_indices): the dimensions are recognised by name. *)
Definition sel (v : view) (d : data_of) : data_of :=
  mkData (fun name => match d_vars d name with
                      | None => None
                      | Some arr => Some (match d_kind d name with
                                          | KFace => take arr (v_faces v)
                                          | KNode => take arr (v_nodes v)
                                          | _ => arr
                                          end)
                      end) (d_kind d).
(** LocalSurface.uxds: 4441-4446. *)
Definition uxds (r : region) (d : data_of) : data_of := if r_local r then sel (r_view r) d else d.

(** The dimension of a variable that add_data makes: 2172-2182 with _add_new_data. *)
Definition added_kind (v : view) (d : data) (isfacedata : bool) : kind :=
  let n := match d with
           | Scalar _ => if isfacedata then List.length (v_faces v) else List.length (v_nodes v)
           | Arr l => List.length l end in
  if Nat.eqb n (List.length (v_faces v)) then KFace else KNode.

(** What is done with a surface over time: add_data on a region, changing an entry of the
    array that region.name returns, changing an entry of region.uxds[name], and save. *)
Inductive op :=
| Add (r : region) (name : string) (d : data) (isfacedata overwrite : bool) (fill : R) (positive_only : bool)
| EditArray (r : region) (name : string) (i : nat) (x : R)
| EditUxds (r : region) (name : string) (i : nat) (x : R)
| Save (interval : Z).
(** The surface in memory and its files. *)
Record state := mkState { s_data : data_of; s_files : Z -> option data_of }.

Definition put (f : Z -> option data_of) (k : Z) (d : data_of) : Z -> option data_of :=
  fun j => if Z.eqb j k then Some d else f j.
(** An array taken with slice(None) is a view of the array of the surface, one taken with an
    index array is a copy (2108-2112); region.uxds of a region is made anew every time. *)
Definition edit (r : region) (d : data_of) (name : string) (i : nat) (x : R) : data_of :=
  if r_local r then d
  else match d_vars d name with
       | None => d
       | Some arr => mkData (set_var (d_vars d) name (set_at arr i x)) (d_kind d)
       end.
Definition step (m : mesh) (s : state) (o : op) : state :=
  match o with
  | Add r name dat isface ow fill pos =>
      let vars := fst (add_data m (r_view r) (d_vars (s_data s)) name dat isface ow fill pos) in
      let kinds := match d_vars (s_data s) name with
                   | Some _ => d_kind (s_data s)
                   | None => fun n => if String.eqb n name then added_kind (r_view r) dat isface else d_kind (s_data s) n
                   end in
      mkState (mkData vars kinds) (s_files s)
  | EditArray r name i x => mkState (edit r (s_data s) name i x) (s_files s)
  | EditUxds r name i x => mkState (edit r (s_data s) name i x) (s_files s)
  | Save k => mkState (s_data s) (put (s_files s) k (s_data s))
  end.
Definition run (m : mesh) (s : state) (ops : list op) : state := fold_left (step m) ops s.

(** LocalSurface.read_saved_output of one interval, for a region: 4336-4362.  Without the file
    reading the surface fails first. *)
Definition read_saved (r : region) (s : state) (interval : Z) (reset : bool) : result data_of :=
  match s_files s interval with
  | None => Err FileNotFoundError
  | Some d => if reset then Ok (mkData (fun _ => None) (d_kind d)) else Ok (sel (r_view r) d)
  end.

(** The connectivity of a region's own mesh: 4223-4318. *)
Definition local_face_nodes (m : mesh) (v : view) := remap (face_nodes m) (v_faces v) (v_nodes v).
Definition local_face_edges (m : mesh) (v : view) := remap (face_edges m) (v_faces v) (v_edges v).
Definition local_face_faces (m : mesh) (v : view) := remap (face_faces m) (v_faces v) (v_faces v).
Definition local_node_faces (m : mesh) (v : view) := remap (node_faces_of m) (v_nodes v) (v_faces v).
Definition local_edge_faces (m : mesh) (v : view) := remap (edge_faces m) (v_edges v) (v_faces v).
Definition local_edge_nodes (m : mesh) (v : view) := remap (edge_nodes m) (v_edges v) (v_nodes v).
