(** Model of cratermaker/components/surface/__init__.py: regions, local connectivity, surface
    data, elevation updates, noise and face bins.
    Simplifications: f64 is idealised as R; a connectivity array is a function from the row to
    its entries, with None for INT_FILL_VALUE; index arrays are lists (slice(None) is the list
    of all indices); the ball tree is an argument. *)
From Coq Require Import Reals List Arith.
From Verif Require Import Common RSum Sorting Mesh_model.
Import ListNotations.
Open Scope R_scope.

Record mesh := mkMesh {
  m_nface : nat; m_nnode : nat; m_nedge : nat;
  face_edges : nat -> list (option nat); face_nodes : nat -> list (option nat); face_faces : nat -> list (option nat);
  node_faces_of : nat -> list (option nat); edge_faces : nat -> list (option nat); edge_nodes : nat -> list (option nat) }.
Record view := mkView { v_faces : list nat; v_nodes : list nat; v_edges : list nat; v_radius : R }.

(** np.unique *)
Definition unique (l : list nat) : list nat := sort Nat.leb (nodup Nat.eq_dec l).
(** x[x != INT_FILL_VALUE] *)
Definition valid (l : list (option nat)) : list nat := flat_map (fun o => match o with Some v => [v] | None => [] end) l.
(** connectivity[indices].ravel() *)
Definition ravel (c : nat -> list (option nat)) (idx : list nat) : list (option nat) := flat_map c idx.
(** The buffer faces: 301-307, and 2671-2680 of extract_subregion. *)
Definition with_buffer (m : mesh) (core nodes edges : list nat) : list nat :=
  unique (core ++ valid (ravel (face_faces m) core ++ ravel (node_faces_of m) nodes ++ ravel (edge_faces m) edges)).

(** Surface.extract_region: 249-323.  [query r] are the faces of face_tree within the angle r (degrees) of
    the location, [nearest] the result of find_nearest_face. *)
Definition extract_region (m : mesh) (radius : R) (query : R -> list nat) (nearest : nat) (region_radius : R) (at_least_one : bool) : option view :=
  let angle := region_radius / radius * 180 / PI in
  if Rlt_dec angle 180 then
    match (match query angle with [] => if at_least_one then Some [nearest] else None | q => Some q end) with
    | None => None
    | Some core =>
        let edges := unique (valid (ravel (face_edges m) core)) in
        let nodes := unique (valid (ravel (face_nodes m) core)) in
        let faces := with_buffer m core nodes edges in
        let nodes := unique (valid (ravel (face_nodes m) faces)) in
        Some (mkView faces nodes edges region_radius)
    end
  else Some (mkView (seq 0 (m_nface m)) (seq 0 (m_nnode m)) (seq 0 (m_nedge m)) region_radius).

(** LocalSurface.extract_subregion: 2644-2699.  [face_distance f] is the distance of face f. *)
Definition extract_subregion (m : mesh) (face_distance : nat -> R) (v : view) (r : R) : option view :=
  if Rlt_dec r (v_radius v) then
    match filter (fun f => if Rle_dec (face_distance f) r then true else false) (v_faces v) with
    | [] => None
    | core =>
        let edges := unique (valid (ravel (face_edges m) core)) in
        let nodes := unique (valid (ravel (face_nodes m) core)) in
        Some (mkView (with_buffer m core nodes edges) nodes edges r)
    end
  else Some (mkView (v_faces v) (v_nodes v) (v_edges v) r).

(** mapping[value_indices] = np.arange(value_indices.size): 3968-3970; the last of equal entries
    wins.  [k] is the position of the head. *)
Fixpoint local_of (vals : list nat) (k v : nat) : option nat :=
  match vals with
  | [] => None
  | x :: r => match local_of r (S k) v with Some j => Some j | None => if Nat.eqb x v then Some k else None end
  end.
(** _remap_connectivity_to_local: 3936-3980. *)
Definition remap (c : nat -> list (option nat)) (rows vals : list nat) : list (list (option nat)) :=
  map (fun g => map (fun e => match e with Some v => local_of vals 0 v | None => None end) (c g)) rows.

(* ------------------------------ surface data ------------------------------ *)
(** uxds: the variables by name. *)
Definition dataset : Type := string -> option (list R).
Definition set_var (s : dataset) (name : string) (l : list R) : dataset :=
  fun n => if String.eqb n name then Some l else s n.
(** a[i] = x *)
Fixpoint set_at (l : list R) (i : nat) (x : R) : list R :=
  match l, i with [], _ => [] | _ :: r, O => x :: r | y :: r, S j => y :: set_at r j x end.
(** a[indices] = data; numpy checks all indices first. *)
Definition assign (l : list R) (idx : list nat) (data : list R) : result (list R) :=
  if forallb (fun i => Nat.ltb i (List.length l)) idx
  then Ok (fold_left (fun l p => set_at l (fst p) (snd p)) (combine idx data) l) else Err IndexError.
(** a[indices] *)
Definition take (l : list R) (idx : list nat) : list R := map (fun i => nth i l 0) idx.
Definition zip_plus (a b : list R) : list R := map (fun p => fst p + snd p) (combine a b).

(** The data argument of add_data: a scalar or an array. *)
Inductive data := Scalar (x : R) | Arr (l : list R).
(** LocalSurface.add_data: 2120-2191.  The state is returned with the outcome.
    Simplification: attributes and dtype are not kept. *)
Definition add_data (m : mesh) (v : view) (s : dataset) (name : string) (d : data) (isfacedata overwrite : bool) (fill : R) (positive_only : bool) : dataset * result unit :=
  let arr := match d with
             | Scalar x => repeat x (if isfacedata then List.length (v_faces v) else List.length (v_nodes v))
             | Arr l => l end in
  match (if Nat.eqb (List.length arr) (List.length (v_faces v)) then Some (true, v_faces v)
         else if Nat.eqb (List.length arr) (List.length (v_nodes v)) then Some (false, v_nodes v) else None) with
  | None => (s, Err ValueError)
  | Some (isface, idx) =>
      let '(s, overwrite) :=
        match s name with
        | None => (set_var s name (repeat fill (if isface : bool then m_nface m else m_nnode m)), true)
        | Some _ => (s, overwrite)
        end in
      match s name with
      | None => (s, Err KeyError)
      | Some old =>
          let values := if overwrite : bool then arr else zip_plus (take old idx) arr in
          match assign old idx values with
          | Err e => (s, Err e)
          | Ok new =>
              let s := set_var s name new in
              if positive_only then
                match assign new idx (map (Rmax 0) (take new idx)) with
                | Err e => (s, Err e)
                | Ok new => (set_var s name new, Ok tt)
                end
              else (s, Ok tt)
          end
      end
  end.

(** The compiled interpolate_node_elevation_from_faces (surface/mod.rs:379-401) on a region: the local
    rows of node_face_connectivity, local elevations and areas. *)
Definition interpolate_row (elev area : list R) (row : list (option nat)) : R :=
  let '(ws, a) := fold_left (fun acc e => match e with
                    | Some f => (fst acc + nth f elev 0 * nth f area 0, snd acc + nth f area 0)
                    | None => acc end) row (0, 0) in
  if Rlt_dec 0 a then ws / a else 0.
(** LocalSurface.interpolate_node_elevation_from_faces: 2551-2564. *)
Definition interpolate_nodes (m : mesh) (areas : list R) (v : view) (s : dataset) : dataset * result unit :=
  match s "face_elevation"%string with
  | None => (s, Err AttributeError)
  | Some elev =>
      let rows := remap (node_faces_of m) (v_nodes v) (v_faces v) in
      let node := map (interpolate_row (take elev (v_faces v)) (take areas (v_faces v))) rows in
      add_data m v s "node_elevation" (Arr node) true true 0 false
  end.

(** State and outcome of one step after another. *)
Definition sbind (r : dataset * result unit) (f : dataset -> dataset * result unit) : dataset * result unit :=
  match r with (s, Ok tt) => f s | (s, Err e) => (s, Err e) end.
(** LocalSurface.update_elevation: 2193-2257.  Simplification: the new elevation is an array of
    numbers (a scalar is an array of size 1: 2229). *)
Definition update_elevation (m : mesh) (areas : list R) (v : view) (s : dataset) (new : list R) (overwrite : bool) : dataset * result unit :=
  let nf := List.length (v_faces v) in let nn := List.length (v_nodes v) in let k := List.length new in
  let faces l s := add_data m v s "face_elevation" (Arr l) true overwrite 0 false in
  let nodes l s := add_data m v s "node_elevation" (Arr l) true overwrite 0 false in
  if Nat.eqb k 1 then
    let x := nth 0 new 0 in sbind (faces (repeat x nf) s) (nodes (repeat x nn))
  else if Nat.eqb k nf then sbind (faces new s) (interpolate_nodes m areas v)
  else if Nat.eqb k nn then nodes new s
  else if Nat.eqb k (nf + nn) then sbind (faces (firstn nf new) s) (nodes (skipn nf new))
  else (s, Err ValueError).

(** LocalSurface.apply_noise: 2423-2467, for the model "turbulence" with the raw noise given. *)
Definition apply_noise (m : mesh) (areas : list R) (v : view) (s : dataset) (noise : list R) : dataset * result unit :=
  let area := take areas (v_faces v) in
  let mean := lsum (fun p => fst p * snd p) (combine (firstn (List.length (v_faces v)) noise) area) / lsum (fun a => a) area in
  update_elevation m areas v s (map (fun x => x - mean) noise) false.
(** The compiled turbulence_noise (surface/mod.rs:422-472), one point, for freq 2 and pers 1/2; [simplex i] is
    the value of the i-th rotated and scaled simplex source at the point. *)
Fixpoint octaves (simplex : nat -> R) (n : nat) : R * R :=
  match n with
  | O => (0, 1 / 2)
  | S i => let '(s, norm) := octaves simplex i in (s + simplex i * (1 / 2) ^ i, norm + 1 / 2 * (1 / 2) ^ i)
  end.
Definition turbulence (simplex : nat -> R) (n : nat) (noise_height : R) : R :=
  let '(s, norm) := octaves simplex n in s * (noise_height / norm).
(** The call of 2446-2456: noise_height is divided by the radius. *)
Definition raw_noise (simplex : nat -> R) (n : nat) (noise_height radius : R) : R := turbulence simplex n (noise_height / radius).
(** LocalSurface.compute_volume: 2701-2717. *)
Definition compute_volume (areas : list R) (v : view) (elev : list R) : result R :=
  if Nat.eqb (List.length elev) (List.length (v_faces v))
  then Ok (lsum (fun p => fst p * snd p) (combine elev (take areas (v_faces v)))) else Err ValueError.

(* ------------------------------ face bins ------------------------------ *)
Definition log2 (x : R) : R := ln x / ln 2.
Fixpoint rmin (x : R) (l : list R) : R := match l with [] => x | y :: r => rmin (Rmin x y) r end.
Fixpoint rmax (x : R) (l : list R) : R := match l with [] => x | y :: r => rmax (Rmax x y) r end.
(** bins[bin_index].append(face_index) *)
Fixpoint append_at (bins : list (list nat)) (k face : nat) : list (list nat) :=
  match bins, k with
  | [], _ => []
  | b :: r, O => (b ++ [face])%list :: r
  | b :: r, S j => b :: append_at r j face
  end.
Fixpoint fill_bins (min : R) (areas : list R) (face : nat) (bins : list (list nat)) : result (list (list nat)) :=
  match areas with
  | [] => Ok bins
  | a :: r =>
      let k := Z.to_nat (Int_part (log2 (a / min))) in
      if Nat.ltb k (List.length bins) then fill_bins min r (S face) (append_at bins k face) else Err IndexError
  end.
(** Surface._compute_face_bins: 1624-1637 (face_bin_indices).  min() of an empty array is an error. *)
Definition face_bins (areas : list R) : result (list (list nat)) :=
  match areas with
  | [] => Err ValueError
  | a :: r =>
      let min := rmin a r in let max := rmax a r in
      let n := Z.to_nat (ceil (log2 (max / min))) in
      rbind (fill_bins min areas 0 (repeat [] n)) (fun bins =>
        Ok (filter (fun b => negb (Nat.eqb (List.length b) 0)) bins))
  end.
