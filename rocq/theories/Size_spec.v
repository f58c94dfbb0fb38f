(** Vocabulary for the theorems about Size_model. *)
From Coq Require Import Reals ZArith List.
From Verif Require Import Common Geo_spec Outline_spec Place_model Place_spec Size_model.
Import ListNotations.
Open Scope R_scope.

(** A mesh with faces whose edges have existing nodes and existing or missing faces. *)
Definition valid_end (n : nat) (i : Z) : Prop := (i < Z.of_nat n)%Z.
Definition proper_mesh (g : grid) : Prop :=
  g_areas g <> [] /\ (forall a, In a (g_areas g) -> 0 < a) /\
  Forall (fun e => valid_end (List.length (g_nodes g)) (fst e) /\ valid_end (List.length (g_nodes g)) (snd e)) (g_edge_nodes g) /\
  Forall (fun e => valid_end (List.length (g_faces g)) (fst e) /\ valid_end (List.length (g_faces g)) (snd e)) (g_edge_faces g).

(** The true values for a radius and a mesh. *)
Definition total (l : list R) : R := fold_right Rplus 0 l.
Definition areas_of (r : R) (g : grid) : list R := map (fun a => a * r ^ 2) (g_areas g).
Definition smallest_of (l : list R) (x : R) : Prop := In x l /\ forall y, In y l -> x <= y.
Definition largest_of (l : list R) (x : R) : Prop := In x l /\ forall y, In y l -> y <= x.
(** The great-circle distance between the ends of an edge; 0 if one is missing. *)
Definition spans (r : R) (places : list (R * R)) (e : Z * Z) (d : R) : Prop :=
  (exists p q, (0 <= fst e)%Z /\ (0 <= snd e)%Z /\ nth_error places (Z.to_nat (fst e)) = Some p /\ nth_error places (Z.to_nat (snd e)) = Some q /\ d = r * apart p q)
  \/ ((fst e < 0)%Z \/ (snd e < 0)%Z) /\ d = 0.
(** [true_answer r g q a]: a is the right answer to q for the radius r and the mesh g. *)
Definition true_answer (r : R) (g : grid) (q : query) (a : answer) : Prop :=
  let areas := areas_of r g in
  let n := INR (List.length areas) in
  match q, a with
  | FaceArea, Array l => l = areas
  | FaceSize, Array l => Forall2 (fun a s => 0 <= s /\ s ^ 2 = a) areas l
  | PixMean, Num m => m * n = total (map sqrt areas)
  | PixStd, Num d => exists m, m * n = total (map sqrt areas) /\ 0 <= d /\ (m ^ 2 + d ^ 2) * n = total areas
  | PixMin, Num x => smallest_of (map sqrt areas) x
  | PixMax, Num x => largest_of (map sqrt areas) x
  | Area, Num x => x = total areas
  | Smallest, Num x => smallest_of (map sqrt areas) (x * 100000)
  | Coord f i, Array l => l = map (fun x => x * r) (g_unit g f i)
  | EdgeFaceDistance, Array l => Forall2 (spans r (g_faces g)) (g_edge_faces g) l
  | EdgeLength, Array l => Forall2 (spans r (g_nodes g)) (g_edge_nodes g) l
  | _, _ => False
  end.

(** A history of questions, and the answer to a further one. *)
Fixpoint after (qs : list query) (s : surface) : surface :=
  match qs with [] => s | q :: more => after more (snd (ask s q)) end.
Definition answers (s : surface) (q : query) : result answer := fst (ask s q).

(** Questions answered from the same kept values; those kept apart from the face sizes. *)
Definition is_size (q : query) : bool :=
  match q with Coord _ _ | EdgeFaceDistance | EdgeLength => false | _ => true end.
Definition same_question (q p : query) : bool :=
  match q, p with
  | Area, Area | Smallest, Smallest | EdgeFaceDistance, EdgeFaceDistance | EdgeLength, EdgeLength => true
  | Coord f i, Coord f' i' => Bool.eqb f f' && Nat.eqb i i'
  | _, _ => false
  end.
(** Whether a question was already settled before the target, or the mesh, was changed. *)
Definition settled_target (qs : list query) (q : query) : bool :=
  existsb (fun p => is_size q && is_size p || same_question q p) qs.
Definition settled_mesh (qs : list query) (q : query) : bool := existsb (same_question q) qs.

(** Example: a mesh of two faces, three nodes and three edges, one of which has one face. *)
Definition ex_mesh : grid := mk_grid [4; 9] (fun _ _ => [1; 0]) [(0, 0); (10, 0)] [(0, 10); (5, 0); (20, -5)]
  [(0, 1); (1, 2); (2, 0)]%Z [(0, 1); (1, 0); (0, -1)]%Z.
Definition ex_mesh2 : grid := mk_grid [1] (fun _ _ => [1]) [(0, 0)] [(0, 10); (5, 0)] [(0, 1)]%Z [(0, -1)]%Z.
