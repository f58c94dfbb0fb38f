(** Vocabulary for the theorems about Radial_model. *)
From Coq Require Import Reals List.
From Verif Require Import Common Profile_model Radial_model.
Import ListNotations.
Open Scope R_scope.

(** [contains g k s l]: what is given has the values l, of kind k, in the shape s. *)
Inductive contains : given -> kind -> list nat -> list R -> Prop :=
| c_scalar b k x : contains (Scalar b k x) k [1%nat] [x]
| c_nested k s d : d <> [] -> List.length d = fold_right mult 1%nat s -> contains (Nested k s d) k s d
| c_empty k s : fold_right mult 1%nat s = 0%nat -> contains (Nested k s []) F64 s []
| c_array a : List.length (a_data a) = fold_right mult 1%nat (a_shape a) -> contains (Arr a) (a_kind a) (a_shape a) (a_data a).
Definition an_array (g : given) : Prop := exists a, g = Arr a.

(** The reference elevations that are given, or zero for each distance; and their kind. *)
Inductive references (n : nat) (k : kind) : option given -> kind -> list R -> Prop :=
| no_reference : references n k None k (repeat 0 n)
| reference g k' s l : contains g k' s l -> references n k (Some g) k' l.

(** The thickness of ejecta at a distance. *)
Definition thickness_at (p : shape) (r t : R) : Prop :=
  (r < diameter p / 2 /\ t = 0) \/ (diameter p / 2 <= r /\ t = ejrim p * Rpower (r / (diameter p / 2)) (-3)).
(** A row: all dimensions but the last are 1, and there is a last one; or nothing at all. *)
Definition a_row (s : list nat) : Prop :=
  exists before last, s = (before ++ [last])%list /\ last = fold_right mult 1%nat s.

(** Examples. *)
Definition ex_shape : shape := mk_shape 2 (-1) 1 1 1.
Definition ex_grid : given := Arr (mk_array F64 [2; 2]%nat [1; 2; 3; 4]).
Definition ex_line : given := Arr (mk_array F64 [3]%nat [1/2; 2; 3]).
Definition ex_rays (rs ts : list R) : list R := map (fun _ => 1) rs.
