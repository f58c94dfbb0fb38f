(** Vocabulary of the property about the data composer (C82). *)
From Coq Require Import Reals Permutation.
From Verif Require Import Common Compose_model.
Open Scope R_scope.

(** The dataset has a usable pixel at the point, of this value in metres. *)
Definition gives (r : raster) (p : point) (metres : R) : Prop :=
  ra_inside r p = true /\
  exists v, ra_value r p = Some v /\ metres = v * (if existsb (String.eqb "KILOMETER") (ra_units r) then 1000 else 1).

(** Every dataset handed over is either still waiting or closed. *)
Definition accounted (c : composer) : Prop :=
  Permutation (c_added c) (c_closed c ++ map ra_handle (c_list c)).
Definition all_closed (c : composer) : Prop := Permutation (c_added c) (c_closed c).

(** Any calls in any order, exceptions caught by the caller. *)
Definition calls pts is_local open (l : list op) (c : composer) : composer :=
  fold_left (fun c o => fst (step pts is_local open o c)) l c.

(** Half the squared length of the chord between two points, which grows with their distance. *)
Definition chord (p q : point) : R :=
  sin ((snd q * (PI / 180) - snd p * (PI / 180)) / 2) ^ 2
  + cos (snd p * (PI / 180)) * cos (snd q * (PI / 180)) * sin ((fst q * (PI / 180) - fst p * (PI / 180)) / 2) ^ 2.
