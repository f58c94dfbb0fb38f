(** Vocabulary for the theorems about Where_model. *)
From Coq Require Import Reals.
From Verif Require Import Common Geo_spec Outline_model Outline_spec Crater_model Place_model Place_spec Where_model.
Import ListNotations.
Open Scope R_scope.

(** The pairs of longitude and latitude a user means by a value given for locations. *)
Inductive means : arg -> list (R * R) -> Prop :=
| means_pair : forall h a b, means (Numbers h [a; b]) [(a, b)]
| means_rows : forall rows, means (Rows rows) rows
| means_list : forall items rows, Forall2 (fun i p => snd i = [fst p; snd p]) items rows -> means (Sequences items) rows
| means_dict : forall x y n, means (Mapping (Some x) (Some y) n) [(x, y)]
| means_record : forall f p, means (Record1 f p) [p]
| means_records : forall f rows, means (Records f rows) rows.
(** Forms of writing locations. *)
Definition is_list (a : arg) : Prop := exists items, a = Sequences items.
Definition structured (a : arg) : Prop := (exists f rows, a = Records f rows) \/ (exists f p, a = Record1 f p).
Definition is_dict (a : arg) : Prop := exists x y n, a = Mapping x y n.

(** The reference point: the one given, as two numbers, or the centre of the local region. *)
Definition reference_is (s : surf) (ref : option arg) (l : R * R) : Prop :=
  proper_location l /\
  ((exists h, ref = Some (Numbers h [fst l; snd l])) \/ ref = None /\ s_local s = Some l).
(** A latitude at most one quarter turn beyond a pole. *)
Definition near_globe (p : R * R) : Prop := -270 <= snd p <= 270.
(** b is the bearing of p seen from l: clockwise from north, in degrees. *)
Definition bears (l p : R * R) (b : R) : Prop :=
  0 <= b < 360 /\
  let h := sin (apart l p) in
  h * cos (rad b) = dot (north (rad (fst l)) (rad (snd l))) (place (fst p) (snd p)) /\
  h * sin (rad b) = dot (east (rad (fst l))) (place (fst p) (snd p)).
(** m is the place at the distance [fst db] on the great circle that leaves l with the bearing [snd db]. *)
Definition goes (s : surf) (l db m : R * R) : Prop :=
  proper_location m /\ (0 <= fst db <= PI * s_radius s -> s_radius s * apart l m = fst db) /\
  (-90 < snd l < 90 -> place (fst m) (snd m) = reached (rad (fst l)) (rad (snd l)) (rad (snd db)) (fst db / s_radius s)).
(** What was returned, and the same as an argument: a tuple, or a list of tuples. *)
Definition places (o : outcome) : list (R * R) := match o with One p => [p] | Several l => l end.
Definition given_back (o : outcome) : arg :=
  match o with One p => Numbers InTuple [fst p; snd p] | Several l => Sequences (map (fun p => (InTuple, [fst p; snd p])) l) end.

(** The numbers given: one, or those of an array. *)
Definition numbers (n : nums) : list R := match n with Scalar x => [x] | Flat l => l end.
(** Something that is not one or more pairs of numbers: another number of numbers, a sequence of other than
    two items with such an item, a dict without a longitude or a latitude. *)
Inductive malformed : arg -> Prop :=
| bad_numbers : forall h l, List.length l <> 2%nat -> malformed (Numbers h l)
| bad_item : forall items i, In i items -> List.length (snd i) <> 2%nat -> List.length items <> 2%nat -> malformed (Sequences items)
| bad_dict : forall x y n, x = None \/ y = None -> malformed (Mapping x y n).

(** Examples: the Moon, and the list of three places and of two places. *)
Definition ex_moon : surf := mk_surf 1737400 None.
Definition ex_apollo : surf := mk_surf 1737400 (Some (23, 0)).
Definition ex_three : arg := Sequences [(InTuple, [0; 10]); (InList, [370; 20]); (InArray, [5; -30])].
Definition ex_two : arg := Sequences [(InTuple, [0; 10]); (InTuple, [10; 20])].
