(** Specification vocabulary for the files of a surface. *)
From Coq Require Import Reals ZArith List String Ascii Bool.
From Verif Require Import Common Store_model.
Import ListNotations.
Open Scope string_scope.

Definition colon_free (s : string) : Prop := forall k, String.get k s <> Some ":"%char.
Definition injective {A B} (f : A -> B) : Prop := forall x y, f x = f y -> x = y.
(** str() tells different values apart and, except for lists of files, prints no colon. *)
Definition faithful (pr : printer) : Prop :=
  injective (show pr) /\ injective (show_level pr) /\ injective (show_place pr) /\ injective (show_scale pr) /\
  injective (show_files pr) /\ (forall x, colon_free (show pr x)) /\ (forall x, colon_free (show_level pr x)) /\
  (forall x, colon_free (show_place pr x)) /\ (forall x, colon_free (show_scale pr x)).

Section Spec.
Variable G : Type.
Variables n_face n_node : G -> nat.
Variable generator : params -> G.
Variable pr : printer.
Variable hash : string -> string.
Notation state := (state G). Notation disk := (disk G).
Notation step := (step G n_face n_node generator pr hash). Notation crash := (crash G n_face n_node generator pr hash).

(** The name of a target has no colon in it. *)
Definition well_named (o : op) : Prop := match o with New p _ _ _ _ => colon_free (s_target p) | _ => True end.
(** Any history of sessions, in which the process may be killed at any write. *)
Inductive history : state -> Prop :=
| Begin : history (mkDisk G None [], None)
| Done : forall s o s', history s -> well_named o -> step o s = Ok s' -> history s'
| Killed : forall s o k s', history s -> well_named o -> crash o k s = Ok s' -> history s'.
(** A history in which nothing was killed and no region was saved. *)
Definition is_region (o : op) : bool := match o with SaveRegion _ _ _ => true | _ => false end.
Inductive quiet : state -> Prop :=
| QBegin : quiet (mkDisk G None [], None)
| QDone : forall s o s', quiet s -> step o s = Ok s' -> is_region o = false -> quiet s'.

(** Every array has one value for each face or node of the grid. *)
Definition fits (g : G) (f : dataset) : Prop :=
  forall n w l, In (n, (w, l)) f -> List.length l = size G n_face n_node g w.
(** The grid file and the data files fit each other. *)
Definition consistent (d : disk) : Prop :=
  (d_grid G d = None -> d_data G d = []) /\
  (forall id g i f, d_grid G d = Some (id, g) -> file G i d = Some f -> fits g f).
(** The file of the highest interval, or nothing if there are no files. *)
Definition newest (d : disk) (f : dataset) : Prop :=
  (exists i, file G i d = Some f /\ forall j f', file G j d = Some f' -> (j <= i)%nat) \/ (d_data G d = [] /\ f = []).
End Spec.
