(** Specification vocabulary for the emplacement calls. *)
From Verif Require Import Common Queue_model Emplace_model.
Import ListNotations.

Section Spec.
Context {V : Type}.

(** Every blanket directly follows the excavation of the same crater and carries the
    volume that excavation recorded. *)
Definition own_ejecta (l : list (event V)) : Prop :=
  forall a c v b, l = (a ++ Thrown c v :: b)%list -> exists x, a = (x ++ [Dug c v])%list.

(** The volume of the latest excavation. *)
Definition latest (l : list (event V)) (v : V) : Prop :=
  exists a c b, l = (a ++ Dug c v :: b)%list /\ forall c' v', ~ In (Dug c' v') b.
Definition never_dug (l : list (event V)) : Prop := forall c v, ~ In (Dug c v) l.

(** The tallies made, each with its measure_rim. *)
Definition tallies (l : list (event V)) : list bool :=
  flat_map (fun e => match e with Tallied b => [b] | _ => [] end) l.

(** Craters dug out, in order. *)
Definition dug (l : list (event V)) : list crater :=
  flat_map (fun e => match e with Dug c _ => [c] | _ => [] end) l.
End Spec.

(** What each thing given stands for: a BasicMoonCrater for itself, anything else
    for the object made from it. *)
Definition stands_for (convert : nat -> item -> result crater) (i : nat) (x : item) (c : crater) : Prop :=
  match x with Moon c' => c = c' | _ => convert i x = Ok c end.

Definition given (convert : nat -> item -> result crater) (create : result crater) (a : arg) (cs : list crater) : Prop :=
  match a with
  | Nothing => exists c, create = Ok c /\ cs = [c]
  | One x => exists c, stands_for convert 0 x c /\ cs = [c]
  | AList l | ATuple l => List.length cs = List.length l /\
      forall i x, nth_error l i = Some x ->
      exists c, nth_error cs i = Some c /\ stands_for convert i x c
  end.

(** Craters that get formed: large enough to be extracted, and larger than the face
    they fall on. *)
Definition formable (g : geometry) (large : crater -> bool) (c : crater) : bool :=
  emplaceable g c && large c.

(** A session without direct calls to form_ejecta / with emplace calls only. *)
Definition no_form_ejecta (ks : list call) : Prop := forall x, ~ In (FormEjecta x) ks.
Definition only_emplace (ks : list call) : Prop := forall k, In k ks -> exists a rim, k = Emplace a rim.

(** The craters returned by calls that all succeeded. *)
Definition returned (rs : list (result (list crater))) (cs : list crater) : Prop :=
  exists ls, rs = map Ok ls /\ cs = List.concat ls.
