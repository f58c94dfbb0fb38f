(** Specification vocabulary for face tags and crater counts. *)
From Coq Require Import NArith.
From Verif Require Import Common Tags_model.
Open Scope N_scope.

(** Number of times a tag is recorded on a face. *)
Definition times (t : N) (r : row) : nat := count_occ N.eq_dec r t.

(** A face that can still take a tag. *)
Definition has_free_layer (r : row) : Prop := In 0 r.

Definition well_formed (tb : table) : Prop := forall f, List.length (tb f) = N_TAG_LAYERS.

(** The tag [t] is on some face of a surface of [n] faces. *)
Definition on_surface (n : nat) (tb : table) (t : N) : Prop := exists f, (f < n)%nat /\ In t (tb f).

Definition recorded_in (n : nat) (s : count) (id : N) : Prop :=
  exists tb, tags s = Some tb /\ on_surface n tb id.

Definition is_observed (s : count) (id : N) : Prop := exists c, In (id, c) (observed s).

(** A count before anything happened to it, and the states histories reach. *)
Definition fresh : count := mk_count None [].
Definition reachable (n : nat) (s : count) : Prop := exists l, s = history n fresh l.

(** How many added craters have the face in their region. *)
Definition covers (f : nat) (o : op) : bool :=
  match o with
  | OAdd c => match region c with Some rg => in_region rg f | None => false end
  | _ => false
  end.
Definition times_covered (f : nat) (l : list op) : nat := List.length (filter (covers f) l).

(** Crater ids are positive (0 means "no crater" in the table). *)
Definition positive_ids (l : list op) : Prop := forall c, In (OAdd c) l -> cid c <> 0.
