(** Vocabulary for the theorems about Restart_model. *)
From Coq Require Import Reals List String Bool Arith.
From Verif Require Import Common Restart_model.
Import ListNotations.
Open Scope R_scope.

Fixpoint total (f : period -> R) (l : list period) : R :=
  match l with [] => 0 | p :: l' => f p + total f l' end.
(** The counters describe the surface: as many intervals as the surface has been through, the
    time and the number of craters those took, and the age at the end of the last one. *)
Definition describe (c : counters) (surf : list period) : Prop :=
  c_interval c = List.length surf /\ c_elapsed c = total p_dt surf /\ c_n1 c = total p_dn1 surf /\
  (forall p l, surf = (l ++ [p])%list -> c_time c = Some (p_end p)).

(** A start with reset=False. *)
Definition restart {G} (id : nat) (fresh : G) (d : disk G) : result (sim G * list (write G)) :=
  construct G (Some false) false "" id fresh d.

(** [first_session d0 s d]: a simulation was started afresh in the directory [d0], used in any
    way, and is now [s], with [d] on disk. *)
Definition first_session {G} (id : nat) (d0 : disk G) (s : sim G) (d : disk G) : Prop :=
  exists arg ask answer fresh s0 w0 l w,
    construct G arg ask answer id fresh d0 = Ok (s0, w0) /\ s_new G s0 = true /\
    do_ops G l s0 = (s, w) /\ d = apply_all G d0 (w0 ++ w).

(** [resumed_session d s d']: the simulation in [d] was resumed, used in any way, and is now
    [s], with [d'] on disk. *)
Definition resumed_session {G} (id : nat) (d : disk G) (s : sim G) (d' : disk G) : Prop :=
  exists fresh s0 w0 l w,
    restart id fresh d = Ok (s0, w0) /\ do_ops G l s0 = (s, w) /\ d' = apply_all G d (w0 ++ w).
(** Any number of such sessions. *)
Inductive resumed_sessions {G} (id : nat) : disk G -> disk G -> Prop :=
| no_session d : resumed_sessions id d d
| one_more d s d1 d2 : resumed_session id d s d1 -> resumed_sessions id d1 d2 -> resumed_sessions id d d2.

(** [crash d ws d']: the disk if the program stops somewhere among the writes [ws]. *)
Definition crash {G} (d : disk G) (ws : list (write G)) (d' : disk G) : Prop :=
  exists done todo, ws = (done ++ todo)%list /\ d' = apply_all G d done.
