(** Model of crater emplacement through the queue,
    cratermaker/components/morphology/__init__.py.

    A crater object is a number (its identity); the facts the queue reads from it
    are given by a [geometry].  The surface, counting and subpixel state is an
    abstract type [W] with one (possibly failing) operation per method called. *)
From Coq Require Import QArith.
From Verif Require Import Common.
Import ListNotations.

Definition crater := nat.

(** What the queue reads from a crater: [emplaceable] (morphology/__init__.py:313-317),
    [affected_node_indices] / [affected_face_indices] (273-311) and [time].
    Simplification: these do not change while the queue is processed (they depend on
    the mesh geometry and the crater's fixed fields only). *)
Record geometry := {
  emplaceable : crater -> bool;
  nodes : crater -> list nat;
  faces : crater -> list nat;
  time : crater -> option Q
}.

Definition disjointb (a b : list nat) : bool :=
  negb (existsb (fun x => existsb (Nat.eqb x) b) a).

(** morphology/__init__.py:949-969 CraterQueueManager.peek_next_batch. *)
Fixpoint peek_loop (g : geometry) (rn rf : list nat) (queue : list crater) : list crater :=
  match queue with
  | [] => []
  | c :: rest =>
      if disjointb rn (nodes g c) && disjointb rf (faces g c)
      then c :: peek_loop g (nodes g c ++ rn) (faces g c ++ rf) rest
      else []
  end.
Definition peek_next_batch (g : geometry) (queue : list crater) : list crater :=
  peek_loop g [] [] queue.

(** list.remove: drop the first element equal (craters compare by identity);
    ValueError when absent. *)
Fixpoint list_remove (c : crater) (queue : list crater) : result (list crater) :=
  match queue with
  | [] => Err ValueError
  | x :: rest => if Nat.eqb x c then Ok rest
                 else rbind (list_remove c rest) (fun r => Ok (x :: r))
  end.

(** morphology/__init__.py:971-988 pop_batch (remove_complex_data only drops caches). *)
Fixpoint pop_batch (batch queue : list crater) : result (list crater) :=
  match batch with
  | [] => Ok queue
  | c :: rest => rbind (list_remove c queue) (fun q => pop_batch rest q)
  end.

(** morphology/__init__.py:668-695 _enqueue_crater, over a list (561-570). *)
Definition enqueue_all (g : geometry) (queue cs : list crater) : list crater :=
  fold_left (fun q c => if emplaceable g c then q ++ [c] else q) cs queue.

(** Observable calls, in order. *)
Inductive event := Form (c : crater) | Degrade (t_start t_end : Q) | ApplyDegradation | Tally.

Section WithWorld.
Variable W : Type.
Variable g : geometry.
(** form_crater, compute_subpixel_degradation, apply_subpixel_degradation, tally. *)
Variable form : crater -> W -> result W.
Variable degrade : Q -> Q -> W -> result W.
Variable apply_degradation : W -> result W.
Variable tally : W -> result W.
Variable do_subpixel do_counting : bool.
Variable tally_cadence : nat.

(** State: the queue, the world, and the trace of calls made (most recent last).
    A failing call is in the trace too. *)
Record st := mk_st { queue : list crater; world : W; trace : list event }.

(** Outcome of running: [None] means normal, [Some e] a propagating exception. *)
Definition outcome := (st * option exn)%type.

Definition call (ev : event) (op : W -> result W) (s : st) : outcome :=
  let t := trace s ++ [ev] in
  match op (world s) with
  | Ok w => (mk_st (queue s) w t, None)
  | Err e => (mk_st (queue s) (world s) t, Some e)
  end.

(** morphology/__init__.py:717-720: form every crater of the batch. *)
Fixpoint form_batch (batch : list crater) (s : st) : outcome :=
  match batch with
  | [] => (s, None)
  | c :: rest =>
      match call (Form c) (form c) s with
      | (s', None) => form_batch rest s'
      | (s', Some e) => (s', Some e)
      end
  end.

Definition times (batch : list crater) : list Q :=
  flat_map (fun c => match time g c with Some t => [t] | None => [] end) batch.
Definition qmax (l : list Q) (d : Q) := fold_left (fun m x => if Qle_bool m x then x else m) l d.
Definition qmin (l : list Q) (d : Q) := fold_left (fun m x => if Qle_bool x m then x else m) l d.

(** morphology/__init__.py:722-729: degradation between the batch's time values. *)
Definition degrade_batch (batch : list crater) (s : st) : outcome :=
  if do_subpixel && Nat.ltb 1 (List.length batch) then
    match times batch with
    | t0 :: ((_ :: _) as l) =>
        let maxtime := qmax l t0 in
        let mintime := qmin l t0 in
        if Qle_bool maxtime mintime then (s, None)
        else call (Degrade maxtime mintime) (degrade maxtime mintime) s
    | _ => (s, None)
    end
  else (s, None).

(** morphology/__init__.py:711-737 _batch_process.  The [while] loop is given
    [fuel]; running out of it is reported as [inr tt] and shown not to happen. *)
Fixpoint batch_process (fuel nacc : nat) (s : st) : outcome + unit :=
  match queue s with
  | [] => inl (s, None)
  | _ :: _ =>
    match fuel with
    | O => inr tt
    | S fuel =>
      let batch := peek_next_batch g (queue s) in
      match form_batch batch s with
      | (s1, Some e) => inl (s1, Some e)
      | (s1, None) =>
        match degrade_batch batch s1 with
        | (s2, Some e) => inl (s2, Some e)
        | (s2, None) =>
          match pop_batch batch (queue s2) with
          | Err e => inl (s2, Some e)
          | Ok q =>
            let s3 := mk_st q (world s2) (trace s2) in
            let n := (nacc + List.length batch)%nat in
            if do_counting && Nat.leb tally_cadence n then
              match call Tally tally s3 with
              | (s4, Some e) => inl (s4, Some e)
              | (s4, None) => batch_process fuel 0 s4
              end
            else batch_process fuel n s3
          end
        end
      end
    end
  end.

(** morphology/__init__.py:697-758 _process_queue. *)
Definition process_queue (s : st) : outcome + unit :=
  match batch_process (List.length (queue s)) 0 s with
  | inl (s1, None) =>
      let r := if do_subpixel then call ApplyDegradation apply_degradation s1 else (s1, None) in
      match r with
      | (s2, Some e) => inl (s2, Some e)
      | (s2, None) => if do_counting then inl (call Tally tally s2) else inl (s2, None)
      end
  | r => r
  end.

(** morphology/__init__.py:507-573 emplace, for a list of craters already
    converted to the morphology's crater type. *)
Definition emplace (cs : list crater) (s : st) : outcome + unit :=
  process_queue (mk_st (enqueue_all g (queue s) cs) (world s) (trace s)).

End WithWorld.
