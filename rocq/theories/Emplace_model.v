(** Model of the calls that put craters on a surface, as a user makes them:
    emplace, form_crater and form_ejecta of
    cratermaker/components/morphology/__init__.py and morphology/basicmoon.py, with
    what they keep on the morphology object between calls (the queue, the excavated
    volume, the list of emplaced craters), including after an exception.

    The queue operations are those of Queue_model.v.  The surface is an abstract
    type [S] and a volume an abstract type [V]; the numerical work is done by
    operations on [S] that may fail (their formulas are in Ejecta_model.v,
    Profile_model.v, Mesh_model.v).  Simplification: an operation that fails leaves
    [S] as it was before that operation. *)
From Verif Require Import Common Queue_model.
Import ListNotations.

(** What a caller may put where a crater is expected: a plain Crater, a
    MorphologyCrater, a BasicMoonCrater (each class derives from the previous one)
    or something else.  The number is the identity of the object. *)
Inductive item := Plain (c : crater) | Morph (c : crater) | Moon (c : crater) | NotCrater.

(** The [craters] argument of emplace, basicmoon.py:182. *)
Inductive arg := Nothing | One (i : item) | AList (l : list item) | ATuple (l : list item).

(** Work done, in order: crater [c] was dug out and volume [v] recorded; ejecta of
    volume [v] was laid down for crater [c]; the craters were tallied, measuring
    their rims or not. *)
Inductive event (V : Type) := Dug (c : crater) (v : V) | Thrown (c : crater) (v : V) | Tallied (rim : bool).
Arguments Dug {V}. Arguments Thrown {V}. Arguments Tallied {V}.

Section Model.
Variables S V : Type.
(** Truth value of a stored volume: zero is false (morphology/__init__.py:643). *)
Variable zero : V -> bool.
Variable g : geometry.
(** morphology/__init__.py:592-595: pi * crater_region.radius**2 exceeds the area of
    the face at the crater's centre. *)
Variable large : crater -> bool.
(** morphology/__init__.py:596-612: shape, update_elevation, slope collapse,
    compute_volume, ejecta thickness reset inside the crater. *)
Variable excavate : crater -> S -> result (S * V).
(** counting.add, counting/__init__.py:167-228. *)
Variable count : crater -> S -> result S.
(** morphology/__init__.py:645-660: the blanket, scaled to the volume given. *)
Variable eject : crater -> V -> S -> result S.
(** basicmoon.py:264-270: the two diffusions that follow. *)
Variable soften : crater -> S -> result S.
(** morphology/__init__.py:722-729 and 754-755: subpixel degradation. *)
Variable degrade : list crater -> S -> result S.
Variable finish : S -> result S.
(** counting.tally, counting/__init__.py:329-404, by its measure_rim argument. *)
Variable tally : bool -> S -> result S.
Variables do_subpixel do_counting : bool.
(** morphology/__init__.py:712; 2000 in the code. *)
Variable tally_cadence : nat.
(** BasicMoonCrater.maker(c, morphology=self, ...), basicmoon.py:73-126, by position
    in the list given; and BasicMoonCrater.maker(morphology=self, ...) from keywords
    alone.  A new object each time or an exception. *)
Variable convert : nat -> item -> result crater.
Variable create : result crater.

(** morphology/__init__.py:398-404 (__init__), counting.emplaced. *)
Record st := mk {
  queue : list crater; surf : S; volume : option V;
  emplaced : list crater; log : list (event V) }.

Definition new (w : S) : st := mk [] w None [] [].

(** [None]: the call returned; [Some e]: it raised [e]. *)
Definition outcome := (st * option exn)%type.
Definition next (o : outcome) (k : st -> outcome) : outcome :=
  match o with (s, None) => k s | (s, Some e) => (s, Some e) end.

Definition on_surf (op : S -> result S) (s : st) : outcome :=
  match op (surf s) with
  | Ok w => (mk (queue s) w (volume s) (emplaced s) (log s), None)
  | Err e => (s, Some e)
  end.

(** basicmoon.py:245-271 form_ejecta with morphology/__init__.py:622-660: when no
    volume is stored, or zero, the base method returns nothing and unpacking that is
    a TypeError. *)
Definition form_ejecta (c : crater) (s : st) : outcome :=
  match volume s with
  | None => (s, Some TypeError)
  | Some v =>
      if zero v then (s, Some TypeError) else
      match eject c v (surf s) with
      | Err e => (s, Some e)
      | Ok w => on_surf (soften c)
                  (mk (queue s) w (volume s) (emplaced s) (log s ++ [Thrown c v])%list)
      end
  end.

(** morphology/__init__.py:575-620 form_crater, behind basicmoon.py:228-243. *)
Definition form_crater (c : crater) (s : st) : outcome :=
  if negb (emplaceable g c) then (s, None) else
  if large c then
    match excavate c (surf s) with
    | Err e => (s, Some e)
    | Ok (w, v) =>
        let s1 := mk (queue s) w (Some v) (emplaced s ++ [c])%list (log s ++ [Dug c v])%list in
        next (if do_counting then on_surf (count c) s1 else (s1, None)) (form_ejecta c)
    end
  else (s, None).

(** morphology/__init__.py:717-720. *)
Fixpoint form_batch (batch : list crater) (s : st) : outcome :=
  match batch with
  | [] => (s, None)
  | c :: rest => next (form_crater c s) (form_batch rest)
  end.

Definition do_tally (rim : bool) (s : st) : outcome :=
  on_surf (tally rim) (mk (queue s) (surf s) (volume s) (emplaced s) (log s ++ [Tallied rim])%list).

(** morphology/__init__.py:711-738 _batch_process.  [rim] is the entry measure_rim of
    the keyword dictionary: [kwargs.pop] (line 734) removes it, and an absent entry
    counts as False.  The second component of the answer is what is left of it.  The
    [while] loop is given [fuel]; [None] is running out of it. *)
Fixpoint batch_process (fuel nacc : nat) (rim : bool) (s : st) : option (outcome * bool) :=
  match queue s with
  | [] => Some ((s, None), rim)
  | _ :: _ =>
    match fuel with
    | O => None
    | Datatypes.S fuel =>
      let batch := peek_next_batch g (queue s) in
      match next (form_batch batch s) (fun s1 =>
              if do_subpixel then on_surf (degrade batch) s1 else (s1, None)) with
      | (s2, Some e) => Some ((s2, Some e), rim)
      | (s2, None) =>
          match pop_batch batch (queue s2) with
          | Err e => Some ((s2, Some e), rim)
          | Ok q =>
            let s3 := mk q (surf s2) (volume s2) (emplaced s2) (log s2) in
            let n := (nacc + List.length batch)%nat in
            if do_counting && Nat.leb tally_cadence n then
              match do_tally rim s3 with
              | (s4, Some e) => Some ((s4, Some e), false)
              | (s4, None) => batch_process fuel 0 false s4
              end
            else batch_process fuel n rim s3
          end
      end
    end
  end.

(** morphology/__init__.py:697-758 _process_queue. *)
Definition process_queue (rim : bool) (s : st) : option outcome :=
  match batch_process (List.length (queue s)) 0 rim s with
  | None => None
  | Some (o, rim') =>
      Some (next (next o (fun s1 => if do_subpixel then on_surf finish s1 else (s1, None)))
                 (fun s2 => if do_counting then do_tally rim' s2 else (s2, None)))
  end.

(** basicmoon.py:203-219: one item of the list, then the list. *)
Definition prepare1 (i : nat) (x : item) : result crater :=
  match x with Moon c => Ok c | _ => convert i x end.
Fixpoint prepare (i : nat) (l : list item) : result (list crater) :=
  match l with
  | [] => Ok []
  | x :: l => rbind (prepare1 i x) (fun c => rbind (prepare (Datatypes.S i) l) (fun cs => Ok (c :: cs)))
  end.

(** basicmoon.py:200-224: an empty list or tuple is neither None, a non-empty list
    nor a Crater, so it ends in the final [else]. *)
Definition accept (a : arg) : result (list crater) :=
  match a with
  | Nothing => rbind create (fun c => Ok [c])
  | AList [] | ATuple [] => Err ValueError
  | AList l | ATuple l => prepare 0 l
  | One (Moon c) => Ok [c]
  | One (Plain c) => rbind (convert 0 (Plain c)) (fun c => Ok [c])
  | One (Morph c) => rbind (convert 0 (Morph c)) (fun c => Ok [c])
  | One NotCrater => Err ValueError
  end.

(** basicmoon.py:182-226 emplace, then morphology/__init__.py:551-573: the list that
    is returned is the list that was accepted. *)
Definition emplace (a : arg) (rim : bool) (s : st) : option (st * result (list crater)) :=
  match accept a with
  | Err e => Some (s, Err e)
  | Ok cs =>
      match process_queue rim (mk (enqueue_all g (queue s) cs) (surf s) (volume s) (emplaced s) (log s)) with
      | None => None
      | Some (s', None) => Some (s', Ok cs)
      | Some (s', Some e) => Some (s', Err e)
      end
  end.

(** A user's calls.  basicmoon.py:239-240, 261-262: form_crater and form_ejecta
    convert what they are given. *)
Inductive call := Emplace (a : arg) (rim : bool) | FormCrater (x : item) | FormEjecta (x : item).

Definition direct (f : crater -> st -> outcome) (x : item) (s : st) : option (st * result (list crater)) :=
  match prepare1 0 x with
  | Err e => Some (s, Err e)
  | Ok c => match f c s with
            | (s', None) => Some (s', Ok [])
            | (s', Some e) => Some (s', Err e)
            end
  end.

Definition step (k : call) (s : st) : option (st * result (list crater)) :=
  match k with
  | Emplace a rim => emplace a rim s
  | FormCrater x => direct form_crater x s
  | FormEjecta x => direct form_ejecta x s
  end.

(** A session: each call is made whatever the previous one did, and its answer
    noted. *)
Fixpoint session (ks : list call) (s : st) : option (st * list (result (list crater))) :=
  match ks with
  | [] => Some (s, [])
  | k :: ks =>
      match step k s with
      | None => None
      | Some (s1, r) =>
          match session ks s1 with
          | None => None
          | Some (s2, rs) => Some (s2, r :: rs)
          end
      end
  end.

End Model.
