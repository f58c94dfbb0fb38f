(** C94: what emplace returns, lists and does over a session. *)
From Verif Require Import Common Queue_model Emplace_model Emplace_spec Emplace_proofs Emplace_cases.
Import ListNotations.

Section Props.
Variables S V : Type.
Variable zero : V -> bool.
Variable g : geometry.
Variable large : crater -> bool.
Variable excavate : crater -> S -> result (S * V).
Variable count : crater -> S -> result S.
Variable eject : crater -> V -> S -> result S.
Variable soften : crater -> S -> result S.
Variable degrade : list crater -> S -> result S.
Variable finish : S -> result S.
Variable tally : bool -> S -> result S.
Variables do_subpixel do_counting : bool.
Variable cadence : nat.
Variable convert : nat -> item -> result crater.
Variable create : result crater.
Local Notation emplace := (emplace S V zero g large excavate count eject soften degrade finish tally
  do_subpixel do_counting cadence convert create).
Local Notation step := (step S V zero g large excavate count eject soften degrade finish tally
  do_subpixel do_counting cadence convert create).
Local Notation session := (session S V zero g large excavate count eject soften degrade finish tally
  do_subpixel do_counting cadence convert create).
Local Notation new := (new S V).
Local Notation log := (log S V).
Local Notation emplaced := (emplaced S V).
Local Notation queue := (queue S V).

(** C94: a call of emplace always ends; when it returns, it returns one crater for
    each thing given, in the order given; the queue is empty and the list of emplaced
    craters has grown by the craters that were waiting and those returned which are
    large enough, in that order. *)
Theorem C94_returned : forall a rim s, exists s' r, emplace a rim s = Some (s', r) /\
  forall cs, r = Ok cs -> given convert create a cs /\ queue s' = [] /\
    emplaced s' = (emplaced s ++ filter (formable g large) (queue s ++ cs))%list.
Proof.
  exact (fun a rim s => match emplace_spec S V zero g large excavate count eject soften degrade finish tally
    do_subpixel do_counting cadence convert create a rim s with
    | ex_intro _ s' (ex_intro _ r (conj E (conj _ K))) => ex_intro _ s' (ex_intro _ r (conj E
        (fun cs H => match K cs H with conj A (conj B (conj C _)) => conj A (conj B C) end))) end).
Qed.

(** A session of emplace calls that all succeed lists exactly the large enough
    craters returned, once per time they were returned, in order. *)
Theorem C94_session : forall ks w s' rs cs, only_emplace ks ->
  session ks (new w) = Some (s', rs) -> returned rs cs ->
  queue s' = [] /\ emplaced s' = filter (formable g large) cs.
Proof.
  exact (fun ks w s' rs cs O H R => session_emplaced S V zero g large excavate count eject soften degrade finish tally
    do_subpixel do_counting cadence convert create ks O (new w) s' rs cs eq_refl H R).
Qed.

(** Whatever calls of emplace and form_crater are made and whichever fail, every
    blanket of ejecta is laid directly after its own crater was dug and with the
    volume dug, and the emplaced craters are those dug, in order. *)
Theorem C94_own_ejecta : forall ks w s' rs, no_form_ejecta ks ->
  session ks (new w) = Some (s', rs) ->
  own_ejecta (log s') /\ emplaced s' = dug (log s').
Proof.
  exact (session_own S V zero g large excavate count eject soften degrade finish tally
    do_subpixel do_counting cadence convert create).
Qed.

(** form_ejecta called by the user, after any session: it raises TypeError and
    changes nothing if no crater was dug or the latest one dug nothing; otherwise the
    blanket has the volume of the latest crater dug. *)
Theorem C94_direct_ejecta : forall ks w s rs c s' r,
  session ks (new w) = Some (s, rs) -> step (FormEjecta (Moon c)) s = Some (s', r) ->
  (never_dug (log s) -> r = Err TypeError /\ s' = s) /\
  (forall v, latest (log s) v ->
     (zero v = true -> r = Err TypeError /\ s' = s) /\
     (r = Ok [] -> log s' = (log s ++ [Thrown c v])%list)).
Proof.
  exact (direct_ejecta S V zero g large excavate count eject soften degrade finish tally
    do_subpixel do_counting cadence convert create).
Qed.

(** If no operation fails and every crater digs something, emplace succeeds on
    whatever it accepts. *)
Theorem C94_succeeds : forall a rim s cs, accept convert create a = Ok cs ->
  (forall c w, exists w' v, excavate c w = Ok (w', v) /\ zero v = false) ->
  (forall c w, exists w', count c w = Ok w') ->
  (forall c v w, exists w', eject c v w = Ok w') ->
  (forall c w, exists w', soften c w = Ok w') ->
  (forall b w, exists w', degrade b w = Ok w') ->
  (forall w, exists w', finish w = Ok w') ->
  (forall b w, exists w', tally b w = Ok w') ->
  exists s', emplace a rim s = Some (s', Ok cs).
Proof.
  exact (emplace_ok S V zero g large excavate count eject soften degrade finish tally
    do_subpixel do_counting cadence convert create).
Qed.

(** The tallies of one call: the first one measures rims as asked, the later ones do
    not; there is a single one when fewer craters than the cadence are queued, and
    more than one otherwise. *)
Theorem C94_measure_rim_partial : forall a rim s s' cs, do_counting = true -> (0 < cadence)%nat ->
  emplace a rim s = Some (s', Ok cs) ->
  exists k, tallies (log s') = (tallies (log s) ++ rim :: repeat false k)%list /\
    (k = 0%nat <-> (List.length (queue s) + List.length (filter (emplaceable g) cs) < cadence)%nat).
Proof.
  exact (measure_rim S V zero g large excavate count eject soften degrade finish tally
    do_subpixel do_counting cadence convert create).
Qed.

(** When counting, the last thing emplace does to the surface is a tally, measuring rims
    or not as the last recorded tally says. *)
Theorem C94_tallied : forall a rim s s' cs, do_counting = true -> emplace a rim s = Some (s', Ok cs) ->
  exists pre b w, tallies (log s') = (pre ++ [b])%list /\ tally b w = Ok (surf S V s').
Proof.
  exact (tallied_last S V zero g large excavate count eject soften degrade finish tally
    do_subpixel do_counting cadence convert create).
Qed.
End Props.
Print Assumptions C94_returned.
Print Assumptions C94_session.
Print Assumptions C94_own_ejecta.
Print Assumptions C94_direct_ejecta.
Print Assumptions C94_succeeds.
Print Assumptions C94_measure_rim_partial.
Print Assumptions C94_tallied.

Example C94_case : exists s', play 2000 [Emplace Nothing true; Emplace (ATuple [Moon 1; Morph 2]) false] (new nat nat 0)
  = Some (s', [Ok [50]; Ok [1; 102]]) /\ emplaced nat nat s' = [50; 1; 102] /\
  log nat nat s' = [Dug 50 50; Thrown 50 50; Tallied true; Dug 1 1; Thrown 1 1; Dug 102 102; Thrown 102 102; Tallied false].
Proof. exact ex_two. Qed.
Example C94_many_case : exists s', fine 2000 (AList (repeat (Moon 1) 7)) true (new nat nat 0)
  = Some (s', Ok (repeat 1%nat 7)).
Proof. exact (ex_many 7 ltac:(repeat constructor)). Qed.

(** Finding: the craters returned are not "the craters that were emplaced": craters
    too small for the mesh (9) or not larger than the face under them (8) are
    returned too, though nothing was formed for them. *)
Theorem C94_returned_emplaced_refuted : exists s',
  play 2000 [Emplace (AList [Moon 1; Moon 8; Moon 9; Plain 3]) false] (new nat nat 0)
    = Some (s', [Ok [1; 8; 9; 103]]) /\ emplaced nat nat s' = [1; 103].
Proof. exact ex_returned. Qed.
Print Assumptions C94_returned_emplaced_refuted.

(** Finding: an empty list of craters is an error, not "an empty list returned". *)
Theorem C94_empty_list_refuted : exists s',
  play 2000 [Emplace (AList []) false] (new nat nat 0) = Some (s', [Err ValueError]).
Proof. exact ex_empty. Qed.
Print Assumptions C94_empty_list_refuted.

(** Finding: a crater whose ejecta fails stays in the queue although it is already
    listed as emplaced, so the next call digs it and lists it a second time. *)
Theorem C94_listed_once_refuted : exists s',
  play 2000 [Emplace (One (Moon 5)) false; Emplace (One (Moon 1)) false] (new nat nat 0)
    = Some (s', [Err ValueError; Ok [1]]) /\ emplaced nat nat s' = [5; 5; 1].
Proof. exact ex_twice. Qed.
Print Assumptions C94_listed_once_refuted.

(** Finding: a crater that removes no volume (0) makes emplace fail, and every later
    call of emplace fails the same way, digging that crater once more each time. *)
Theorem C94_recovers_refuted : exists s',
  play 2000 [Emplace (One (Moon 0)) false; Emplace (One (Moon 1)) false; Emplace (One (Moon 2)) false] (new nat nat 0)
    = Some (s', [Err TypeError; Err TypeError; Err TypeError]) /\ emplaced nat nat s' = [0; 0; 0].
Proof. exact ex_stuck. Qed.
Print Assumptions C94_recovers_refuted.

(** Finding: form_ejecta called for crater 1 lays down the volume of crater 7, dug
    before it. *)
Theorem C94_ejecta_volume_refuted : exists s',
  play 2000 [Emplace (One (Moon 7)) false; FormEjecta (Moon 1)] (new nat nat 0)
    = Some (s', [Ok [7]; Ok []]) /\ log nat nat s' = [Dug 7 7; Thrown 7 7; Tallied false; Thrown 1 7].
Proof. exact ex_stale. Qed.
Print Assumptions C94_ejecta_volume_refuted.

(** Finding: with 2000 craters or more in one call, measure_rim=True does not reach
    the last tally, so the rims are not measured on the final surface. *)
Theorem C94_measure_rim_refuted : forall n, (2000 <= n)%nat -> exists s' k,
  fine 2000 (AList (repeat (Moon 1) n)) true (new nat nat 0) = Some (s', Ok (repeat 1%nat n)) /\
  tallies (log nat nat s') = (true :: repeat false k ++ [false])%list.
Proof. exact ex_rim. Qed.
Print Assumptions C94_measure_rim_refuted.
