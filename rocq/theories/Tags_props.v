(** C40-C42: face tags, observed craters and cookie cutting. *)
From Coq Require Import NArith Permutation.
From Verif Require Import Common Tags_model Tags_spec Tags_proofs.
Open Scope N_scope.

(** C40: adding a tag puts it on every face of the region, leaves every face outside
    alone, keeps the table's shape, and, on every face with a free layer, keeps every
    other tag.  [None]: the tag name is new.  Missing from the full statement: a face
    whose eight layers are taken (see below). *)
Theorem C40_add_tag_partial : forall rg t tb tb', well_formed tb ->
  add_tag rg (Some t) (Some tb) = Some tb' ->
  well_formed tb' /\
  (forall f, In f rg -> In t (tb' f)) /\
  (forall f, ~ In f rg -> tb' f = tb f) /\
  (forall f u, u <> 0 -> (In f rg -> has_free_layer (tb f)) ->
    times u (tb' f) = (times u (tb f) + (if in_region rg f then if N.eq_dec u t then 1 else 0 else 0))%nat).
Proof.
  exact (fun rg t tb tb' W E => conj (add_tag_wf rg t tb tb' W E)
    (conj (fun f Hf => match add_tag_row rg t tb tb' f W E Hf with
                       ex_intro _ _ (conj _ (conj _ (conj _ H))) => H end)
    (conj (fun f Hf => add_tag_outside rg t tb tb' f E Hf) (add_tag_keeps rg t tb tb' W E)))).
Qed.
Print Assumptions C40_add_tag_partial.
Example C40_case : exists tb', add_tag [0; 2]%nat (Some 7) (Some (fun f => match f with 2%nat => [5;0;0;0;0;0;0;0] | _ => repeat 0 8 end)) = Some tb'
  /\ tb' 2%nat = [5;7;0;0;0;0;0;0] /\ tb' 0%nat = [0;7;0;0;0;0;0;0] /\ tb' 1%nat = repeat 0 8.
Proof. eexists. repeat split; vm_compute; reflexivity. Qed.

(** On a full face exactly one tag is lost: the smallest one. *)
Theorem C40_full_face : forall rg t tb tb' f, well_formed tb ->
  add_tag rg (Some t) (Some tb) = Some tb' -> In f rg -> ~ has_free_layer (tb f) ->
  exists m, m <> 0 /\ In m (tb f) /\ (forall b, In b (tb f) -> m <= b) /\
    Permutation (m :: tb' f) (t :: tb f).
Proof. exact add_tag_full. Qed.
Print Assumptions C40_full_face.
Example C40_full_case : exists tb', add_tag [0%nat] (Some 9) (Some (fun _ => [3;4;1;2;5;6;7;8])) = Some tb'
  /\ tb' 0%nat = [8;7;6;5;4;3;2;9].
Proof. eexists. repeat split; vm_compute; reflexivity. Qed.

(** So the property fails: a tag can vanish from a face. *)
Theorem C40_keeps_other_tags_refuted : exists rg t tb tb' f u, well_formed tb /\
  add_tag rg (Some t) (Some tb) = Some tb' /\ u <> t /\ u <> 0 /\ In u (tb f) /\ ~ In u (tb' f).
Proof. exact full_face_loses. Qed.
Print Assumptions C40_keeps_other_tags_refuted.

(** Removing a tag from a region removes it from every face of the region, keeps all
    other tags there, and leaves other faces alone; an unknown name is an error. *)
Theorem C40_remove_tag : forall rg t tb, exists tb', remove_tag rg t (Some tb) = Ok (Some tb') /\
  (forall f u, u <> 0 -> times u (tb' f) =
     (if in_region rg f then if N.eq_dec u t then 0 else times u (tb f) else times u (tb f))%nat) /\
  (forall f, ~ In f rg -> tb' f = tb f) /\
  (well_formed tb -> well_formed tb').
Proof. exact remove_tag_spec. Qed.
Print Assumptions C40_remove_tag.
Example C40_remove_case : exists tb', remove_tag [0%nat] 4 (Some (fun _ => [3;4;0;4;0;0;0;0])) = Ok (Some tb')
  /\ tb' 0%nat = [3;0;0;0;0;0;0;0] /\ tb' 1%nat = [3;4;0;4;0;0;0;0].
Proof. eexists. repeat split; vm_compute; reflexivity. Qed.

(** C41: in every history of additions, removals, tallies and resets in which no face
    is in the region of more than eight added craters, every observed crater has a
    face carrying its id.  Missing: histories that put more craters on a face. *)
Theorem C41_observed_recorded_partial : forall n l, positive_ids l ->
  (forall f, (times_covered f l <= N_TAG_LAYERS)%nat) ->
  forall id, is_observed (history n fresh l) id -> recorded_in n (history n fresh l) id.
Proof. exact observed_recorded. Qed.
Print Assumptions C41_observed_recorded_partial.
Example C41_case : map fst (observed (history 100 fresh [OAdd (crater_of 4 5); OAdd (crater_of 6 7);
    OTally (fun c => Ok (cid c =? 4)) true])) = [6].
Proof. vm_compute. reflexivity. Qed.

(** The ninth crater on a patch makes an observed crater unrecorded, for good: tally
    with nothing worn keeps it. *)
Theorem C41_observed_recorded_refuted : exists n l id, positive_ids l /\
  is_observed (history n fresh l) id /\ ~ recorded_in n (history n fresh l) id.
Proof. exact nine_craters. Qed.
Print Assumptions C41_observed_recorded_refuted.

(** A tally that returns normally leaves no id on the surface without an observed
    crater, and keeps a recorded crater exactly when it is not worn out. *)
Theorem C41_tally : forall n worn s s', reachable n s -> tally n worn true s = (s', None) ->
  (forall id, id <> 0 -> recorded_in n s' id -> is_observed s' id) /\
  (forall id c, In (id, c) (observed s') -> In (id, c) (observed s)) /\
  (forall id c, id <> 0 -> In (id, c) (observed s) -> recorded_in n s id ->
     (In (id, c) (observed s') <-> worn c <> Ok true)) /\
  (forall id, is_observed s' id -> id <> 0 -> recorded_in n s id -> recorded_in n s' id).
Proof. exact tally_spec. Qed.
Print Assumptions C41_tally.
Example C41_tally_case : exists s', tally 100 (fun c => Ok (cid c =? 4)) true
    (history 100 fresh [OAdd (crater_of 4 5); OAdd (crater_of 6 5)]) = (s', None) /\ map fst (observed s') = [6].
Proof. eexists. split; vm_compute; reflexivity. Qed.

(** C42: of the other craters in the count, [add] drops only strictly smaller ones
    that have no recorded face left, and adds none. *)
Theorem C42_removes_only_smaller_and_gone : forall n c s, reachable n s -> cid c <> 0 ->
  let s' := fst (add n c s) in
  (forall id v, id <> cid c -> In (id, v) (observed s') -> In (id, v) (observed s)) /\
  (forall id v, id <> cid c -> In (id, v) (observed s) -> ~ In (id, v) (observed s') ->
     cdiam v < cdiam c /\ ~ recorded_in n s' id).
Proof. exact add_spec. Qed.
Print Assumptions C42_removes_only_smaller_and_gone.
Example C42_case : map fst (observed (history 100 fresh
   [OAdd (mk_crater 4 5 (Some patch) (Some patch)); OAdd (mk_crater 6 7 (Some patch) (Some patch));
    OAdd (mk_crater 8 6 (Some patch) (Some patch))])) = [6; 8].
Proof. vm_compute. reflexivity. Qed.

(** When the crater is counted: it is observed; smaller observed craters lose their
    id inside the rim, and leave the count when nothing is left of them; every other
    tag survives the cut. *)
Theorem C42_cuts_the_interior : forall n c s rg inner, reachable n s -> cid c <> 0 ->
  region c = Some rg -> (min_face_for_counting <= List.length rg)%nat -> interior c = Some inner ->
  (exists f, (f < n)%nat /\ In f rg) ->
  snd (add n c s) = None /\
  let s' := fst (add n c s) in
  In (cid c, c) (observed s') /\
  (forall id v, id <> cid c -> In (id, v) (observed s) -> cdiam v < cdiam c -> id <> 0 ->
     (forall f tb', In f inner -> tags s' = Some tb' -> ~ In id (tb' f)) /\
     ((exists f tb', In f inner /\ add_tag rg (Some (cid c)) (tags s) = Some tb' /\ In id (tb' f)) ->
      ~ recorded_in n s' id -> ~ is_observed s' id)) /\
  (exists tb tb', add_tag rg (Some (cid c)) (tags s) = Some tb /\ tags s' = Some tb' /\
     forall f u, u <> 0 -> (u = cid c \/ ~ In f inner \/ ~ (exists v, In (u, v) (observed s) /\ cdiam v < cdiam c)) ->
       times u (tb' f) = times u (tb f)).
Proof. exact add_cuts. Qed.
Print Assumptions C42_cuts_the_interior.
Example C42_cut_case : exists tb, tags (history 100 fresh
   [OAdd (mk_crater 4 5 (Some patch) (Some patch)); OAdd (mk_crater 6 7 (Some patch) (Some [0%nat]))]) = Some tb /\
   tb 0%nat = [0;6;0;0;0;0;0;0] /\ tb 1%nat = [4;6;0;0;0;0;0;0].
Proof. eexists. split; [|split]; vm_compute; reflexivity. Qed.
