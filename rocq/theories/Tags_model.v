(** Model of the face tags (cratermaker/components/surface/__init__.py) and of the
    crater count built on them (cratermaker/components/counting/__init__.py).
    A tag table maps a face to its row of tag layers.  Regions are lists of face
    numbers (numpy index arrays or slices); only membership matters. *)
From Coq Require Import NArith Arith.
From Verif Require Import Common.
Open Scope N_scope.

(** surface/__init__.py:40. *)
Definition N_TAG_LAYERS : nat := 8.

Definition row := list N.
Definition table := nat -> row.

Definition in_region (region : list nat) (f : nat) : bool := existsb (Nat.eqb f) region.

Fixpoint set_nth (i : nat) (x : N) (l : row) : row :=
  match l, i with
  | [], _ => []
  | _ :: t, O => x :: t
  | a :: t, S j => a :: set_nth j x t
  end.

(** Row sorted in descending order (np.argsort ascending, reversed). *)
Fixpoint insert_desc (x : N) (l : row) : row :=
  match l with
  | [] => [x]
  | a :: t => if a <? x then x :: l else a :: insert_desc x t
  end.
Definition sort_desc (l : row) : row := fold_right insert_desc [] l.

(** surface/__init__.py:2345-2358 sort_tags. *)
Definition sort_tags (region : list nat) (tbl : table) : table :=
  fun f => if in_region region f then sort_desc (tbl f) else tbl f.

(** np.all(data[:, i] == 0) over the rows of the region. *)
Definition layer_empty (region : list nat) (tbl : table) (i : nat) : bool :=
  forallb (fun f => N.eqb (nth i (tbl f) 0) 0) region.

Definition set_layer (region : list nat) (i : nat) (tag : N) (tbl : table) : table :=
  fun f => if in_region region f then set_nth i tag (tbl f) else tbl f.

Definition zero_table : table := fun _ => repeat 0 N_TAG_LAYERS.

(** surface/__init__.py:2280-2324 add_tag.  [tbl = None]: the tag name does not
    exist yet.  [tag = None] resets the layers of the whole surface.  When no layer is
    empty over the region the loop sorts, then leaves with insert_layer = -1, which
    numpy reads as the last layer; the warning branch is unreachable. *)
Definition add_tag (region : list nat) (tag : option N) (tbl : option table) : option table :=
  match tag with
  | None => Some zero_table
  | Some t =>
      let tb := match tbl with None => zero_table | Some tb => tb end in
      match find (layer_empty region tb) (seq 0 N_TAG_LAYERS) with
      | Some i => Some (set_layer region i t tb)
      | None => Some (set_layer region (N_TAG_LAYERS - 1) t (sort_tags region tb))
      end
  end.

(** surface/__init__.py:2326-2343 remove_tag. *)
Definition remove_tag (region : list nat) (tag : N) (tbl : option table) : result (option table) :=
  match tbl with
  | None => Err ValueError
  | Some tb => Ok (Some (fun f => if in_region region f
                                  then map (fun x => if x =? tag then 0 else x) (tb f)
                                  else tb f))
  end.

(** The part of a crater that counting uses.  [region] is crater.crater_region
    ([None]: no region), [interior] the region of radius crater.radius extracted from
    it ([None] when no face centre is that close). *)
Record crater := mk_crater {
  cid : N; cdiam : N; region : option (list nat); interior : option (list nat) }.

(** Count state: tag table and observed dict in insertion order. *)
Record count := mk_count { tags : option table; observed : list (N * crater) }.

(** Python dict operations. *)
Fixpoint dict_set (k : N) (v : crater) (d : list (N * crater)) : list (N * crater) :=
  match d with
  | [] => [(k, v)]
  | (k', v') :: t => if k' =? k then (k, v) :: t else (k', v') :: dict_set k v t
  end.
Definition dict_pop (k : N) (d : list (N * crater)) : list (N * crater) :=
  filter (fun p => negb (fst p =? k)) d.
Definition dict_has (k : N) (d : list (N * crater)) : bool := existsb (fun p => fst p =? k) d.

Section Counting.
Context (n_face : nat).

(** [id in surface.uxds.crater_id] / np.any(... == id), over all faces and layers. *)
Definition recorded (tb : table) (id : N) : bool :=
  existsb (fun f => existsb (N.eqb id) (tb f)) (seq 0 n_face).

Definition min_face_for_counting : nat := 100.

(** counting/__init__.py:218 the craters to cut out. *)
Definition removes (c : crater) (ids : list N) (d : list (N * crater)) : list N :=
  map fst (filter (fun p => existsb (N.eqb (cid (snd p))) ids && (cdiam (snd p) <? cdiam c)) d).

(** counting/__init__.py:220-225 the cookie-cutting loop. *)
Fixpoint cookie (inner : list nat) (ids : list N) (tb : table) (d : list (N * crater))
    : table * list (N * crater) :=
  match ids with
  | [] => (tb, d)
  | i :: rest =>
      let tb' := fun f => if in_region inner f
                          then map (fun x => if x =? i then 0 else x) (tb f) else tb f in
      cookie inner rest tb' (if recorded tb' i then d else dict_pop i d)
  end.

(** counting/__init__.py:167-227 add, from line 193 on (type checks are not
    modelled; the conversion to a MorphologyCrater is assumed done).  The second
    component is the exception raised, if any; the state is kept as it is then. *)
Definition add (c : crater) (s : count) : count * option exn :=
  match region c with
  | None => (s, None)
  | Some rg =>
    if (min_face_for_counting <=? List.length rg)%nat then
      match add_tag rg (Some (cid c)) (tags s) with
      | None => (s, None)
      | Some tb =>
        if recorded tb (cid c) then
          let d := dict_set (cid c) c (observed s) in
          match interior c with
          | None => (mk_count (Some tb) d, Some AttributeError)
          | Some inner =>
              let ids := filter (fun x => 0 <? x) (flat_map tb inner) in
              let '(tb', d') := cookie inner (removes c ids d) tb d in
              (mk_count (Some tb') d', None)
          end
        else (mk_count (Some tb) (observed s), None)
      end
    else (s, None)
  end.

(** counting/__init__.py:229-240 remove (the region is the whole surface). *)
Definition remove (id : N) (s : count) : count * option exn :=
  match remove_tag (seq 0 n_face) id (tags s) with
  | Err e => (s, Some e)
  | Ok tb => (mk_count tb (dict_pop id (observed s)), None)
  end.

(** counting/__init__.py:378-395 the measuring loop: ids to remove, or the
    exception raised by a measurement.  [worn c] decides Kd >= Kv; updates of the
    measured attributes of a crater are not modelled. *)
Fixpoint judge (worn : crater -> result bool) (d : list (N * crater)) (ids : list N) : result (list N) :=
  match ids with
  | [] => Ok []
  | i :: rest =>
      match find (fun p => fst p =? i) d with
      | None => rbind (judge worn d rest) (fun r => Ok (i :: r))
      | Some (_, c) =>
          rbind (worn c) (fun w => rbind (judge worn d rest) (fun r => Ok (if w : bool then i :: r else r)))
      end
  end.

Fixpoint remove_all (ids : list N) (s : count) : count * option exn :=
  match ids with
  | [] => (s, None)
  | i :: rest => match remove i s with
                 | (s', None) => remove_all rest s'
                 | (s', Some e) => (s', Some e)
                 end
  end.

(** counting/__init__.py:329-412 tally.  [whole = true]: no region given.
    A region argument hits the unimported name LocalSurface (line 355): NameError.
    Order and multiplicity of the ids (np.unique) do not matter to the result and
    are those of the table here. *)
Definition tally (worn : crater -> result bool) (whole : bool) (s : count) : count * option exn :=
  if whole then
    match tags s with
    | None => (s, None)
    | Some tb =>
        let ids := filter (fun x => 0 <? x) (flat_map tb (seq 0 n_face)) in
        match judge worn (observed s) (nodup N.eq_dec ids) with
        | Err e => (s, Some e)
        | Ok rm => remove_all rm s
        end
    end
  else (s, Some NameError).

(** counting/__init__.py:151-165 reset (file removal not modelled). *)
Definition reset : count := mk_count (add_tag (seq 0 n_face) None None) [].

(** Histories of public calls. *)
Inductive op := OAdd (c : crater) | ORemove (id : N) | OTally (worn : crater -> result bool) (whole : bool) | OReset.
Definition step (s : count) (o : op) : count :=
  match o with
  | OAdd c => fst (add c s)
  | ORemove id => fst (remove id s)
  | OTally w b => fst (tally w b s)
  | OReset => reset
  end.
Definition history (s : count) (l : list op) : count := fold_left step l s.

End Counting.
