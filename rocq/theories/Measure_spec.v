(** Vocabulary for the theorems about Measure_model. *)
From Coq Require Import Reals NArith.
From Verif Require Import Common RSum Crater_model Measure_model.
Open Scope R_scope.

(** [s] lists, in order, the elements of [l] that satisfy [P]. *)
Inductive picks {A} (P : A -> Prop) : list A -> list A -> Prop :=
| picks_nil : picks P [] []
| picks_yes x l s : P x -> picks P l s -> picks P (x :: l) (x :: s)
| picks_no x l s : ~ P x -> picks P l s -> picks P (x :: l) s.
(** [m] is the arithmetic mean of [l]. *)
Definition is_mean (l : list R) (m : R) : Prop := l <> [] /\ m * INR (List.length l) = lsum (fun x => x) l.

(** A face of a region: the ids of the craters recorded on it, its elevation, and its distance
    from the centre. *)
Record cface := mk_cface { c_ids : list N; c_elev : R; c_dist : R }.
Definition on_floor (r : R) (id : N) (f : cface) : Prop := In id (c_ids f) /\ c_dist f <= 0.2 * r.
Definition on_rim (r : R) (id : N) (f : cface) : Prop := In id (c_ids f) /\ 0.95 * r <= c_dist f <= 1.2 * r.
(** The arrays of a region with these faces. *)
Definition ids_of (fs : list cface) : option (list (list N)) := Some (map c_ids fs).
Definition elev_of (fs : list cface) : list (option R) := map (fun f => Some (c_elev f)) fs.
Definition dist_of (fs : list cface) : option (list (option R)) := Some (map (fun f => Some (c_dist f)) fs).
Definition raised (h : R) (f : cface) : cface := mk_cface (c_ids f) (c_elev f + h) (c_dist f).

(** Number of elements of [l] that satisfy a decidable property. *)
Definition how_many {A} (P : A -> bool) (l : list A) : nat := List.length (filter P l).
(** A face that can be scored: all its data are numbers and it is within the extent. *)
Definition scorable (ap bp : R) (f : sface) : Prop :=
  s_elev f <> None /\ s_grad f <> None /\ s_curv f <> None /\ s_dist f <= 1.5 * Rmax ap bp.
(** The elevation of a face raised by h. *)
Definition lifted (h : R) (f : sface) : sface :=
  mk_sface (option_map (fun e => e + h) (s_elev f)) (s_grad f) (s_curv f) (s_rim f) (s_dist f) (s_bearing f).

(** One estimate of a rim is close to the next. *)
Definition close (tol radius : R) (e : estimate) (a b : R) : Prop :=
  Rabs (a - e_major e) / radius < tol /\ Rabs (b - e_minor e) / radius < tol.
(** The n-th estimate of a sequence of fits, each made from the previous one, none of them
    close to its predecessor. *)
Inductive refined {region : Type} (extract : R * R -> R -> option region) (fit : nat -> region -> estimate -> result ((R * R) * R * R * R))
  (tol radius : R) (e : estimate) : nat -> estimate -> Prop :=
| refined_first : refined extract fit tol radius e 0 e
| refined_next n e' g loc a b o :
    refined extract fit tol radius e n e' -> extract (e_loc e') (2 * e_radius e') = Some g ->
    fit n g e' = Ok (loc, a, b, o) -> ~ close tol radius e' a b ->
    refined extract fit tol radius e (S n) (mk_estimate loc (e_radius e) a b (o * 180 / PI)).
