(** Model of how the options of a tally reach the craters, and of the measurements it leaves:
    counting/__init__.py (tally 329-412, remove 229-240, fit_rim 242-286, morphology 1574-1586).
    Tags_model has the tags on the surface; here a tally sees the ids that are on it, in increasing
    order (np.unique, 360).  Simplifications: what the three measurements compute is given by [fit],
    [degrade] and [visible], which may raise; measurements are real numbers without NaN; the
    freeing of cached data (412) changes no measurement. *)
From Coq Require Import Reals List.
From Verif Require Import Common.
Import ListNotations.
Open Scope string_scope.

Section Tally.
Variables val measured : Type.
Variable no : val.   (* False *)

(** The keyword arguments of a call: a dictionary. *)
Definition kwargs := list (string * val).
Definition has (k : string) (kw : kwargs) : bool := existsb (fun p => String.eqb (fst p) k) kw.
Definition without (k : string) (kw : kwargs) : kwargs := filter (fun p => negb (String.eqb (fst p) k)) kw.
(** kwargs.pop(k, False) *)
Definition pop (k : string) (kw : kwargs) : val * kwargs :=
  (match find (fun p => String.eqb (fst p) k) kw with Some p => snd p | None => no end, without k kw).

(** What a measurement does to the measured values of the crater with an id. *)
Variable fit : nat -> val -> val -> kwargs -> measured -> result measured.
Variable degrade : nat -> kwargs -> measured -> result (measured * R).
Variable visible : nat -> kwargs -> measured -> result R.

(** Crater objects are numbers; [values] are their measurements.  Both lists hold objects. *)
Record counts := mkCounts {
  next : nat; values : nat -> measured; observed : list (nat * nat); emplaced : list nat }.
Definition crater_of (id : nat) (s : counts) : option nat :=
  match find (fun p => Nat.eqb (fst p) id) (observed s) with Some p => Some (snd p) | None => None end.
Definition put (r : nat) (x : measured) (s : counts) : counts :=
  mkCounts (next s) (fun q => if Nat.eqb q r then x else values s q) (observed s) (emplaced s).

(** The calls that a tally makes. *)
Inductive call :=
| FitRim (id : nat) (center ellipse : val) (kw : kwargs)
| Degradation (id : nat) (kw : kwargs)
| Visibility (id : nat) (kw : kwargs).

(** 385-388: fit_rim, when measure_rim is set; the two options are taken out of the arguments of the tally.  An
    argument named crater is given twice. *)
Definition rim (measure_rim : bool) (id r : nat) (kw : kwargs) (s : counts) : list call * kwargs * result counts :=
  if measure_rim then
    let (center, kw1) := pop "fit_center" kw in
    let (ellipse, kw2) := pop "fit_ellipse" kw1 in
    if has "crater" kw2 then ([], kw2, Err TypeError)
    else ([FitRim id center ellipse kw2], kw2, rbind (fit id center ellipse kw2 (values s r)) (fun x => Ok (put r x s)))
  else ([], kw, Ok s).
(** 389-391; the degradation state is stored in the crater (depthcount.py:91). *)
Definition wear (id r : nat) (kw : kwargs) (s : counts) : list call * result (counts * bool) :=
  if has "crater" kw then ([], Err TypeError)
  else match degrade id kw (values s r) with
       | Err e => ([Degradation id kw], Err e)
       | Ok (x, kd) =>
           ([Degradation id kw; Visibility id kw],
            rbind (visible id kw x) (fun kv => Ok (put r x s, if Rle_dec kv kd then true else false)))
       end.
(** What a tally leaves behind: the calls made, the state, the ids to remove and the exception if any. *)
Record progress := mkProgress { trace : list call; state : counts; to_remove : list nat; raised : option exn }.
(** 378-394: the loop over the ids. *)
Fixpoint loop (measure_rim : bool) (kw : kwargs) (ids : list nat) (s : counts) : progress :=
  match ids with
  | [] => mkProgress [] s [] None
  | id :: more =>
      match crater_of id s with
      | None =>
          let p := loop measure_rim kw more s in
          mkProgress (trace p) (state p) (id :: to_remove p) (raised p)
      | Some r =>
          match rim measure_rim id r kw s with
          | (t1, _, Err e) => mkProgress t1 s [] (Some e)
          | (t1, kw', Ok s1) =>
              match wear id r kw' s1 with
              | (t2, Err e) => mkProgress (t1 ++ t2) s1 [] (Some e)
              | (t2, Ok (s2, gone)) =>
                  let p := loop measure_rim kw' more s2 in
                  mkProgress (t1 ++ t2 ++ trace p) (state p)
                    (if gone then id :: to_remove p else to_remove p) (raised p)
              end
          end
      end
  end.
(** 229-240, of the list of observed craters. *)
Definition remove (id : nat) (s : counts) : counts :=
  mkCounts (next s) (values s) (filter (fun p => negb (Nat.eqb (fst p) id)) (observed s)) (emplaced s).
(** 396-410: the removals, unless an exception was raised. *)
Definition tally (measure_rim : bool) (kw : kwargs) (ids : list nat) (s : counts) : list call * counts * option exn :=
  let p := loop measure_rim kw ids s in
  (trace p, match raised p with Some _ => state p | None => fold_left (fun s i => remove i s) (to_remove p) (state p) end,
   raised p).

(** 1574-1586: assigning a morphology makes every listed crater anew; [promote] is what its maker keeps of the
    measurements. *)
Variable promote : measured -> measured.
Definition renew (r : nat) (s : counts) : nat * counts :=
  (next s, mkCounts (S (next s)) (fun q => if Nat.eqb q (next s) then promote (values s r) else values s q)
             (observed s) (emplaced s)).
Fixpoint renew_all (l : list nat) (s : counts) : list nat * counts :=
  match l with
  | [] => ([], s)
  | r :: more => let (q, s1) := renew r s in let (qs, s2) := renew_all more s1 in (q :: qs, s2)
  end.
Definition set_morphology (s : counts) : counts :=
  let (e, s1) := renew_all (emplaced s) s in
  let (o, s2) := renew_all (map snd (observed s)) s1 in
  mkCounts (next s2) (values s2) (combine (map fst (observed s)) o) e.
End Tally.
