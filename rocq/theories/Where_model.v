(** Asking for the distances, bearings and locations of several places at once:
    LocalSurface.compute_distances, compute_bearings and compute_location_from_distance_bearing
    (components/surface/__init__.py), and how they read locations
    (validate_and_normalize_location, utils/general_utils.py).
    Simplifications: f64 is idealised as R; when an argument and the reference location are both
    bad, which of the two is reported first is not kept. *)
From Coq Require Import Reals.
From Verif Require Import Common Trig_model Crater_model Place_model.
Import ListNotations.
Open Scope R_scope.

(** The kinds of flat sequences of numbers. *)
Inductive holder := InTuple | InList | InArray.
(** What can be given for locations: numbers in a flat sequence; a tuple or list of such sequences;
    an array with two columns; a dict, with the keys lon and lat perhaps and other keys; a one-dimensional structured array and one record of such an
    array, with the field lon before lat or after it (the pair is written longitude first). *)
Inductive arg :=
| Numbers (h : holder) (l : list R)
| Sequences (items : list (holder * list R))
| Rows (rows : list (R * R))
| Mapping (lon lat : option R) (other_keys : nat)
| Records (lon_first : bool) (rows : list (R * R))
| Record1 (lon_first : bool) (p : R * R).
(** What validate_and_normalize_location returns: a tuple, or a list of tuples. *)
Inductive outcome := One (p : R * R) | Several (l : list (R * R)).

(** utils/general_utils.py:320-321, 340-345 for a flat sequence; location[0] of an empty one is an
    IndexError (325). *)
Definition validate_numbers (l : list R) : result (R * R) :=
  match l with [] => Err IndexError | [a; b] => Ok (normalize (a, b)) | _ => Err ValueError end.
(** utils/general_utils.py:331-334. *)
Fixpoint validate_each (items : list (holder * list R)) : result (list (R * R)) :=
  match items with
  | [] => Ok []
  | i :: rest => rbind (validate_numbers (snd i)) (fun p => rbind (validate_each rest) (fun ps => Ok (p :: ps)))
  end.
(** normalize_coords (utils/general_utils.py:242-260) of two sequences: a tuple or a list plus a
    number, or compared with one, is a TypeError; the truth of an array of several numbers is a
    ValueError; float() of such an array is a TypeError. *)
Definition normalize_two (a b : holder * list R) : result (R * R) :=
  match a, b with
  | (InArray, la), (InArray, lb) =>
      match lb with
      | [y] => match la with [x] => Ok (normalize (x, y)) | _ => Err TypeError end
      | _ => Err ValueError
      end
  | _, _ => Err TypeError
  end.
(** utils/general_utils.py:263-345 validate_and_normalize_location. *)
Definition validate (a : arg) : result outcome :=
  match a with
  | Records _ rows => match rows with [] | [_] => Err IndexError | _ => Err TypeError end
  | Rows rows => match rows with [] => Err IndexError | [p] => Ok (One (normalize p)) | _ => Ok (Several (map normalize rows)) end
  | Numbers _ l => rbind (validate_numbers l) (fun p => Ok (One p))
  | Sequences items =>
      match items with
      | [] => Err IndexError
      | [i; j] => rbind (normalize_two i j) (fun p => Ok (One p))
      | i :: rest =>
          if Nat.eqb (List.length (snd i)) 2 then
            match rest with
            | [] => rbind (validate_numbers (snd i)) (fun p => Ok (One p))
            | _ => rbind (validate_each items) (fun ps => Ok (Several ps))
            end
          else Err ValueError
      end
  | Mapping lon lat n =>
      match lon, lat with
      | Some x, Some y => Ok (One (normalize (x, y)))
      | _, _ => if Nat.eqb (count [given lon; given lat] + n) 2 then Err KeyError else Err ValueError
      end
  | Record1 lon_first (x, y) => Ok (One (normalize (if lon_first then (x, y) else (y, x))))
  end.

(** The first two columns of np.asarray(locations, dtype=float64) (surface/__init__.py:3886-3891):
    two numbers are one row; a flat array of another size has no columns; sequences of different
    lengths make no array; a dict and structured data are not numbers. *)
Definition first_two (l : list R) : R * R := match l with a :: b :: _ => (a, b) | _ => (0, 0) end.
Definition columns (a : arg) : result (list (R * R)) :=
  match a with
  | Numbers _ [x; y] => Ok [(x, y)]
  | Numbers _ _ => Err IndexError
  | Rows rows => Ok rows
  | Sequences [] => Err IndexError
  | Sequences (((_, l) :: rest) as items) =>
      if forallb (fun i => Nat.eqb (List.length (snd i)) (List.length l)) rest then
        if Nat.leb 2 (List.length l) then Ok (map (fun i => first_two (snd i)) items) else Err IndexError
      else Err ValueError
  | Mapping _ _ _ | Records _ _ | Record1 _ _ => Err TypeError
  end.

(** lon1, lat1 = np.radians(validate_and_normalize_location(reference)): a single location; two
    locations give arrays where the binding takes numbers, other counts cannot be unpacked. *)
Definition single (o : outcome) : result (R * R) :=
  match o with One p => Ok p | Several [_; _] => Err TypeError | Several _ => Err ValueError end.
(** The reference location: surface/__init__.py:3843-3847, 3880-3884, 3917-3921.  [s_local] is the
    location of a local region; a whole surface has none (1004-1033: _full()). *)
Definition reference_of (s : surf) (ref : option arg) : result (R * R) :=
  match ref, s_local s with
  | Some a, _ => rbind (validate a) single
  | None, Some l => Ok (normalize l)
  | None, None => Err ValueError
  end.

(** surface/__init__.py:3816-3859 compute_distances, validating; surface/__init__.py:958-982;
    crates/cratermaker-components/src/surface/mod.rs:517-536. *)
Definition compute_distances (s : surf) (locations : arg) (ref : option arg) : result (list R) :=
  rbind (reference_of s ref) (fun l =>
  rbind (validate locations) (fun o =>
  Ok (map (fun p => compute_one_distance (radians (fst l)) (radians (snd l)) (radians (fst p)) (radians (snd p)) (s_radius s))
          (match o with One p => [p] | Several ps => ps end)))).
(** surface/__init__.py:3861-3893, 984-1004 compute_bearings; mod.rs:624-642. *)
Definition compute_bearings (s : surf) (locations : arg) (ref : option arg) : result (list R) :=
  rbind (reference_of s ref) (fun l =>
  rbind (columns locations) (fun ps =>
  Ok (map (fun p => degrees (compute_bearing_elem (radians (fst l)) (radians (snd l)) (radians (fst p)) (radians (snd p)))) ps))).

(** A number or a flat array of numbers; np.atleast_1d. *)
Inductive nums := Scalar (x : R) | Flat (l : list R).
Definition atleast_1d (n : nums) : list R := match n with Scalar x => [x] | Flat l => l end.
(** surface/__init__.py:3895-3933, 1006-1033 compute_location_from_distance_bearing; mod.rs:566-587.
    Simplification: no arrays of two dimensions. *)
Definition compute_locations (s : surf) (distance bearing : nums) (ref : option arg) : result outcome :=
  rbind (reference_of s ref) (fun l =>
  let ds := atleast_1d distance in
  let bs := atleast_1d bearing in
  if Nat.eqb (List.length bs) (List.length ds) then
    validate (Rows (map (fun db => let '(lon, lat) := compute_location_elem (radians (fst l)) (radians (snd l)) (fst db) (radians (snd db)) (s_radius s) in
                                   (degrees lon, degrees lat)) (combine ds bs)))
  else Err ValueError).
