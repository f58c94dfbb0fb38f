(** Model of the curves that crater counts are compared with: R_to_CSFD,
    csfd_geometric_saturation and csfd_equilibrium
    (cratermaker/components/counting/__init__.py).  The loop of R_to_CSFD for one diameter
    is [R_to_CSFD] of Prod_model.  Simplification: f64 is idealised as R. *)
From Coq Require Import Reals ZArith.
From Verif Require Import Common Prod_model.
Import ListNotations.
Open Scope R_scope.

(** counting/__init__.py:1632 for an array: numpy.vectorize refuses an empty array.  None:
    the fuel of the loops (1621-1629) does not suffice. *)
Fixpoint each (f : R -> R) (Dlim : R) (fuel : nat) (ds : list R) : option (list R) :=
  match ds with
  | [] => Some []
  | d :: ds => match R_to_CSFD f Dlim fuel d, each f Dlim fuel ds with Some n, Some ns => Some (n :: ns) | _, _ => None end
  end.
Definition R_to_CSFD_array (f : R -> R) (Dlim : R) (fuel : nat) (ds : list R) : option (result (list R)) :=
  match ds with
  | [] => Some (Err ValueError)
  | _ => match each f Dlim fuel ds with Some ns => Some (Ok ns) | None => None end
  end.

(** What a caller may pass as diameters: a number, an array or a list. *)
Inductive sizes := Float (d : R) | Int (d : Z) | Floats (l : list R) | Ints (l : list Z) | PyList (l : list R).
(** A number, or an array whose infinite entries are None. *)
Inductive numbers := One (n : R) | Many (l : list (option R)).

(** diameter ** (-2): Python raises ZeroDivisionError for 0, numpy gives inf for it, and
    raises ValueError for integers to negative integer powers; a list has no powers. *)
Definition inverse_square (d : sizes) : result numbers :=
  let float d := if Req_EM_T d 0 then Err ZeroDivisionError else Ok (One (/ d ^ 2)) in
  match d with
  | Float d => float d
  | Int d => float (IZR d)
  | Floats l => Ok (Many (map (fun d => if Req_EM_T d 0 then None else Some (/ d ^ 2)) l))
  | Ints [] => Ok (Many [])
  | Ints _ => Err ValueError
  | PyList _ => Err TypeError
  end.
(** A factor times the answer (a factor of at least 0; 0 times inf is left as None). *)
Definition times (f : R) (n : numbers) : numbers :=
  match n with One n => One (f * n) | Many l => Many (map (option_map (Rmult f)) l) end.
(** counting/__init__.py:1635-1656. *)
Definition csfd_geometric_saturation (d : sizes) : result numbers :=
  rbind (inverse_square d) (fun n => Ok (times (154 / 100) n)).
(** counting/__init__.py:1659-1681. *)
Definition f_geometric_default : R := 218 / 10000.
Definition csfd_equilibrium (d : sizes) (f_geometric : R) : result numbers :=
  rbind (csfd_geometric_saturation d) (fun n => Ok (times f_geometric n)).
