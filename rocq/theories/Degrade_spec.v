(** Vocabulary for the theorems about Degrade_model. *)
From Coq Require Import Reals.
From Verif Require Import Common RSum Degrade_model.
Open Scope R_scope.

(** Minton et al. (2019), eq. (32), with the constants of the code: the degradation of the lunar
    mare by a crater of radius [r]. *)
Definition minton (r fe : R) : R := 0.30 * Rpower (PI * fe ^ 2 * 0.0084 * (25 / 6)) (- (5 / 3)) * r ^ 2.

(** Integration: additive in the integrand, and not smaller over a longer interval when the
    integrand is not negative. *)
Definition integral (quad : (R -> R) -> R -> R -> R) : Prop :=
  (forall f g h a b, (forall x, a <= x -> h x = f x + g x) -> quad h a b = quad f a b + quad g a b) /\
  (forall f a b c, (forall x, a <= x -> 0 <= f x) -> a <= b -> b <= c -> 0 <= quad f a b <= quad f a c).
(** The number of craters: not negative, and additive in time. *)
Definition produces (number : R -> R -> R -> R) : Prop :=
  (forall d t u, 0 < d -> u < t -> 0 <= number d t u) /\ (forall d t u v, number d t v = number d t u + number d u v).

(** Every face is in exactly one bin; bins hold faces; areas are positive; bin sizes are above
    the smallest crater considered. *)
Definition mesh_ok (u : surf) : Prop :=
  s_area u <> [] /\ (forall a, In a (s_area u) -> 0 < a) /\
  (forall idx d i, In (idx, d) (s_bins u) -> In i idx -> (i < List.length (s_area u))%nat) /\
  (forall idx d, In (idx, d) (s_bins u) -> 1e-8 <= d) /\
  (forall i, (i < List.length (s_area u))%nat -> exists l1 idx d l2, s_bins u = (l1 ++ (idx, d) :: l2)%list /\ In i idx /\
     (forall idx' d', In (idx', d') (l1 ++ l2)%list -> ~ In i idx')).
(** The largest crater that degrades face [i] from below the resolution. *)
Definition bin_size (u : surf) (i : nat) (d : R) : Prop := exists idx, In (idx, d) (s_bins u) /\ In i idx.

(** The degradation that one call adds to a face of bin size [d]. *)
Definition amount (quad : (R -> R) -> R -> R -> R) number (t_start t_end d : R) : R := quad (subpixel number t_start t_end) 1e-8 d.
(** All that a history of calls asks for, on a face of bin size [d]. *)
Fixpoint requested quad number (l : list op) (d : R) : R :=
  match l with
  | Compute a b :: r => (if Rlt_dec b a then amount quad number a b d else 0) + requested quad number r d
  | _ :: r => requested quad number r d
  | [] => 0
  end.
Definition only_degrades (l : list op) : Prop := forall o, In o l -> match o with Compute _ _ | Apply => True | _ => False end.
(** What has been applied to face [i], and what waits. *)
Definition applied (s : dstate) (i : nat) : R := lsum (fun k => nth i k 0) (d_diffused s).
Definition pending (s : dstate) (i : nat) : R := match d_kdiff s with Some k => nth i k 0 | None => 0 end.
