(** Model of the degradation by craters below the resolution of the mesh:
    cratermaker/components/morphology/basicmoon.py, degradation_function (656-710),
    compute_subpixel_degradation (527-580), apply_subpixel_degradation (582-594),
    ejecta_burial_degradation (503-525); the size, sign and magnitude checks of apply_diffusion
    (surface/__init__.py:2372-2387); the surface attribute (morphology/__init__.py:795-806) and
    reset (core/base.py:94-115).  Simplifications: floats are reals; scipy's quad and the
    production function are arguments; an array is a list; what diffusion does to the elevations
    is in Mesh_model, here the diffused amounts are recorded; the tally after an application
    (575-577) is left out; a production object is always set (morphology/__init__.py:808-822). *)
From Coq Require Import Reals.
From Verif Require Import Common.
Open Scope R_scope.

(* ------------------------------ the degradation function ------------------------------ *)
(** _kdmare: 681-691; the third argument is overwritten. *)
Definition kdmare (r fe psi : R) : R :=
  let kv1 := 0.30 in
  let neq1 := 0.0084 in
  let eta := 3.2 in
  let gamma := 2 in
  let beta := 2 in
  let kd1 := kv1 * Rpower (PI * fe ^ 2 * neq1 * (gamma * beta / ((eta - 2) * (beta + gamma - eta)))) (- gamma / (eta - beta)) in
  let psi := gamma * ((eta - 2) / (eta - beta)) in
  kd1 * Rpower r psi.
(** _smooth_broken: 693-694 *)
Definition smooth_broken (x a x_break alpha_1 alpha_2 delta : R) : R :=
  a * Rpower (x / x_break) alpha_1 * Rpower (0.5 * (1 + Rpower (x / x_break) (1 / delta))) ((alpha_2 - alpha_1) / delta).
(** _kd: 696-703 *)
Definition kd (r fe : R) : R :=
  let psi_1 := 2 in
  let psi_2 := 1.2 in
  let rb := 0.5e3 in
  let delta := 1 in
  let kd1 := kdmare rb fe psi_1 / (1 + (psi_1 - psi_2) / psi_1) ^ 2 in
  smooth_broken r kd1 rb psi_1 psi_2 delta.
(** degradation_function: 705 *)
Definition degradation_function (diameter fe : R) : R := kd (diameter / 2) fe.
(** ejecta_burial_degradation: 531 *)
Definition ejecta_burial_degradation (thickness factor : R) : R := factor * thickness ^ 2.

(* ------------------------------ accumulation ------------------------------ *)
(** A surface: face areas, and bins of faces with the size of the largest face of each. *)
Record surf := mk_surf { s_area : list R; s_bins : list (list nat * R) }.
(** [d_kdiff]: the attribute _Kdiff, absent before the first call; [d_diffused]: the arrays the
    surface has been diffused with since it was made or reset, newest first. *)
Record dstate := mk_d { d_surf : surf; d_kdiff : option (list R); d_diffused : list (list R) }.
Definition outcome := (dstate * option exn)%type.

Section Degrade.
Context (quad : (R -> R) -> R -> R -> R) (number : R -> R -> R -> R) (vsmall : R).

(** _subpixel_degradation: 556-566 *)
Definition subpixel (t_start t_end diameter : R) : R :=
  let fe := 100 in
  let k := degradation_function diameter fe in
  let n := number diameter t_start t_end in
  k * n * (PI * (diameter / 2) * fe).

Fixpoint mapi {A B} (f : nat -> A -> B) (i : nat) (l : list A) : list B :=
  match l with [] => [] | x :: r => f i x :: mapi f (S i) r end.
Definition mem (i : nat) (l : list nat) : bool := existsb (Nat.eqb i) l.
(** _Kdiff[face_indices] += delta: 570; numpy raises IndexError for an index out of bounds, and
    adds once to each face (the indices of a bin are distinct). *)
Definition add_to_bin (k : list R) (idx : list nat) (delta : R) : result (list R) :=
  if forallb (fun i => Nat.ltb i (List.length k)) idx
  then Ok (mapi (fun i x => if mem i idx then x + delta else x) 0 k) else Err IndexError.
(** 568-570: what has been added stays when a later bin raises. *)
Fixpoint add_bins (t_start t_end : R) (bins : list (list nat * R)) (k : list R) : list R * option exn :=
  match bins with
  | [] => (k, None)
  | (idx, dmax) :: r =>
      match add_to_bin k idx (quad (subpixel t_start t_end) 1e-8 dmax) with
      | Ok k => add_bins t_start t_end r k
      | Err e => (k, Some e)
      end
  end.
Definition zeros (s : surf) : list R := map (fun _ => 0) (s_area s).
Fixpoint max_list (l : list R) (m : R) : R := match l with [] => m | x :: r => max_list r (Rmax m x) end.
(** apply_diffusion: 2374-2387 *)
Definition diffuse (k : list R) (s : dstate) : result (list (list R)) :=
  if negb (Nat.eqb (List.length k) (List.length (s_area (d_surf s)))) then Err ValueError
  else if existsb (fun x => if Rlt_dec x 0 then true else false) k then Err ValueError
  else match k with
       | [] => Err ValueError
       | x :: r => if Rlt_dec (Rabs (max_list r x)) vsmall then Ok (d_diffused s) else Ok (k :: d_diffused s)
       end.
(** apply_subpixel_degradation: 589-594 *)
Definition apply (s : dstate) : outcome :=
  match d_kdiff s with
  | None => (s, None)
  | Some k =>
      match diffuse k s with
      | Ok l => (mk_d (d_surf s) (Some (zeros (d_surf s))) l, None)
      | Err e => (s, Some e)
      end
  end.
(** any(_Kdiff / face_area > 1): 574; arrays of different sizes cannot be divided. *)
Definition exceeds (k a : list R) : bool := existsb (fun p => if Rlt_dec 1 (fst p / snd p) then true else false) (combine k a).
(** compute_subpixel_degradation: 548-577 *)
Definition compute (t_start t_end : R) (s : dstate) : outcome :=
  if Rle_dec t_start t_end then (s, Some ValueError)
  else
    let k0 := match d_kdiff s with Some k => k | None => zeros (d_surf s) end in
    let '(k, err) := add_bins t_start t_end (s_bins (d_surf s)) k0 in
    let s' := mk_d (d_surf s) (Some k) (d_diffused s) in
    match err with
    | Some e => (s', Some e)
    | None =>
        if negb (Nat.eqb (List.length k) (List.length (s_area (d_surf s)))) then (s', Some ValueError)
        else if exceeds k (s_area (d_surf s)) then apply s' else (s', None)
    end.
(** morphology.surface = surface: morphology/__init__.py:795-806. *)
Definition set_surface (u : surf) (s : dstate) : outcome := (mk_d u (d_kdiff s) [], None).
(** Simulation.reset (simulation.py:1357-1360): the surface is made flat again (surface/__init__.py:
    220-247); the morphology component has no reset of its own. *)
Definition reset (s : dstate) : outcome := (mk_d (d_surf s) (d_kdiff s) [], None).

(** Calls a user or the emplacement loop (morphology/__init__.py:722-755) makes. *)
Inductive op := Compute (t_start t_end : R) | Apply | SetSurface (u : surf) | Reset.
Definition step (o : op) (s : dstate) : outcome :=
  match o with Compute a b => compute a b s | Apply => apply s | SetSurface u => set_surface u s | Reset => reset s end.
(** Calls one after the other, errors caught by the caller. *)
Definition run (l : list op) (s : dstate) : dstate := fold_left (fun s o => fst (step o s)) l s.
Definition fresh (u : surf) : dstate := mk_d u None [].
End Degrade.
