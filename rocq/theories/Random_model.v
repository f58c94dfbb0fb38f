(** Model of utils/montecarlo_utils.py: random locations, angles, sizes and velocities.
    Draws of the generator are arguments.  Floating point numbers are modelled by reals. *)
From Coq Require Import Reals List ZArith.
From Verif Require Import Common.
Import ListNotations.
Open Scope R_scope.

(* ------------------------------ locations ------------------------------ *)
Definition rad2deg (x : R) : R := x * 180 / PI.
(** get_random_location: 46-56, for one location; u and v are uniform in [0, 1). *)
Definition random_lon (u : R) : R := rad2deg (2 * PI * u - PI).
Definition random_lat (v : R) : R := rad2deg (acos (2 * v - 1) - PI / 2).

(** get_random_impact_angle: 199-201. *)
Definition random_angle (u : R) : R := rad2deg (asin (sqrt u)).
(** get_random_impact_direction: 235; rng.uniform(0, 360). *)
Definition random_direction (u : R) : R := 0 + (360 - 0) * u.

(* --------------------------- points on a face --------------------------- *)
Record vec := { vx : R; vy : R; vz : R }.
Definition vsub (a b : vec) : vec := {| vx := vx a - vx b; vy := vy a - vy b; vz := vz a - vz b |}.
Definition vadd (a b : vec) : vec := {| vx := vx a + vx b; vy := vy a + vy b; vz := vz a + vz b |}.
Definition vscale (r : R) (a : vec) : vec := {| vx := r * vx a; vy := r * vy a; vz := r * vz a |}.
Definition vcross (a b : vec) : vec :=
  {| vx := vy a * vz b - vz a * vy b; vy := vz a * vx b - vx a * vz b; vz := vx a * vy b - vy a * vx b |}.
Definition vnorm (a : vec) : R := sqrt (vx a * vx a + vy a * vy a + vz a * vz a).

(** The fan of triangles (0, j+1, j+2) of the corners: 76-80 and 83-88. *)
Fixpoint fan (v0 : vec) (l : list vec) : list (vec * vec * vec) :=
  match l with
  | a :: ((b :: _) as r) => (v0, a, b) :: fan v0 r
  | _ => []
  end.
Definition triangles (corners : list vec) : list (vec * vec * vec) :=
  match corners with v0 :: r => fan v0 r | [] => [] end.
(** 92-94. *)
Definition tri_area (t : vec * vec * vec) : R :=
  let '(v0, v1, v2) := t in 0.5 * vnorm (vcross (vsub v1 v0) (vsub v2 v0)).
(** np.cumsum. *)
Fixpoint cumsum (acc : R) (l : list R) : list R :=
  match l with [] => [] | x :: r => (acc + x) :: cumsum (acc + x) r end.
Fixpoint rsum (l : list R) : R := match l with [] => 0 | x :: r => x + rsum r end.
(** np.searchsorted on a sorted array: the number of entries before the insertion point,
    [side] "left" (entries < x) or "right" (entries <= x). *)
Definition Rltb (a b : R) : bool := if Rlt_dec a b then true else false.
Definition Rleb (a b : R) : bool := if Rle_dec a b then true else false.
Definition searchsorted_left (l : list R) (x : R) : nat := List.length (filter (fun y => Rltb y x) l).
Definition searchsorted_right (l : list R) (x : R) : nat := List.length (filter (fun y => Rleb y x) l).

(** The weights of 102-105. *)
Definition weights (r1 r2 : R) : R * R * R :=
  let '(r1, r2) := if Rlt_dec 1 (r1 + r2) then (1 - r1, 1 - r2) else (r1, r2) in
  (1 - r1 - r2, r1, r2).
(** _get_one_random_location: 73-106, given the corners of the face (the valid nodes).
    A face without triangles, and an index beyond the triangles, raise IndexError (numba
    does not check bounds by default; here the access is simply out of range). *)
Definition random_on_face (corners : list vec) (u0 r1 r2 : R) : result vec :=
  let tris := triangles corners in
  let areas := map tri_area tris in
  let total := rsum areas in
  let cum := cumsum 0 (map (fun a => a / total) areas) in
  match nth_error tris (searchsorted_left cum u0) with
  | None => Err IndexError
  | Some (v0, v1, v2) =>
      let '(w0, w1, w2) := weights r1 r2 in
      Ok (vadd (vadd (vscale w0 v0) (vscale w1 v1)) (vscale w2 v2))
  end.
(** The valid nodes of a face: 74 and 156 (fill values are negative). *)
Definition face_corners (face_nodes : list Z) (node : nat -> vec) : list vec :=
  map (fun i => node (Z.to_nat i)) (filter (fun i => (0 <=? i)%Z) face_nodes).

(* -------------------------------- sizes -------------------------------- *)
Fixpoint nondecreasing (l : list R) : bool :=
  match l with
  | a :: ((b :: _) as r) => Rleb a b && nondecreasing r
  | _ => true
  end.
(** The number of samples: 316-321; [poisson] is rng.poisson. *)
Definition sample_count (size mu : option nat) (poisson : nat -> nat) : result nat :=
  match size, mu with
  | None, None => Ok 1%nat
  | Some _, Some _ => Err ValueError
  | None, Some m => Ok (poisson m)
  | Some n, None => Ok n
  end.
(** rng.uniform(low, high) from a draw w in [0, 1). *)
Definition uniform (low high w : R) : R := low + (high - low) * w.
(** 337-357 for one sample, on the arrays sorted by decreasing diameter: [ds] diameters,
    [cs] cumulative numbers; [w] is the draw for u, [z] the draw for the noise. *)
Definition interp_size (ds cs : list R) (u : R) : result R :=
  let last := List.last cs 0 in
  let lcs := map (fun c => ln (c / last)) cs in
  let i := searchsorted_right lcs (ln u) in
  match i with
  | O => Err IndexError      (** indices - 1 would be -1: not reached, u is at least cs[0] *)
  | S k =>
      match nth_error ds k, nth_error ds (S k), nth_error lcs k, nth_error lcs (S k) with
      | Some d0, Some d1, Some n0, Some n1 =>
          let f := (ln u - n0) / (n1 - n0) in
          Ok (exp (ln d0 + f * (ln d1 - ln d0)))
      | _, _, _, _ => Err IndexError
      end
  end.
(** get_random_size: 302-361, for one sample.  [table] is the two arrays; [arranged] is the
    table in the order argsort(diameters)[::-1] (any order with decreasing diameters: ties
    are unspecified). *)
Definition random_size (ds cs : list R) (arranged : list (R * R)) (size mu : option nat) (poisson : nat -> nat) (w z : R) : result R :=
  if negb (Nat.eqb (List.length ds) (List.length cs)) then Err ValueError
  else if Nat.ltb (List.length ds) 2 then Err ValueError
  else if existsb (fun d => Rleb d 0) ds then Err ValueError
  else if existsb (fun c => Rleb c 0) cs then Err ValueError
  else match sample_count size mu poisson with
  | Err e => Err e
  | Ok _ =>
      let sd := map fst arranged in
      let sc := map snd arranged in
      if negb (nondecreasing sc) then Err ValueError
      else
        let last := List.last sc 0 in
        let u := uniform (hd 0 sc / last) (last / last) w in
        rbind (interp_size sd sc u) (fun d => Ok (d * (1 + 1e-8 * z)))
  end.

(* ------------------------------ velocities ------------------------------ *)
(** The velocity of 414-419 from three standard normal draws. *)
Definition maxwell (vmean n1 n2 n3 : R) : R :=
  let sigma := vmean / sqrt (8 / PI) in
  sqrt ((sigma * n1) * (sigma * n1) + (sigma * n2) * (sigma * n2) + (sigma * n3) * (sigma * n3)).
Definition draws : Type := (R * R * R)%type.
Definition maxwell3 (vmean : R) (d : draws) : R := let '(a, b, c) := d in maxwell vmean a b c.

(** velocities[velocities > vescape] = new: 410. *)
Fixpoint refill (vesc : R) (vs new : list R) : list R :=
  match vs with
  | [] => []
  | v :: r => if Rlt_dec vesc v
              then match new with x :: new' => x :: refill vesc r new' | [] => v :: refill vesc r [] end
              else v :: refill vesc r new
  end.
Definition count_above (vesc : R) (vs : list R) : nat := List.length (filter (fun v => Rltb vesc v) vs).
(** The loop of 408-412: [batches] are the normal draws of the successive rounds; None if
    the loop has not returned after them. *)
Fixpoint rejection (vmean vesc : R) (vs : list R) (batches : list (list draws)) : option (list R) :=
  match batches with
  | [] => None
  | b :: rest =>
      let new := map (maxwell3 vmean) (firstn (count_above vesc vs) b) in
      let vs' := refill vesc vs new in
      if forallb (fun v => Rltb v vesc) vs' then Some vs' else rejection vmean vesc vs' rest
  end.
(** get_random_velocity: 364-420.  [batches] holds one batch when there is no loop. *)
Definition random_velocity (vmean : R) (vescape : option R) (size : nat) (batches : list (list draws)) : option (list R) :=
  match vescape with
  | None => Some (map (maxwell3 vmean) (firstn size (hd [] batches)))
  | Some ve =>
      if Rlt_dec ve vmean then
        let venc := sqrt (vmean * vmean - ve * ve) in
        Some (map (fun v => sqrt (v * v + ve * ve)) (map (maxwell3 venc) (firstn size (hd [] batches))))
      else rejection vmean ve (repeat (2 * ve) size) batches
  end.

(** bounded_norm: 462-475; [x] is the standardised draw of truncnorm, between a and b. *)
Definition bounds (loc scale : R) (lower upper : option R) : R * R :=
  let lo := match lower with Some x => x | None => loc - scale end in
  let hi := match upper with Some x => x | None => loc + scale end in
  ((lo - loc) / scale, (hi - loc) / scale).
Definition bounded_norm (loc scale : R) (lower upper : option R) (draw : R -> R -> R) : R :=
  let '(a, b) := bounds loc scale lower upper in loc + scale * draw a b.
