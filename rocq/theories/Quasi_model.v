(** Model of the quasi-Monte-Carlo craters: cratermaker/components/production/__init__.py,
    _process_quasimc_craters (945-1246) and the quasimc_craters and diameter_range attributes
    (1305-1347).  Simplifications: floats are reals; the size distribution, the chronology and
    its inverse (modelled in Prod_model) and the random draws are arguments; a draw is
    identified by the crater it is made for, since each crater makes at most one.  The
    conversions of the production metadata to tuples of floats (crater/__init__.py:378-421)
    are done: an attribute is None or a tuple of numbers, so that the comparisons with
    [None, None] and [None, None, None] never matter. *)
From Coq Require Import Reals ZArith.
From Verif Require Import Common RSum Sorting.
Open Scope R_scope.

Definition Rltb (a b : R) : bool := if Rlt_dec a b then true else false.
Definition Rleb (a b : R) : bool := if Rle_dec a b then true else false.

(** A user crater: what the processing reads of it.  [q_diam] is the diameter or the projectile
    diameter, according to generator_type (1238-1241); [q_body] all other attributes. *)
Record qcrater := mk_q {
  q_body : nat; q_diam : R;
  q_ND : option (R * R * R); q_time : option (R * R); q_seq : option Z }.

Section Quasi.
(** csfd; function(diameter=_DSTD, time_start=t); age_from_D_N(diameter=_DSTD, n). *)
Context (csfd : R -> R) (number_at : R -> result R) (age : R -> result R).
(** N_conversion_factor. *)
Context (nconv : R).
(** bounded_norm (montecarlo_utils.py:423-475) and rng.normal for the i-th valid crater. *)
Context (trunc : nat -> R -> R -> R -> R -> R) (normal : nat -> R -> R -> R).

(** constants: _DSTD = 1000 m. *)
Definition DSTD : R := 1000.

(** N(D) in the user's units to N(1) per square metre: 1001-1008, 1080-1088. *)
Definition to_N1 (nd : R * R * R) : R * R :=
  let '(d, n, s) := nd in
  let fac := csfd DSTD / csfd (d * 1e3) in
  (n / nconv * fac, s / nconv * fac).

(* ------------------------------ sequence extents ------------------------------ *)
(** The N(1) and its uncertainty that one crater contributes: 1077-1103. *)
Definition contribution (c : qcrater) : result (list (R * R)) :=
  match q_ND c, q_time c with
  | Some nd, _ => Ok [to_N1 nd]
  | None, Some (tmean, tsd) =>
      rbind (number_at (Rmax (tmean - tsd) 0)) (fun nlo =>
      rbind (number_at (tmean + tsd)) (fun nhi => Ok [((nhi + nlo) / 2, (nhi - nlo) / 2)]))
  | None, None => Ok []
  end.
Fixpoint contributions (l : list qcrater) : result (list (R * R)) :=
  match l with
  | [] => Ok []
  | c :: r => rbind (contribution c) (fun x => rbind (contributions r) (fun y => Ok (x ++ y)%list))
  end.
(** 1104-1108 *)
Definition group_value (l : list (R * R)) : R * R :=
  (lsum fst l / INR (List.length l), sqrt (lsum (fun p => snd p ^ 2) l) / INR (List.length l)).

(** sequence_groups (1200-1214): the sequence numbers with the positions of their craters. *)
Definition groups := list (Z * list (nat * qcrater)).
Fixpoint add_to (s : Z) (x : nat * qcrater) (g : groups) : groups :=
  match g with
  | [] => [(s, [x])]
  | (s', l) :: r => if Z.eqb s s' then (s', (l ++ [x])%list) :: r else (s', l) :: add_to s x r
  end.
Definition grouped (l : list (nat * qcrater)) : groups :=
  fold_left (fun g x => match q_seq (snd x) with Some s => add_to s x g | None => g end) l [].
Definition sorted_groups (l : list (nat * qcrater)) : groups := sort (fun a b => Z.leb (fst a) (fst b)) (grouped l).

(** nvals and nsigvals before interpolation: 1074-1122; [first]: lowest sequence number. *)
Fixpoint group_values (first : bool) (g : groups) : result (list (Z * (option R * R))) :=
  match g with
  | [] => Ok []
  | (s, l) :: r =>
      rbind (contributions (map snd l)) (fun c =>
      rbind (match c, first, r with
             | _ :: _, _, _ => let '(n, sig) := group_value c in Ok (Some n, sig)
             | [], true, _ => Err ValueError
             | [], false, [] => Ok (Some 0, 0)
             | [], false, _ => Ok (None, 0)
             end) (fun v =>
      rbind (group_values false r) (fun rest => Ok ((s, v) :: rest))))
  end.
(** np.interp(s, xp, fp) for increasing xp. *)
Fixpoint interp (s : Z) (p : Z * R) (l : list (Z * R)) : R :=
  match l with
  | [] => snd p
  | q :: r =>
      if (s <? fst q)%Z then
        if (s <=? fst p)%Z then snd p
        else snd p + (snd q - snd p) / (IZR (fst q) - IZR (fst p)) * (IZR s - IZR (fst p))
      else interp s q r
  end.
(** 1124-1128 *)
Definition filled (l : list (Z * (option R * R))) : list (Z * R) :=
  flat_map (fun e => match fst (snd e) with Some n => [(fst e, n)] | None => [] end) l.
Definition fill_in (l : list (Z * (option R * R))) : list (R * R) :=
  map (fun e => (match fst (snd e) with
                 | Some n => n
                 | None => match filled l with p :: r => interp (fst e) p r | [] => 0 end
                 end, snd (snd e))) l.

(** The first inner loop: 1132-1150; [l]: mean and uncertainty in sequence order, [prev] those
    of the previous sequence number. *)
Fixpoint split_pass (prev : option (R * R)) (l : list (R * R)) : list (R * R) :=
  match l with
  | [] => []
  | (n, sig) :: r =>
      let nlo := Rmax (n - sig) 0 in
      let nhi := n + sig in
      let nhi := match prev with Some (np, sp) => nhi + (Rmax (np - sp) 0 - nhi) / 2 | None => nhi end in
      let nlo := match r with (nn, sn) :: _ => Rmax (nlo + (nn + sn - nlo) / 2) 0 | [] => nlo end in
      (if Rltb nhi nlo then (nhi, nlo) else (nlo, nhi)) :: split_pass (Some (n, sig)) r
  end.
(** The second inner loop: 1152-1169; [prev]: the extent of the previous sequence number, not
    yet written; [over]: the upper bound of the first of [l] if it was replaced. *)
Fixpoint join_pass (prev : option (R * R)) (over : option R) (l : list (R * R)) : list (R * R) :=
  match l with
  | [] => match prev with Some p => [p] | None => [] end
  | (nlo, nhi0) :: r =>
      let nhi := match over with Some h => h | None => nhi0 end in
      let '(prev, nhi) :=
        match prev with
        | Some (plo, phi) => if Req_EM_T nhi plo then (prev, nhi) else (Some ((plo + nhi) / 2, phi), (plo + nhi) / 2)
        | None => (None, nhi)
        end in
      let out := match prev with Some p => [p] | None => [] end in
      match r with
      | [] => (out ++ [(nlo, nhi)])%list
      | (_, nhi_next) :: _ =>
          if Req_EM_T nlo nhi_next then (out ++ join_pass (Some (nlo, nhi)) None r)%list
          else (out ++ join_pass (Some ((nlo + nhi_next) / 2, nhi)) (Some ((nlo + nhi_next) / 2)) r)%list
      end
  end.
(** 1174-1180 *)
Fixpoint decreasing (l : list R) : bool :=
  match l with x :: ((y :: _) as r) => Rleb y x && decreasing r | _ => true end.
(** 1130-1180 *)
Fixpoint refine (k : nat) (vals : list (R * R)) (ext : list (R * R)) : list (R * R) :=
  match k with
  | O => ext
  | S k' =>
      let ext := join_pass None None (split_pass None vals) in
      if decreasing (map fst ext) && decreasing (map snd ext) then ext
      else refine k' (map (fun e => ((fst e + snd e) / 2, (snd e - fst e) / 2)) ext) ext
  end.
(** _get_sequence_extents: 1050-1182.  (Without groups the dictionary is empty.) *)
Definition sequence_extents (g : groups) : result (list (Z * (R * R))) :=
  rbind (group_values true g) (fun vals => Ok (combine (map fst g) (refine 10 (fill_in vals) []))).

(* ------------------------------ drawing a time ------------------------------ *)
Definition lookup (s : Z) (l : list (Z * (R * R))) : option (R * R) :=
  option_map snd (find (fun e => Z.eqb (fst e) s) l).
(** Bounds in number and in time, and whether each leaves room for a draw: 966-980.  A zero
    mean is a division by zero of Python floats. *)
Record bounds := mk_bounds { b_nlo : R; b_nhi : R; b_nsig : R; b_tlo : R; b_thi : R; b_tsig : R }.
Definition bounds_of (e : R * R) : result bounds :=
  let nlo := Rmax (fst e) 0 in
  let nhi := snd e in
  let nmean := (nlo + nhi) / 2 in
  let nsig := (nhi - nlo) / 2 in
  if Req_EM_T nmean 0 then Err ZeroDivisionError
  else
    let nsig := if Rlt_dec (nsig / nmean) 1e-12 then 0 else nsig in
    rbind (age nlo) (fun tlo =>
    rbind (age nhi) (fun thi =>
      let tmean := (tlo + thi) / 2 in
      let tsig := (thi - tlo) / 2 in
      if Req_EM_T tmean 0 then Err ZeroDivisionError
      else Ok (mk_bounds nlo nhi nsig tlo thi (if Rlt_dec (tsig / tmean) 1e-12 then 0 else tsig)))).
(** max(min(x, hi), lo) *)
Definition clamp (x lo hi : R) : R := Rmax (Rmin x hi) lo.
(** _draw_quasimc_time for an untagged crater: 981-1029 without a sequence. *)
Definition draw_free (i : nat) (c : qcrater) : result R :=
  match q_ND c, q_time c with
  | Some nd, _ =>
      let '(nmean, nsig) := to_N1 nd in
      age (Rmax 0 (if Rlt_dec 0 nsig then normal i nmean nsig else nmean))
  | None, Some (tmean, tsig) =>
      (** max(t, 0.0) is computed and not used: 1026 *)
      Ok (if Rlt_dec 0 tsig then normal i tmean tsig else tmean)
  | None, None => Err ValueError
  end.
(** The same for a crater whose sequence number has the extent [e]. *)
Definition draw_in (i : nat) (c : qcrater) (e : R * R) : result R :=
  rbind (bounds_of e) (fun b =>
  match q_ND c, q_time c with
  | Some nd, _ =>
      let '(nmean, nsig) := to_N1 nd in
      age (Rmax 0 (if Rlt_dec 0 nsig then if Rlt_dec 0 (b_nsig b) then trunc i nmean nsig (b_nlo b) (b_nhi b) else clamp nmean (b_nlo b) (b_nhi b)
                   else clamp nmean (b_nlo b) (b_nhi b)))
  | None, Some (tmean, tsig) =>
      Ok (if Rlt_dec 0 tsig then if Rlt_dec 0 (b_tsig b) then trunc i tmean tsig (b_tlo b) (b_thi b) else clamp tmean (b_tlo b) (b_thi b)
          else clamp tmean (b_tlo b) (b_thi b))
  | None, None =>
      let nmean := (b_nlo b + b_nhi b) / 2 in
      age (Rmax (if Rlt_dec 0 (b_nsig b) then trunc i nmean (b_nsig b) (b_nlo b) (b_nhi b) else nmean) 0)
  end).

(* ------------------------------ the processing ------------------------------ *)
(** 1184-1196: craters with any production metadata. *)
Definition has_metadata (c : qcrater) : bool :=
  match q_ND c, q_time c, q_seq c with None, None, None => false | _, _, _ => true end.
Fixpoint number_from {A} (i : nat) (l : list A) : list (nat * A) :=
  match l with [] => [] | x :: r => (i, x) :: number_from (S i) r end.
Fixpoint draw_all (f : nat * qcrater -> result R) (l : list (nat * qcrater)) : result (list (nat * R)) :=
  match l with
  | [] => Ok []
  | x :: r => rbind (f x) (fun t => rbind (draw_all f r) (fun ts => Ok ((fst x, t) :: ts)))
  end.
Definition time_at (i : nat) (ts : list (nat * R)) : option R := option_map snd (find (fun p => Nat.eqb (fst p) i) ts).
(** min and max over the craters of a group. *)
Definition times_in (ts : list (nat * R)) (l : list (nat * qcrater)) : list R :=
  flat_map (fun x => match time_at (fst x) ts with Some t => [t] | None => [] end) l.
Fixpoint min_of (l : list R) : R := match l with [] => 0 | [x] => x | x :: r => Rmin x (min_of r) end.
Fixpoint max_of (l : list R) : R := match l with [] => 0 | [x] => x | x :: r => Rmax x (max_of r) end.
(** _sequence_is_consistent: 1031-1048; the last group is dropped by [:-1]. *)
Fixpoint ordered_groups (ts : list (nat * R)) (g : groups) : bool :=
  match g with
  | (_, a) :: (((_, b) :: _) as r) => Rleb (max_of (times_in ts b)) (min_of (times_in ts a)) && ordered_groups ts r
  | _ => true
  end.
Definition sequence_is_consistent (ts : list (nat * R)) (g : groups) : bool := ordered_groups ts (removelast g).

Definition is_tagged (x : nat * qcrater) : bool := match q_seq (snd x) with Some _ => true | None => false end.
(** min(smallest_diameter, d): 1239, 1241; [None] is infinity, the default (1342). *)
Definition min_with (m : option R) (d : R) : option R := Some (match m with Some m => Rmin m d | None => d end).
(** _process_quasimc_craters: 945-1246.  [dmax]: the upper end of diameter_range; returns the
    craters with their times, oldest first, and the new upper end. *)
Definition process (dmax : option R) (craters : list qcrater) : result (list (qcrater * R) * option R) :=
  let valid := filter has_metadata craters in
  let l := number_from 0 valid in
  let g := sorted_groups l in
  rbind (match g with [] => Ok [] | _ => sequence_extents g end) (fun ext =>
  rbind (draw_all (fun x => draw_free (fst x) (snd x)) (filter (fun x => negb (is_tagged x)) l)) (fun free =>
  rbind (draw_all (fun x => match q_seq (snd x) with
                            | Some s => match lookup s ext with Some e => draw_in (fst x) (snd x) e | None => Err KeyError end
                            | None => Err KeyError
                            end) (filter is_tagged l)) (fun tagged =>
  let ts := (free ++ tagged)%list in
  if match filter is_tagged l with [] => true | _ => sequence_is_consistent ts g end then
    let timed := flat_map (fun x => match time_at (fst x) ts with Some t => [(snd x, t)] | None => [] end) l in
    Ok (sort (fun a b => Rleb (snd b) (snd a)) timed,
        fold_left (fun m p => min_with m (q_diam (fst p))) timed dmax)
  else Err RuntimeError))).

(** The attributes of a production object that the setter changes: the processed craters and the
    upper end of diameter_range. *)
Record pstate := mk_pstate { p_quasi : list (qcrater * R); p_dmax : option R }.
(** quasimc_craters = value: 1322-1329, for None or a list of craters. *)
Definition set_quasimc (value : list qcrater) (p : pstate) : result pstate :=
  match value with
  | [] => Ok (mk_pstate [] (p_dmax p))
  | _ => rbind (process (p_dmax p) value) (fun r => Ok (mk_pstate (fst r) (snd r)))
  end.
End Quasi.
