(** Model of measuring craters: crates/cratermaker-components/src/counting/mod.rs (rim height,
    floor depth, rim scores), crates/cratermaker-py/src/counting_bindings.rs (bindings and the
    rim fitting loop), cratermaker/components/morphology/__init__.py:320-349 (measured
    attributes), components/counting/__init__.py:242-288 and components/counting/depthcount.py.
    Simplifications: f64 is idealised as R; NaN is None where it can occur; overflow is not
    modelled (-f64::MAX - f64::MAX is -2 f64::MAX instead of -inf; both are negative). *)
From Coq Require Import Reals NArith.
From Verif Require Import Common RSum Sorting Crater_model.
Open Scope R_scope.

Definition Rltb (a b : R) : bool := if Rlt_dec a b then true else false.
Definition Rleb (a b : R) : bool := if Rle_dec a b then true else false.

(* ------------------------------ rim height and floor depth ------------------------------ *)
(** mask_crater_faces: mod.rs:13-26. *)
Definition mask_crater (ids : list (list N)) (id : N) : list bool := map (fun row => existsb (N.eqb id) row) ids.
(** filter_crater_faces: mod.rs:28-43; [None]: an error. *)
Fixpoint keep_masked (arr : list (option R)) (mask : list bool) : list R :=
  match arr, mask with
  | Some e :: a, true :: m => e :: keep_masked a m
  | _ :: a, _ :: m => keep_masked a m
  | _, _ => []
  end.
Definition filter_crater_faces (arr : list (option R)) (mask : list bool) : option (list R) :=
  if Nat.eqb (List.length arr) (List.length mask) then Some (keep_masked arr mask) else None.
(** elev_sum / n over the faces whose distance is accepted: mod.rs:60-76, 95-111.
    An index outside [face_distance] is a panic. *)
Definition mean_where (accept : R -> bool) (elevation distance : list R) : result (option R) :=
  if Nat.ltb (List.length distance) (List.length elevation) then Err RustErr
  else
    let chosen := filter (fun p => accept (snd p)) (combine elevation distance) in
    match chosen with
    | [] => Ok None
    | _ => Ok (Some (lsum fst chosen / INR (List.length chosen)))
    end.
(** The common part of measure_floor_depth (mod.rs:45-77) and measure_rim_height (79-112).
    [Ok None]: an error of the function; [Err]: a panic.  [ids], [dist]: None if the region
    has no such array; [elev]: desloped_face_elevation if there is one, else face_elevation. *)
Definition measure (accept : R -> bool) (ids : option (list (list N))) (elev : list (option R)) (dist : option (list (option R))) (id : N)
  : result (option R) :=
  match ids with
  | None => Ok None
  | Some ids =>
      let mask := mask_crater ids id in
      match filter_crater_faces elev mask with
      | None => Ok None
      | Some elevation =>
          match dist with
          | None => Ok None
          | Some dist =>
              match filter_crater_faces dist mask with
              | None => Ok None
              | Some distance => mean_where accept elevation distance
              end
          end
      end
  end.
(** _FLOOR_RADIUS, _RIM_RADIUS_MIN, _RIM_RADIUS_MAX: mod.rs:9-11. *)
Definition floor_accept (r d : R) : bool := Rleb d (0.2 * r).
Definition rim_accept (r d : R) : bool := Rleb (0.95 * r) d && Rleb d (1.20 * r).
Definition rust_floor_depth (r : R) := measure (floor_accept r).
Definition rust_rim_height (r : R) := measure (rim_accept r).
(** f64::MAX *)
Definition f64_max : R := 2 ^ 1024 - 2 ^ 971.
(** The bindings: counting_bindings.rs:8-42. *)
Definition binding_rim_height r ids elev dist id : result R :=
  rbind (rust_rim_height r ids elev dist id) (fun o => Ok (match o with Some v => v | None => - f64_max end)).
Definition binding_floor_depth r ids elev dist id : result R :=
  rbind (rust_floor_depth r ids elev dist id) (fun o => Ok (match o with Some v => v | None => f64_max end)).

(** A crater's region: its faces and the cached desloped elevations
    (surface/__init__.py:2056, 4533-4538).  [deslope] is the subtraction of the reference
    surface (get_reference_surface). *)
Record cregion := mk_cregion {
  g_ids : option (list (list N)); g_elev : list (option R); g_dist : option (list (option R));
  g_cache : option (list (option R)) }.
Definition with_cache (c : option (list (option R))) (g : cregion) : cregion := mk_cregion (g_ids g) (g_elev g) (g_dist g) c.
Definition with_elev (e : list (option R)) (g : cregion) : cregion := mk_cregion (g_ids g) e (g_dist g) (g_cache g).
Definition deslope_if_needed (deslope : list (option R) -> list (option R)) (g : cregion) : cregion :=
  match g_cache g with Some _ => g | None => with_cache (Some (deslope (g_elev g))) g end.
Definition used_elev (g : cregion) : list (option R) := match g_cache g with Some e => e | None => g_elev g end.
(** measured_rim_height, measured_floor_depth: morphology/__init__.py:320-334, for a crater
    with a region. *)
Definition read_rim_height deslope (r : R) (id : N) (g : cregion) : cregion * result R :=
  let g := deslope_if_needed deslope g in (g, binding_rim_height r (g_ids g) (used_elev g) (g_dist g) id).
Definition read_floor_depth deslope (r : R) (id : N) (g : cregion) : cregion * result R :=
  let g := deslope_if_needed deslope g in (g, binding_floor_depth r (g_ids g) (used_elev g) (g_dist g) id).
(** measured_depth_to_diameter: 336-349; measured_diameter = 2 measured_radius. *)
Definition read_depth_to_diameter deslope (r : R) (id : N) (g : cregion) : cregion * result R :=
  let g := with_cache None g in
  let '(g, fl) := read_floor_depth deslope r id g in
  let '(g, rim) := read_rim_height deslope r id g in
  (g, rbind fl (fun fl => rbind rim (fun rim => Ok ((rim - fl) / (r * 2))))).

(* ------------------------------ degradation and visibility ------------------------------ *)
(** constants.py: _VSMALL = 10 * tiny. *)
Definition VSMALL : R := 10 * / 2 ^ 1022.
(** depthcount.py:50-71 *)
Definition DTR : R := 10.0e3.
Definition a_vs_diameter (d : R) : R :=
  if Rlt_dec d DTR then 0.11511000581387373 + 0.017078961587273955 * ln d
  else 0.2771649498066961 + 0.1032775007149389 * (1 - exp ((DTR * 1e-3 - d * 1e-3) / 178.40182304735092)).
Definition p_vs_diameter (d : R) : R :=
  2.0700104291102317 + 0.0920770504148557 * ln (if Rlt_dec DTR d then DTR else d).
(** measure_degradation_state: depthcount.py:25-90.  [depth]: measured_depth_to_diameter;
    [orig]: depth_to_diameter; [r]: measured_radius. *)
Definition degradation_state (depth : option R) (orig r : R) : result R :=
  match depth with
  | None => Ok 0
  | Some depth =>
      if Req_EM_T orig 0 then Err ZeroDivisionError
      else
        let ratio := depth / orig in
        let ratio := if Rlt_dec ratio VSMALL then VSMALL else ratio in
        let a := a_vs_diameter (r * 2) in
        let p := p_vs_diameter (r * 2) in
        Ok (a * (Rpower ratio (-1 / p) - 1) * r ^ 2)
  end.
(** visibility_function: depthcount.py:92-117; r ** gamma for r > 0. *)
Definition visibility (r Kv1 gamma : R) : R := Kv1 * Rpower r gamma.
(** Kd >= Kv, the test of tally: counting/__init__.py:387-390. *)
Definition worn (depth : option R) (orig r Kv1 gamma : R) : result bool :=
  rbind (degradation_state depth orig r) (fun Kd => Ok (Rleb (visibility r Kv1 gamma) Kd)).

(* ------------------------------ rim scores ------------------------------ *)
(** nanmax, nanmin: mod.rs:1325-1347. *)
Definition somes (l : list (option R)) : list R := flat_map (fun o => match o with Some x => [x] | None => [] end) l.
Definition nanmax (l : list (option R)) : option R :=
  fold_left (fun acc x => Some (match acc with Some m => Rmax m x | None => x end)) (somes l) None.
Definition nanmin (l : list (option R)) : option R :=
  fold_left (fun acc x => Some (match acc with Some m => Rmin m x | None => x end)) (somes l) None.
(** nanquantile: mod.rs:1349-1360. *)
Definition nanquantile (l : list (option R)) (q : R) : option R :=
  match sort Rleb (somes l) with
  | [] => None
  | x :: r =>
      let vals := x :: r in
      let q := Rmin (Rmax q 0) 1 in
      let idx := Z.to_nat (Int_part (INR (List.length vals - 1) * q)) in
      Some (nth (Nat.min idx (List.length vals - 1)) vals 0)
  end.
(** x / max if there is a positive maximum: mod.rs:568-576, 617-625, 652-660. *)
Definition by_max (l : list (option R)) : list (option R) :=
  match nanmax l with
  | Some m => if Rlt_dec 0 m then map (option_map (fun v => v / m)) l else l
  | None => l
  end.
(** (x - min) / range if the range is positive: mod.rs:580-589, 784-795. *)
Definition rescale (l : list (option R)) : list (option R) :=
  match nanmin l, nanmax l with
  | Some lo, Some hi => if Rlt_dec 0 (hi - lo) then map (option_map (fun v => (v - lo) / (hi - lo))) l else l
  | _, _ => l
  end.
(** Entries become NaN where the mask holds. *)
Fixpoint nan_where (l : list (option R)) (mask : list bool) : list (option R) :=
  match l, mask with v :: l, m :: mask => (if m : bool then None else v) :: nan_where l mask | _, _ => [] end.
(** Product, NaN if a factor is. *)
Definition mul (a b : option R) : option R := match a, b with Some x, Some y => Some (x * y) | _, _ => None end.
Fixpoint times (l k : list (option R)) : list (option R) :=
  match l, k with a :: l, b :: k => mul a b :: times l k | _, _ => [] end.

(** What score_rim reads of a face: its (desloped) elevation, radial gradient and curvature,
    signed distance to the current rim, distance from the region's centre, bearing.  The
    gradients are those of compute_radial_gradient and are not modelled; the last three are
    numbers. *)
Record sface := mk_sface { s_elev : option R; s_grad : option R; s_curv : option R; s_rim : R; s_dist : R; s_bearing : R }.

Definition n_sectors_of (n : nat) : nat := Nat.min (Nat.max (n / 100) 9) 18.
Definition outside (ap bp : R) (fs : list sface) : list bool := map (fun f => Rltb (1.5 * Rmax ap bp) (s_dist f)) fs.
(** mod.rs:556-576 *)
Definition distscore (scale ap bp : R) (fs : list sface) : list (option R) :=
  by_max (nan_where (map (fun f => Some (1 / ((s_rim f / scale) ^ 2 + 0.05))) fs) (outside ap bp fs)).
(** mod.rs:578-596 *)
Definition heightscore (ds : list (option R)) (fs : list sface) : list (option R) := times (rescale (map s_elev fs)) ds.
(** mod.rs:598-625 *)
Definition gradscore (ap bp : R) (ds : list (option R)) (fs : list sface) : list (option R) :=
  by_max (times (map (option_map (fun v => 1 / v)) (nan_where (map (fun f => option_map (fun g => Rabs g + 1e-16) (s_grad f)) fs) (outside ap bp fs))) ds).
(** mod.rs:627-660 *)
Definition curvscore (ap bp : R) (ds : list (option R)) (fs : list sface) : list (option R) :=
  by_max (times (map (option_map (fun v => if Rlt_dec 0 v then 0 else - v)) (nan_where (map s_curv fs) (outside ap bp fs))) ds).
(** mod.rs:662-674 *)
Fixpoint weighted (gm cm hm : R) (g c h : list (option R)) : list (option R) :=
  match g, c, h with
  | x :: g, y :: c, z :: h =>
      (match x, y, z with Some x, Some y, Some z => Some (gm * x + cm * y + hm * z) | _, _, _ => None end) :: weighted gm cm hm g c h
  | _, _, _ => []
  end.
Definition combined (scale ap bp gm cm hm : R) (fs : list sface) : list (option R) :=
  let ds := distscore scale ap bp fs in
  weighted gm cm hm (gradscore ap bp ds fs) (curvscore ap bp ds fs) (heightscore ds fs).
(** mod.rs:692-699: the sector of a bearing, clamped. *)
Definition sector_of (n_sectors : nat) (b : R) : nat :=
  let idx := Int_part (b / (360 / INR n_sectors)) in
  if (idx <? 0)%Z then 0%nat else if (Z.of_nat n_sectors <=? idx)%Z then (n_sectors - 1)%nat else Z.to_nat idx.
(** The scores of the faces of one sector; [secs]: the sector of each face. *)
Fixpoint in_sector (sec : nat) (l : list (option R)) (secs : list nat) : list (option R) :=
  match l, secs with v :: l, s :: secs => if Nat.eqb s sec then v :: in_sector sec l secs else in_sector sec l secs | _, _ => [] end.
(** mod.rs:685-727: division by the maximum of the face's sector; NaN unless positive. *)
Definition normalised (l : list (option R)) (secs : list nat) : list (option R) :=
  map (fun p =>
    match fst p with
    | None => None
    | Some v =>
        match nanmax (in_sector (snd p) l secs) with
        | Some m => if Rlt_dec 0 m then if Rlt_dec 0 v then Some (v / m) else None else None
        | None => None
        end
    end) (combine l secs).
(** mod.rs:729-755: the faces kept by the quantile of their sector. *)
Definition above_quantile (q : R) (l : list (option R)) (secs : list nat) : list bool :=
  map (fun p =>
    match fst p with
    | None => false
    | Some v => match nanquantile (in_sector (snd p) l secs) q with Some t => Rleb t v | None => true end
    end) (combine l secs).
(** mod.rs:757-778 *)
Definition is_num (o : option R) : bool := match o with Some _ => true | None => false end.
Definition trues (l : list bool) : nat := List.length (filter (fun b => b) l).
Definition high_scores (q : R) (n_sectors : nat) (l : list (option R)) (secs : list nat) : list bool :=
  let high := above_quantile q l secs in
  let valid := map is_num l in
  let need := (3 * n_sectors)%nat in
  if Nat.ltb (trues high) need then
    if Nat.ltb (trues valid) need then valid
    else
      let vals := sort (fun a b => Rleb b a) (somes l) in
      let t := nth (need - 1) vals 0 in
      map (fun o => match o with Some v => Rleb t v | None => false end) l
  else high.
(** score_rim: mod.rs:524-800, after the reads of the region; [scale]: measured_diameter. *)
Definition score_rim (scale ap bp q gm cm hm : R) (fs : list sface) : list (option R) :=
  let n_sectors := n_sectors_of (List.length fs) in
  let secs := map (fun f => sector_of n_sectors (s_bearing f)) fs in
  let l := normalised (combined scale ap bp gm cm hm fs) secs in
  rescale (nan_where l (map negb (high_scores q n_sectors l secs))).

(* ------------------------------ the rim fitting loop ------------------------------ *)
(** The measured attributes of the crater as the binding sees them (crater/mod.rs). *)
Record estimate := mk_estimate { e_loc : R * R; e_radius : R; e_major : R; e_minor : R; e_orient : R }.
Section Loop.
(** surface.extract_region(location, radius), None if there is none; the projection, scoring
    and fit of one iteration, with its number: the fitted location, axes and orientation (in
    radians). *)
Context {region : Type} (extract : R * R -> R -> option region)
        (fit : nat -> region -> estimate -> result ((R * R) * R * R * R)).
(** fit_rim: counting_bindings.rs:179-316; [k] is the number of iterations that may follow,
    [radius] the crater's radius.  Also the regions asked for (location and radius). *)
Fixpoint fit_loop (tol radius : R) (k i : nat) (e : estimate) : list ((R * R) * R) * result ((R * R) * R * R * R) :=
  let ask := (e_loc e, 2 * e_radius e) in
  match extract (e_loc e) (2 * e_radius e) with
  | None => ([ask], Err ValueError)
  | Some g =>
      match fit i g e with
      | Err x => ([ask], Err x)
      | Ok (loc, a, b, o) =>
          let delta_a := Rabs (a - e_major e) / radius in
          let delta_b := Rabs (b - e_minor e) / radius in
          if Rltb delta_a tol && Rltb delta_b tol then ([ask], Ok (loc, a, b, o))
          else
            match k with
            | O => ([ask], Ok (loc, a, b, o))
            | S k' =>
                let '(asks, r) := fit_loop tol radius k' (S i) (mk_estimate loc (e_radius e) a b (o * 180 / PI)) in
                (ask :: asks, r)
            end
      end
  end.
(** i starts at 0; i += 1; if i >= nloops { break } *)
Definition fit_rim_binding (tol radius : R) (nloops : nat) (e : estimate) := fit_loop tol radius (nloops - 1) 0 e.

(** Counting.fit_rim: counting/__init__.py:242-288, for a crater that has all measured
    attributes: the crater's variable attributes afterwards. *)
Definition estimate_of (v : var) : option estimate :=
  match v_loc v, v_major v, v_minor v, v_orient v with
  | Some l, Some a, Some b, Some o => Some (mk_estimate l (sqrt (a * b)) a b o)
  | _, _, _, _ => None
  end.
Definition record_fit (norm_loc : R * R -> R * R) (fitted : (R * R) * R * R * R) (v : var) : result var :=
  let '(loc, a, b, o) := fitted in
  rbind (set_major (Some a) v) (fun v =>
  rbind (set_minor (Some b) v) (fun v =>
    Ok (with_loc (Some (norm_loc loc)) (with_orient (Some (mod360 (o * 180 / PI))) v)))).
Definition fit_rim (norm_loc : R * R -> R * R) (tol radius : R) (nloops : nat) (v : var) : result var :=
  match estimate_of v with
  | None => Err TypeError
  | Some e => rbind (snd (fit_rim_binding tol radius nloops e)) (fun fitted => record_fit norm_loc fitted v)
  end.
End Loop.
