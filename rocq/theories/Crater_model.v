(** Model of crater objects: cratermaker/components/crater/__init__.py. *)
From Coq Require Import Reals NArith.
From Verif Require Import Common.
Open Scope R_scope.

(** Python numbers: the id of a crater is a hash of printed values, and an int and a
    float of equal value print differently. *)
Inductive num := PInt (z : Z) | PFlt (x : R).

(** Values that can be assigned to an attribute. *)
Inductive value := VNone | VNum (x : R) | VStr (s : string) | VTup (l : list (option R)).

(** crater/__init__.py:31-66 CraterFixed, init fields (the others are derived below);
    [f_extra] holds the fields a subclass adds (morphology/basicmoon.py:26-39). *)
Record fixedf := mk_fixed {
  f_id : N; f_major : option R; f_minor : option R; f_orient : option R; f_td : option R;
  f_pd : option R; f_pv : option R; f_pang : option R; f_pm : option R;
  f_loc : option (R * R); f_mt : option string; f_time : option num;
  f_extra : list (string * option R) }.

(** crater/__init__.py:68-90 __post_init__: derived fields. *)
Definition d_radius (f : fixedf) : option R :=
  match f_major f, f_minor f with Some a, Some b => Some (sqrt (a * b)) | _, _ => None end.
Definition d_diameter (f : fixedf) : option R := option_map (fun r => r * 2) (d_radius f).
Definition d_tr (f : fixedf) : option R := option_map (fun d => d / 2) (f_td f).
Definition d_pr (f : fixedf) : option R := option_map (fun d => d / 2) (f_pd f).
Definition d_rho (f : fixedf) : option R :=
  match d_pr f, f_pm f with Some r, Some m => Some ((3 * m) / (4 * PI * r ^ 3)) | _, _ => None end.
Definition d_vv (f : fixedf) : option R :=
  match f_pv f, f_pang f with Some v, Some a => Some (v * sin (a * PI / 180)) | _, _ => None end.

(** crater/__init__.py:93-152 CraterVariable state. *)
Record var := mk_var {
  v_major : option R; v_minor : option R; v_orient : option R; v_loc : option (R * R);
  v_rim : option R; v_floor : option R; v_deg : option R;
  v_ptime : option (R * R); v_pND : option (R * R * R); v_pseq : option Z; v_name : option string }.

Definition empty_var : var := mk_var None None None None None None None None None None None.
Definition with_axes (M m : option R) (v : var) : var :=
  mk_var M m (v_orient v) (v_loc v) (v_rim v) (v_floor v) (v_deg v) (v_ptime v) (v_pND v) (v_pseq v) (v_name v).
Definition with_orient (x : option R) (v : var) : var :=
  mk_var (v_major v) (v_minor v) x (v_loc v) (v_rim v) (v_floor v) (v_deg v) (v_ptime v) (v_pND v) (v_pseq v) (v_name v).
Definition with_loc (x : option (R * R)) (v : var) : var :=
  mk_var (v_major v) (v_minor v) (v_orient v) x (v_rim v) (v_floor v) (v_deg v) (v_ptime v) (v_pND v) (v_pseq v) (v_name v).
Definition with_rim (x : option R) (v : var) : var :=
  mk_var (v_major v) (v_minor v) (v_orient v) (v_loc v) x (v_floor v) (v_deg v) (v_ptime v) (v_pND v) (v_pseq v) (v_name v).
Definition with_floor (x : option R) (v : var) : var :=
  mk_var (v_major v) (v_minor v) (v_orient v) (v_loc v) (v_rim v) x (v_deg v) (v_ptime v) (v_pND v) (v_pseq v) (v_name v).
Definition with_deg (x : option R) (v : var) : var :=
  mk_var (v_major v) (v_minor v) (v_orient v) (v_loc v) (v_rim v) (v_floor v) x (v_ptime v) (v_pND v) (v_pseq v) (v_name v).
Definition with_ptime (x : option (R * R)) (v : var) : var :=
  mk_var (v_major v) (v_minor v) (v_orient v) (v_loc v) (v_rim v) (v_floor v) (v_deg v) x (v_pND v) (v_pseq v) (v_name v).
Definition with_pND (x : option (R * R * R)) (v : var) : var :=
  mk_var (v_major v) (v_minor v) (v_orient v) (v_loc v) (v_rim v) (v_floor v) (v_deg v) (v_ptime v) x (v_pseq v) (v_name v).
Definition with_pseq (x : option Z) (v : var) : var :=
  mk_var (v_major v) (v_minor v) (v_orient v) (v_loc v) (v_rim v) (v_floor v) (v_deg v) (v_ptime v) (v_pND v) x (v_name v).
Definition with_name (x : option string) (v : var) : var :=
  mk_var (v_major v) (v_minor v) (v_orient v) (v_loc v) (v_rim v) (v_floor v) (v_deg v) (v_ptime v) (v_pND v) (v_pseq v) x.

(** crater/__init__.py:221-230 measured_radius getter; 208-211 measured_diameter. *)
Definition measured_radius (v : var) : option R :=
  match v_major v, v_minor v with Some a, Some b => Some (sqrt (a * b)) | _, _ => None end.
Definition measured_diameter (v : var) : option R := option_map (fun r => r * 2) (measured_radius v).

(** crater/__init__.py:250-263 measured_semimajor_axis setter. *)
Definition set_major (x : option R) (v : var) : result var :=
  match x with
  | None => Ok (with_axes None (v_minor v) v)
  | Some a =>
      if Rle_dec a 0 then Err ValueError
      else match v_minor v with
           | Some m => if Rlt_dec a m then Ok (with_axes (Some m) (Some a) v)
                       else Ok (with_axes (Some a) (Some m) v)
           | None => Ok (with_axes (Some a) None v)
           end
  end.

(** crater/__init__.py:274-291 measured_semiminor_axis setter. *)
Definition set_minor (x : option R) (v : var) : result var :=
  match x with
  | None => Ok (with_axes (v_major v) None v)
  | Some b =>
      if Rle_dec b 0 then Err ValueError
      else match v_major v with
           | Some M => if Rgt_dec b M then Ok (with_axes (Some b) (Some M) v)
                       else Ok (with_axes (Some M) (Some b) v)
           | None => Ok (with_axes None (Some b) v)
           end
  end.

(** crater/__init__.py:232-240 measured_radius setter; 213-219 measured_diameter. *)
Definition set_radius (x : option R) (v : var) : result var :=
  rbind (set_major x v) (set_minor x).
Definition set_diameter (x : option R) (v : var) : result var :=
  set_radius (option_map (fun d => d / 2) x) v.

(** Python's float % 360. *)
Definition mod360 (x : R) : R := x - 360 * IZR (Int_part (x / 360)).

Section Crater.
(** validate_and_normalize_location (utils/general_utils.py:263-345) on a pair, str(),
    int() of a float, and the id hash (crater/__init__.py:736-763: shake_256 of the
    concatenated printed values, in this order, None skipped). *)
Context (norm_loc : R * R -> R * R)
        (str_of : value -> string)
        (trunc : R -> Z)
        (hash : option num -> option R -> option R -> option (R * R) -> option R -> option R ->
                option R -> option R -> option R -> option R -> N).

(** A number for float(value); strings are taken to be non-numeric (simplification:
    a numeric string would be converted). *)
Definition to_float (v : value) : result R :=
  match v with VNum x => Ok x | VStr _ => Err ValueError | _ => Err TypeError end.

(** An optional number, for the size setters that compare or divide. *)
Definition opt_num (v : value) : result (option R) :=
  match v with VNone => Ok None | VNum x => Ok (Some x) | _ => Err TypeError end.

Definition set_float (put : option R -> var -> var) (x : value) (v : var) : result var :=
  match x with VNone => Ok (put None v) | _ => rbind (to_float x) (fun r => Ok (put (Some r) v)) end.

(** crater/__init__.py:382-392 production_time setter. *)
Definition set_ptime (x : value) (v : var) : result var :=
  match x with
  | VNone => Ok v
  | VNum t => Ok (with_ptime (Some (t, 0)) v)
  | VStr _ => Err ValueError
  | VTup [None; _] => Ok v
  | VTup [Some t; Some s] => Ok (with_ptime (Some (t, s)) v)
  | VTup [Some _; None] => Err TypeError
  | VTup _ => Err ValueError
  end.

(** crater/__init__.py:399-410 production_ND setter. *)
Definition set_pND (x : value) (v : var) : result var :=
  match x with
  | VNone => Ok v
  | VNum _ => Err TypeError
  | VStr _ => Err ValueError
  | VTup [None; _] | VTup [None; _; _] => Ok v
  | VTup [Some d; Some n] => Ok (with_pND (Some (d, n, 0)) v)
  | VTup [Some d; Some n; Some s] => Ok (with_pND (Some (d, n, s)) v)
  | VTup [Some _; _] | VTup [Some _; _; _] => Err TypeError
  | VTup _ => Err ValueError
  end.

(** Property setters of CraterVariable by name (crater/__init__.py:198-421).
    [None]: the class has no such attribute. *)
Definition var_setter (name : string) : option (value -> var -> result var) :=
  if String.eqb name "name" then
    Some (fun x v => match x with VNone => Ok v | _ => Ok (with_name (Some (str_of x)) v) end)
  else if String.eqb name "measured_diameter" then
    Some (fun x v => rbind (opt_num x) (fun o => set_diameter o v))
  else if String.eqb name "measured_radius" then
    Some (fun x v => rbind (opt_num x) (fun o => set_radius o v))
  else if String.eqb name "measured_semimajor_axis" then
    Some (fun x v => rbind (opt_num x) (fun o => set_major o v))
  else if String.eqb name "measured_semiminor_axis" then
    Some (fun x v => rbind (opt_num x) (fun o => set_minor o v))
  else if String.eqb name "measured_orientation" then
    Some (set_float (fun o => with_orient (option_map mod360 o)))
  else if String.eqb name "measured_location" then
    Some (fun x v => match x with
                     | VNone => Ok (with_loc None v)
                     | VTup [Some a; Some b] => Ok (with_loc (Some (norm_loc (a, b))) v)
                     | _ => Err ValueError
                     end)
  else if String.eqb name "measured_rim_height" then Some (set_float with_rim)
  else if String.eqb name "measured_floor_depth" then Some (set_float with_floor)
  else if String.eqb name "degradation_state" then Some (set_float with_deg)
  else if String.eqb name "production_time" then Some set_ptime
  else if String.eqb name "production_ND" then Some set_pND
  else if String.eqb name "production_sequence" then
    Some (fun x v => match x with
                     | VNone => Ok v
                     | _ => rbind (to_float x) (fun r => Ok (with_pseq (Some (trunc r)) v))
                     end)
  else None.

(** A crater object (Crater.__init__, 427-460, keeps these two parts). *)
Record crater := mk_crater { fixed : fixedf; vars : var }.

(** CraterFixed.__dataclass_fields__ (crater/__init__.py:33-66). *)
Definition base_fixed_names : list string :=
  ["id"; "semimajor_axis"; "semiminor_axis"; "orientation"; "transient_diameter";
   "projectile_diameter"; "projectile_velocity"; "projectile_angle"; "projectile_mass";
   "location"; "morphology_type"; "time"; "radius"; "diameter"; "transient_radius";
   "projectile_radius"; "projectile_density"; "projectile_vertical_velocity";
   "projectile_direction"]%string.

Definition is_base_fixed (name : string) : bool := existsb (String.eqb name) base_fixed_names.

(** crater/__init__.py:474-490 __setattr__.  The names _fixed, _var, ... and the names
    of methods and private attributes of the variable part are not modelled. *)
Definition assign (name : string) (x : value) (c : crater) : crater * option exn :=
  if is_base_fixed name then (c, Some AttributeError)
  else match var_setter name with
       | Some set => match set x (vars c) with
                     | Ok v => (mk_crater (fixed c) v, None)
                     | Err e => (c, Some e)
                     end
       | None => (c, None)
       end.

Definition assigns (l : list (string * value)) (c : crater) : crater :=
  fold_left (fun c p => fst (assign (fst p) (snd p) c)) l c.

(** CraterVariable.__init__ (crater/__init__.py:94-151): the given ones in this order. *)
Definition opt_set {A} (x : option A) (set : A -> var -> result var) (v : var) : result var :=
  match x with None => Ok v | Some a => set a v end.

Record vargs := mk_vargs {
  a_mdiam : option R; a_mrad : option R; a_mmajor : option R; a_mminor : option R;
  a_morient : option R; a_mloc : option (R * R); a_rim : option R; a_floor : option R;
  a_deg : option R; a_ptime : option (R * R); a_pND : option (R * R * R);
  a_pseq : option Z; a_name : option string }.

Definition var_init (a : vargs) : result var :=
  rbind (opt_set (a_mdiam a) (fun x => set_diameter (Some x)) empty_var) (fun v =>
  rbind (opt_set (a_mrad a) (fun x => set_radius (Some x)) v) (fun v =>
  rbind (opt_set (a_mmajor a) (fun x => set_major (Some x)) v) (fun v =>
  rbind (opt_set (a_mminor a) (fun x => set_minor (Some x)) v) (fun v =>
  let v := match a_morient a with Some x => with_orient (Some (mod360 x)) v | None => v end in
  let v := match a_mloc a with Some x => with_loc (Some (norm_loc x)) v | None => v end in
  let v := match a_rim a with Some x => with_rim (Some x) v | None => v end in
  let v := match a_floor a with Some x => with_floor (Some x) v | None => v end in
  let v := match a_deg a with Some x => with_deg (Some x) v | None => v end in
  let v := match a_ptime a with Some x => with_ptime (Some x) v | None => v end in
  let v := match a_pND a with Some x => with_pND (Some x) v | None => v end in
  let v := match a_pseq a with Some x => with_pseq (Some x) v | None => v end in
  Ok (match a_name a with Some x => with_name (Some x) v | None => v end))))).

(** Explicit arguments of Crater.maker (crater/__init__.py:567-617).  The aliases
    final_diameter, final_radius, longitude and latitude are not modelled; production
    values are given as full tuples; [p_mt] is the morphology_type keyword, which only
    the copying branch reads. *)
Record margs := mk_margs {
  p_major : option R; p_minor : option R; p_radius : option R; p_diameter : option R;
  p_td : option R; p_tr : option R; p_pd : option R; p_pr : option R; p_pm : option R;
  p_rho : option R; p_v : option R; p_mv : option R; p_vv : option R; p_ang : option R;
  p_orient : option R; p_pdir : option R; p_loc : option (R * R); p_ploc : option (R * R);
  p_time : option num; p_name : option string; p_mt : option string;
  p_mmajor : option R; p_mminor : option R; p_mdiam : option R; p_mrad : option R;
  p_morient : option R; p_mloc : option (R * R); p_rim : option R; p_floor : option R;
  p_deg : option R; p_ptime : option (R * R); p_pND : option (R * R * R); p_pseq : option Z }.

Definition given {A} (o : option A) : bool := match o with Some _ => true | None => false end.
Definition orelse {A} (o old : option A) : option A := match o with Some _ => o | None => old end.
Definition count (l : list bool) : nat := List.length (filter (fun b => b) l).

(** CraterVariable.as_dict (169-196) and the copy loop (893-896): a measured diameter
    is copied when the measured crater is circular, the two axes otherwise. *)
Definition old_measured (v : var) : option R * option R * option R :=
  match v_major v with
  | None => (None, None, None)
  | Some M => match measured_radius v with
              | Some r => if Req_EM_T r M then (Some (r * 2), None, None) else (None, Some M, v_minor v)
              | None => (None, Some M, v_minor v)
              end
  end.

(** Results of the projectile and scaling models used by the computing branch. *)
Record proj := mk_proj { j_v : R; j_ang : R; j_dir : R; j_rho : R; j_loc : R * R }.
Context (project : option R -> option R -> option R -> option R -> option (R * R) -> option R -> result proj)
        (f2t t2f : R -> R * string) (t2p p2t : R -> R).

(** crater/__init__.py:1021-1062 sizes from the one that is given. *)
Definition sizes (fd td pd pm : option R) (rho : R) : result (R * R * R * string) :=
  match fd, td, pd, pm with
  | Some fd, _, _, _ => let '(td, mt) := f2t fd in Ok (fd, td, t2p td, mt)
  | None, Some td, _, _ => let '(fd, mt) := t2f td in Ok (fd, td, t2p td, mt)
  | None, None, Some pd, _ => let td := p2t pd in let '(fd, mt) := t2f td in Ok (fd, td, pd, mt)
  | None, None, None, Some pm =>
      let pd := 2 * Rpower (3 * pm / (4 * PI * rho)) (1 / 3) in
      let td := p2t pd in let '(fd, mt) := t2f td in Ok (fd, td, pd, mt)
  | None, None, None, None => Err TypeError
  end.

(** The size, projectile and location values of the crater being made. *)
Record core := mk_core {
  c_a : option R; c_b : option R; c_td : option R; c_dir : option R; c_pd : option R;
  c_pm : option R; c_pv : option R; c_ang : option R; c_loc : option (R * R); c_mt : option string }.

(** crater/__init__.py:985-1078 the computing branch. *)
Definition compute (a b radius diameter td tr pd pr pm_arg pm v ang orient rho : option R)
    (loc : option (R * R)) : result core :=
  rbind (project v pm_arg ang orient loc rho) (fun j =>
  let fr := match a, b with Some x, Some y => Some (sqrt (x * y)) | _, _ => radius end in
  let fd := match fr with Some r => Some (2 * r) | None => diameter end in
  let td := match tr with Some r => Some (2 * r) | None => td end in
  let pd := match pr with Some r => Some (2 * r) | None => pd end in
  rbind (sizes fd td pd pm (j_rho j)) (fun '(fd, td, pd, mt) =>
  let fr := fd / 2 in
  let a := match a with Some x => x | None => fr end in
  let b := match b with Some x => x | None => fr end in
  let pm := 4 / 3 * PI * (pd / 2) ^ 3 * j_rho j in
  if Rlt_dec a 0 then Err ValueError else if Rlt_dec b 0 then Err ValueError
  else if Rlt_dec td 0 then Err ValueError else if Rlt_dec pd 0 then Err ValueError
  else if Rlt_dec (j_v j) 0 then Err ValueError else if Rlt_dec (j_rho j) 0 then Err ValueError
  else Ok (mk_core (Some a) (Some b) (Some td) (Some (j_dir j)) (Some pd) (Some pm)
                   (Some (j_v j)) (Some (j_ang j)) (Some (j_loc j)) (Some mt)))).

(** crater/__init__.py:1080-1110 measured axes from the local variables. *)
Definition measured_axes (chk : bool) (diam rad maj min a b : option R) : result (option R * option R) :=
  if chk && given rad && given diam then Err ValueError
  else
    let '(maj, min) := match diam with Some d => (Some (d / 2), Some (d / 2)) | None => (maj, min) end in
    let '(maj, min) := match rad with Some r => (Some r, Some r) | None => (maj, min) end in
    match maj, min with
    | Some M, Some m => Ok (Some M, Some m)
    | Some r, None | None, Some r => if chk then Err ValueError else Ok (Some r, Some r)
    | None, None => Ok (a, b)
    end.

(** crater/__init__.py:905-924 velocity and angle of a crater made from another. *)
Definition merge_velocity (p : margs) (old : fixedf) : option R * option R :=
  if given (p_mv p) then (orelse (p_v p) (f_pv old), orelse (p_ang p) (f_pang old))
  else match given (p_v p), given (p_vv p), given (p_ang p) with
       | false, true, false => (None, f_pang old)
       | false, false, false => (f_pv old, f_pang old)
       | true, false, false => (p_v p, f_pang old)
       | false, false, true => (f_pv old, p_ang p)
       | _, _, _ => (p_v p, p_ang p)
       end.

(** crater/__init__.py:1112-1136 the end of maker. *)
Definition finish (co : core) (time : option num) (name : option string)
    (M m morient : option R) (mloc : option (R * R)) (ldiam lrad : option R)
    (rim floor deg : option R) (ptime : option (R * R)) (pND : option (R * R * R)) (pseq : option Z)
    : result crater :=
  match c_loc co with
  | None => Err TypeError
  | Some loc =>
      let id := hash time (c_a co) (c_ang co) (Some loc) (c_dir co) (c_td co) (c_pd co) (c_pv co)
                     (c_pm co) (c_b co) in
      rbind (var_init (mk_vargs ldiam lrad M m (orelse morient (c_dir co)) (orelse mloc (Some loc))
                                rim floor deg ptime pND pseq name)) (fun v =>
      Ok (mk_crater (mk_fixed id (c_a co) (c_b co) (c_dir co) (c_td co) (c_pd co) (c_pv co) (c_ang co)
                              (c_pm co) (Some loc) (c_mt co) time []) v))
  end.

(** crater/__init__.py:567-1136 Crater.maker. *)
Definition maker (chk : bool) (old : option crater) (p : margs) : result crater :=
  (* 767-776 diameter and radius *)
  if chk && given (p_radius p) && given (p_diameter p) then Err ValueError else
  let diameter := if given (p_radius p) then None else p_diameter p in
  (* 783-790 location *)
  if chk && given (p_loc p) && given (p_ploc p) then Err ValueError else
  let loc := orelse (p_loc p) (p_ploc p) in
  (* 792-802 axes *)
  let one := match p_major p, p_minor p with Some x, None | None, Some x => Some x | _, _ => None end in
  let radius := orelse one (p_radius p) in
  let '(maj, min) := match one with Some x => (Some x, Some x) | None => (p_major p, p_minor p) end in
  if chk && given maj && (given diameter || given radius) then Err ValueError else
  (* 804-811 circular sizes *)
  let circ := match radius with Some r => Some r | None => option_map (fun d => d / 2) diameter end in
  let '(maj, min) := match maj with Some _ => (maj, min) | None => (circ, circ) end in
  (* 813-819 orientation *)
  if chk && given (p_orient p) && given (p_pdir p) then Err ValueError else
  let orient := orelse (p_orient p) (p_pdir p) in
  (* 821-840 velocities *)
  let all_vel := given (p_v p) && given (p_vv p) && given (p_ang p) in
  if chk && all_vel then Err ValueError else
  let mean_clash := given (p_mv p) && (given (p_v p) || given (p_vv p)) in
  if chk && mean_clash then Err ValueError else
  (* 842-849, 889 *)
  let n_size := count [given maj; given (p_td p); given (p_tr p); given (p_pd p); given (p_pr p); given (p_pm p)] in
  match old with
  | Some c =>
      let f := fixed c in let v := vars c in
      let '(odiam, omaj, omin) := old_measured v in
      let '(vel, ang) := merge_velocity p f in
      let mdiam := orelse (p_mdiam p) odiam in
      let mmaj := orelse (p_mmajor p) omaj in
      let mmin := orelse (p_mminor p) omin in
      let time := orelse (p_time p) (f_time f) in
      let loc := orelse loc (f_loc f) in
      let orient := orelse orient (f_orient f) in
      let minor := orelse min (f_minor f) in
      let morient := orelse (p_morient p) (v_orient v) in
      let mloc := orelse (p_mloc p) (v_loc v) in
      let rim := orelse (p_rim p) (v_rim v) in
      let floor := orelse (p_floor p) (v_floor v) in
      let deg := orelse (p_deg p) (v_deg v) in
      let ptime := orelse (p_ptime p) (v_ptime v) in
      let pND := orelse (p_pND p) (v_pND v) in
      let pseq := orelse (p_pseq p) (v_pseq v) in
      if chk && Nat.ltb 1 n_size then Err ValueError else
      if Nat.eqb n_size 1 then
          rbind (compute maj minor radius diameter (p_td p) (p_tr p) (p_pd p) (p_pr p) (p_pm p) (p_pm p)
                         vel ang orient (orelse (p_rho p) (d_rho f)) loc) (fun co =>
          rbind (measured_axes chk (p_mdiam p) (p_mrad p) (p_mmajor p) (p_mminor p) (c_a co) (c_b co)) (fun '(M, m) =>
          finish co time (p_name p) M m (p_morient p) (p_mloc p) mdiam (p_mrad p) rim floor deg ptime pND pseq))
      else (* 935-969 copy; old sizes are used when none is given *)
          let zero := Nat.eqb n_size 0 in
          let co := mk_core (if zero then f_major f else maj) minor (if zero then f_td f else p_td p) orient
                            (if zero then f_pd f else p_pd p) (if zero then f_pm f else p_pm p)
                            vel ang loc (f_mt f) in
          let '(lmaj, lmin) := match mdiam, p_mrad p with
                               | Some d, _ => (Some (d / 2), Some (d / 2))
                               | None, Some r => (Some r, Some r)
                               | None, None => (mmaj, mmin)
                               end in
          let lrad := match mdiam with Some _ => p_mrad p | None => None end in
          rbind (measured_axes chk None None lmaj lmin (c_a co) (c_b co)) (fun '(M, m) =>
          finish co time (match p_name p with Some _ => None | None => v_name v end)
                 M m morient mloc None lrad rim floor deg ptime pND pseq)
  | None =>
      if chk && negb (Nat.eqb n_size 1) then Err ValueError else
      if negb (Nat.eqb n_size 1) || all_vel || mean_clash then
        let co := mk_core maj min (p_td p) orient (p_pd p) (p_pm p) (p_v p) (p_ang p) loc
                          (Some (match p_mt p with Some s => s | None => "UNKNOWN"%string end)) in
        let '(lmaj, lmin) := match p_mdiam p, p_mrad p with
                             | Some d, _ => (Some (d / 2), Some (d / 2))
                             | None, Some r => (Some r, Some r)
                             | None, None => (p_mmajor p, p_mminor p)
                             end in
        let lrad := match p_mdiam p with Some _ => p_mrad p | None => None end in
        rbind (measured_axes chk None None lmaj lmin (c_a co) (c_b co)) (fun '(M, m) =>
        finish co (p_time p) None M m (p_morient p) (p_mloc p) None lrad
               (p_rim p) (p_floor p) (p_deg p) (p_ptime p) (p_pND p) (p_pseq p))
      else
        rbind (compute maj min radius diameter (p_td p) (p_tr p) (p_pd p) (p_pr p) (p_pm p) (p_pm p)
                       (p_v p) (p_ang p) orient (p_rho p) loc) (fun co =>
        rbind (measured_axes chk (p_mdiam p) (p_mrad p) (p_mmajor p) (p_mminor p) (c_a co) (c_b co)) (fun '(M, m) =>
        finish co (p_time p) (p_name p) M m (p_morient p) (p_mloc p) (p_mdiam p) (p_mrad p)
               (p_rim p) (p_floor p) (p_deg p) (p_ptime p) (p_pND p) (p_pseq p)))
  end.

(** The arguments of a reload: every saved column is passed back as a keyword with
    check_redundant_inputs=False.  Saved columns: Crater.as_dict (492-502) flattened by
    _convert_tuple_vars.  [time]: the time as it comes back from the file. *)
Definition file_args (time : option num) (c : crater) : margs :=
  let f := fixed c in let v := vars c in
  let '(odiam, omaj, omin) := old_measured v in
  mk_margs (f_major f) (f_minor f) (d_radius f) (d_diameter f) (f_td f) (d_tr f) (f_pd f) (d_pr f) (f_pm f)
    (d_rho f) (f_pv f) None (d_vv f) (f_pang f) (f_orient f) (f_orient f) (f_loc f) None
    time (v_name v) (f_mt f)
    omaj omin odiam None (v_orient v) (v_loc v) (v_rim v) (v_floor v) (v_deg v) (v_ptime v) (v_pND v) (v_pseq v).

(** crater/__init__.py:1341-1386 from_xarray.  The id is the coordinate, not a column.
    [widen]: an integer time column becomes floating point when another crater of the
    file has a fractional time or none. *)
Definition widened (n : num) : num := PFlt (match n with PInt z => IZR z | PFlt x => x end).
Definition from_xarray (widen : bool) (c : crater) : result crater :=
  maker false None (file_args (if widen then option_map widened (f_time (fixed c)) else f_time (fixed c)) c).

(** crater/__init__.py:1260-1303 from_csv_file on a file written by to_csv_file
    (counting/__init__.py:1341-1411): numbers come back as floats, and the id column
    is passed to maker, whose last line then gives the class two id keywords. *)
Definition from_csv (c : crater) : result crater :=
  rbind (maker false None (file_args (option_map widened (f_time (fixed c))) c)) (fun _ => Err TypeError).

Definition no_args : margs :=
  mk_margs None None None None None None None None None None None None None None None None None
    None None None None None None None None None None None None None None None None.

End Crater.
