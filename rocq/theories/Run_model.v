(** Model of Simulation.run / populate bookkeeping (core/simulation.py) and of the
    argument validation in components/production/__init__.py.
    Simplifications: floats are R; scalar/type checks on the arguments are the
    types of the model (an [int] ninterval is a Z, a pair is a pair); the surface,
    the random sample and emplacement are the oracle [forms]; progress bars and
    [counting._emplaced = []] are left out; save never fails. *)
From Coq Require Import Reals.
From Verif Require Import Common Trig_model Mesh_model.
Open Scope R_scope.

(** What a caller can observe: a period sampled by populate, and a save. *)
Inductive event : Type :=
| EPop (t0 t1 : R)
| ESave (interval : Z) (time : option R) (elapsed : R).

(** simulation.py:1560-1613 interval, elapsed_time, time, elapsed_n1; is_new. *)
Record sim : Type := mkSim {
  time : option R; interval : Z; elapsed : R; n1 : R; is_new : bool;
  trace : list event }.

(** simulation.py:454-464 the keyword arguments of run (diameter_number and
    diameter_number_end arrive through kwargs). *)
Record args : Type := mkArgs {
  a_age : option R; a_ts : option R; a_te : option R;
  a_ND : option (R * R); a_NDe : option (R * R);
  a_dn : option (R * R); a_dne : option (R * R);
  a_dt : option R; a_n : option Z }.

(** What _validate_run_args returns (simulation.py:441-452). *)
Record plan : Type := mkPlan {
  p_ts : R; p_te : R; p_dn : R * R; p_dne : R * R;
  p_dt : option R; p_dN : R; p_n : Z; p_time : bool }.

Definition given {A} (o : option A) : bool := match o with Some _ => true | None => false end.

Section Run.
(** production.csfd, production.chronology (age part), brentq root finder
    production.age_from_D_N, production.valid_time *)
Variables (csfd chron : R -> R) (age_of : R -> R -> result R) (tlo thi : option R).
(** surface.area, production.D_conversion_factor, N_conversion_factor *)
Variables (area Dconv Nconv : R).
(** Does sampling the period emplace at least one crater, given all that happened before? *)
Variable forms : list event -> R -> R -> result bool.

Definition REF_DIAM : R := 1000.
(** constants: _DSTD = 1.0e3 *)
Definition DSTD : R := 1000.

(** neukum.py:84-124, powerlaw.py:87-135 function with validate_inputs=False. *)
Definition fn (D ts te : R) : R := csfd D * (chron ts - chron te).

(** production/__init__.py:783-826 _validate_age, scalar case. *)
Definition validate_age (ts te : R) : result unit :=
  if Rlt_dec ts te then Err ValueError
  else if match tlo with Some l => if Rlt_dec ts l then true else false | None => false end
  then Err ValueError
  else if match thi with Some h => if Rlt_dec h ts then true else false | None => false end
  then Err ValueError
  else Ok tt.

(** production/__init__.py:537-588 _validate_csfd for scalars. *)
Definition validate_csfd (p : R * R) : result unit :=
  if Rlt_dec (fst p) 0 then Err ValueError
  else if Rlt_dec (snd p) 0 then Err ValueError else Ok tt.

(** function(diameter, time_start) with validation; time_end defaults to 0. *)
Definition fn_chk (D t : R) : result R :=
  rbind (validate_age t 0) (fun _ => Ok (fn D t 0)).

(** production/__init__.py:706-722: the start of the sample, as a time and as a
    (diameter, number) pair. *)
Definition sample_start (ts : option R) (dn : option (R * R)) : result (R * (R * R)) :=
  match dn with
  | Some p => rbind (validate_csfd p) (fun _ =>
                rbind (age_of (fst p) (snd p / area)) (fun t => Ok (t, p)))
  | None => match ts with
            | Some t => rbind (fn_chk REF_DIAM t) (fun v => Ok (t, (REF_DIAM, v * area)))
            | None => Err TypeError
            end
  end.

(** production/__init__.py:724-764: the end of the sample, given the diameter [D]
    of the starting pair and the starting time. *)
Definition sample_end (t0 D : R) (te : option R) (dne : option (R * R)) : result (R * (R * R)) :=
  (* 724-727 *)
  let te1 := match te, dne with None, None => Some 0 | _, _ => te end in
  let dne1 := match te, dne with None, None => Some (REF_DIAM, 0) | _, _ => dne end in
  (* 729-748 *)
  rbind (match dne1 with
         | None => Ok None
         | Some q =>
           rbind (validate_csfd q) (fun _ =>
           if Req_EM_T (fst q) D then Ok (Some q)
           else match te1 with
                | None => Err TypeError   (* function(time_start=None) *)
                | Some t1 => rbind (fn_chk D t1) (fun v => Ok (Some (D, v * area)))
                end)
         end) (fun dne2 =>
  (* 750-758 *)
  rbind (match te1 with
         | Some t1 => Ok t1
         | None => match dne2 with
                   | Some q => rbind (validate_csfd q) (fun _ => age_of (fst q) (snd q / area))
                   | None => Err TypeError
                   end
         end) (fun t1 =>
  rbind (validate_age t0 t1) (fun _ =>
  (* 760-764 *)
  rbind (match dne2 with
         | Some q => Ok q
         | None => rbind (fn_chk D t1) (fun v => Ok (D, v * area))
         end) (fun q => Ok (t1, q))))).

(** production/__init__.py:656-781 _validate_sample_args (time_start, time_end,
    diameter_number, diameter_number_end; N_D and age are already removed by the
    simulation; diameter_range is not modelled). *)
Definition sample_args (ts te : option R) (dn dne : option (R * R))
  : result (R * R * (R * R) * (R * R)) :=
  if Bool.eqb (given ts) (given dn) then Err ValueError   (* neither, or both *)
  else if given te && given dne then Err ValueError
  else if Rlt_dec area 0 then Err ValueError
  else rbind (sample_start ts dn) (fun tp => let '(t0, p) := tp in
       rbind (sample_end t0 (fst p) te dne) (fun tq => let '(t1, q) := tq in
       Ok (t0, t1, p, q))).

(** simulation.py:337-392 the first half of _validate_run_args: which of the
    arguments are handed to the production function. *)
Definition pick_args (cur : option R) (a : args)
  : result (option R * option R * option (R * R) * option (R * R)) :=
  rbind (match a_age a with
         | None => Ok (a_ts a, a_te a)
         | Some x => if given (a_ts a) || given (a_te a) then Err ValueError
                     else if given (a_dn a) then Err ValueError
                     else if given (a_ND a) then Err ValueError
                     else Ok (Some x, Some 0)
         end) (fun tt' => let '(ts, te) := tt' in
  match ts with
  | Some t =>
      if given (a_dn a) then Err ValueError
      else if given (a_ND a) then Err ValueError
      else Ok (Some t, Some (match te with Some e => e | None => 0 end), a_dn a, a_dne a)
  | None =>
    match te with
    | Some e => match cur with
                | None => Err ValueError
                | Some c => Ok (Some c, Some e, a_dn a, a_dne a)
                end
    | None =>
      match a_ND a with
      | Some nd =>
          if given (a_dn a) || given (a_dne a) then Err ValueError
          else
          let nde := match a_NDe a with Some q => q | None => (fst nd, 0) end in
          let conv := fun q : R * R => (fst q * Dconv, area * snd q / Nconv) in
          Ok (None, None, Some (conv nd), Some (conv nde))
      | None => if given (a_NDe a) then Err ValueError
                else if given (a_dn a) then Ok (None, None, a_dn a, a_dne a)
                else Err ValueError
      end
    end
  end).

(** simulation.py:394-452 the second half. [ts] and [te] are the local variables,
    which are still None when the period was given by numbers. *)
Definition validate_run_args (cur : option R) (a : args) : result plan :=
  rbind (pick_args cur a) (fun x => let '(ts, te, dn, dne) := x in
  rbind (match a_n a with
         | Some n => if (n <? 1)%Z then Err ValueError
                     else if given (a_dt a) then Err ValueError else Ok (Some n)
         | None => if given (a_dt a) then Ok None else Ok (Some 1%Z)
         end) (fun nint =>
  rbind (sample_args ts te dn dne) (fun y => let '(t0, t1, p, q) := y in
  match a_dt a with
  | Some dt =>
      match ts, te with
      | Some lts, Some lte =>
          if Rlt_dec (lts - lte) dt then Err ValueError
          else if Rle_dec dt 0 then Err ValueError
          else Ok (mkPlan t0 t1 p q (Some dt) 0 (ceil ((lts - lte) / dt)) true)
      | _, _ => Err TypeError     (* None - None *)
      end
  | None =>
      let n := match nint with Some n => n | None => 1%Z end in
      Ok (mkPlan t0 t1 p q None ((snd p - snd q) / IZR n) n false)
  end))).

(** simulation.py:867-884 save. *)
Definition save (s : sim) : sim :=
  mkSim (time s) (interval s) (elapsed s) (n1 s) (is_new s)
        (trace s ++ [ESave (interval s) (time s) (elapsed s)]).

Definition no_args : args := mkArgs None None None None None None None None None.

(** simulation.py:650-816 populate: validate, sample the validated period, and
    emplace (which clears is_new, 864) when there is a crater. *)
Definition populate (a : args) (s : sim) : sim * option exn :=
  match validate_run_args (time s) a with
  | Err e => (s, Some e)
  | Ok p =>
    match forms (trace s) (p_ts p) (p_te p) with
    | Err e => (s, Some e)
    | Ok some => (mkSim (time s) (interval s) (elapsed s) (n1 s) (is_new s && negb some)
                    (trace s ++ [EPop (p_ts p) (p_te p)]), None)
    end
  end.

(** simulation.py:635-646 the end of one loop iteration. *)
Definition advance (dt t0 t1 : R) (s : sim) : sim :=
  save (mkSim (Some t1) (interval s + 1) (elapsed s + dt)
              (n1 s + fn DSTD t0 t1 * Nconv) (is_new s) (trace s)).

(** simulation.py:586-634 one iteration in equal time steps. *)
Definition step_time (ts te dt : R) (i : Z) (s : sim) : sim * option exn :=
  let t0 := ts - IZR i * dt in
  let e := ts - (IZR i + 1) * dt in
  let t1 := if Rlt_dec e te then te else e in
  match populate (mkArgs None (Some t0) (Some t1) None None None None None None) s with
  | (s1, Some x) => (s1, Some x)
  | (s1, None) => (advance dt t0 t1 s1, None)
  end.

(** simulation.py:597-634 one iteration in equal number steps. *)
Definition step_number (dn : R * R) (dN : R) (i : Z) (s : sim) : sim * option exn :=
  let p := (fst dn, snd dn - IZR i * dN) in
  let q := (fst dn, snd dn - (IZR i + 1) * dN) in
  match populate (mkArgs None None None None None (Some p) (Some q) None None) s with
  | (s1, Some x) => (s1, Some x)
  | (s1, None) =>
    match age_of (fst p) (snd p / area) with
    | Err x => (s1, Some x)
    | Ok t0 =>
      match (if Rlt_dec 0 (snd q) then age_of (fst q) (snd q / area) else Ok 0) with
      | Err x => (s1, Some x)
      | Ok e => let t1 := if Rlt_dec e 0 then 0 else e in
                (advance (t0 - t1) t0 t1 s1, None)
      end
    end
  end.

(** the for loop: [k] iterations starting at index [i] *)
Fixpoint loop (step : Z -> sim -> sim * option exn) (k : nat) (i : Z) (s : sim)
  : sim * option exn :=
  match k with
  | O => (s, None)
  | S k' => match step i s with
            | (s1, Some x) => (s1, Some x)
            | (s1, None) => loop step k' (i + 1)%Z s1
            end
  end.

(** simulation.py:517-648 run. *)
Definition run (a : args) (s : sim) : sim * option exn :=
  match validate_run_args (time s) a with
  | Err e => (s, Some e)
  | Ok p =>
    (* 539-541 *)
    let tmode := (p_n p =? 1)%Z || p_time p in
    let dt := if (p_n p =? 1)%Z then p_ts p - p_te p
              else match p_dt p with Some d => d | None => 0 end in
    (* 543-548 *)
    match (if tmode then Ok (p_ts p) else age_of (fst (p_dn p)) (snd (p_dn p) / area)) with
    | Err e => (s, Some e)
    | Ok ts =>
      (* 550-553 *)
      let s0 := match time s with
                | None => mkSim (Some ts) 0 (elapsed s) (n1 s) (is_new s) (trace s)
                | Some _ => s end in
      let cur := match time s0 with Some c => c | None => ts end in
      if Rlt_dec ts cur then (s0, Some RuntimeError)
      else
      (* 560-580 *)
      match (if tmode then
               if Req_EM_T dt 0 then Err ZeroDivisionError else Ok (trunc ((ts - cur) / dt))
             else
               let d := fn DSTD ts (p_te p) / IZR (p_n p) in
               if Req_EM_T d 0 then Err ZeroDivisionError
               else Ok (trunc (fn DSTD ts cur / d))) with
      | Err e => (s0, Some e)
      | Ok i0 =>
        let s1 := if is_new s0 then save s0 else s0 in
        loop (if tmode then step_time ts (p_te p) dt else step_number (p_dn p) (p_dN p))
             (Z.to_nat (p_n p - i0)) i0 s1
      end
    end
  end.

End Run.
