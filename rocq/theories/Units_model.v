(** The units of densities N(D) of a production function and the ages of quasi-Monte Carlo craters
    that are dated by a density (components/production/__init__.py).
    Simplifications: densities without uncertainty and without a sequence, so that nothing is drawn
    (the rest is in Quasi_model); csfd and age_from_D_N are parameters; f64 is idealised as R; a
    factor that is given is a number or None. *)
From Coq Require Import List Reals.
From Verif Require Import Common.
Import ListNotations.
Open Scope R_scope.

Section Units.
(** self.csfd, and self.age_from_D_N at the standard diameter *)
Variable csfd : R -> R.
Variable age : R -> R.

(** A crater dated by N craters of diameter D or more; and its time. *)
Record dated := mk_dated { d_diameter : R; d_number : R }.
Record production := mk_production { n_factor : option R; d_factor : option R; given : list (dated * R) }.

(** _DSTD: constants.py:23 *)
Definition standard : R := 1000.
(** N_conversion_factor and D_conversion_factor: 1379-1387, 1350-1358 *)
Definition N_conversion_factor (p : production) : R := match n_factor p with None => 1000000000000 | Some x => x end.
Definition D_conversion_factor (p : production) : R := match d_factor p with None => 1000 | Some x => x end.
(** value in [...] *)
Definition among (l : list R) (x : R) : bool := existsb (fun y => if Req_EM_T x y then true else false) l.
(** their assignment: 1389-1396, 1360-1367 *)
Definition set_N (p : production) (v : option R) : result production :=
  let x := match v with None => 1000000000000 | Some x => x end in
  if among [1; 1000000; 1000000000000] x then Ok (mk_production (Some x) (d_factor p) (given p)) else Err ValueError.
Definition set_D (p : production) (v : option R) : result production :=
  let x := match v with None => 1000 | Some x => x end in
  if among [1; 1000] x then Ok (mk_production (n_factor p) (Some x) (given p)) else Err ValueError.

(** _draw_quasimc_time for a density: 996-1016 *)
Definition draw_time (p : production) (c : dated) : R :=
  let prod_diam := d_diameter c * 1000 in
  let nmean := d_number c / N_conversion_factor p in
  let fac := csfd standard / csfd prod_diam in
  age (Rmax 0 (nmean * fac)).
(** quasimc_craters = value: 1322-1329 *)
Definition set_craters (p : production) (l : list dated) : production :=
  mk_production (n_factor p) (d_factor p) (map (fun c => (c, draw_time p c)) l).
(** Production.__init__: 67-83; the craters come before the factors *)
Definition init (l : list dated) (N D : option R) : result production :=
  rbind (set_N (set_craters (mk_production None None []) l) N) (fun p => set_D p D).

(** N_unit and D_unit: 1398-1410, 1369-1376 *)
Inductive unit_name := Metre | Kilometre | PerM2 | PerKm2 | PerMillionKm2 | Unknown.
Definition N_unit (p : production) : unit_name :=
  match n_factor p with
  | None => Unknown
  | Some x => if Req_EM_T x 1 then PerM2 else if Req_EM_T x 1000000 then PerKm2
              else if Req_EM_T x 1000000000000 then PerMillionKm2 else Unknown
  end.
Definition D_unit (p : production) : unit_name :=
  let x := D_conversion_factor p in
  if Req_EM_T x 1 then Metre else if Req_EM_T x 1000 then Kilometre else Unknown.
End Units.
