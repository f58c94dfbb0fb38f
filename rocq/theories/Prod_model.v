(** Production functions: cratermaker/components/production/neukum.py and powerlaw.py,
    and the inverse functions of production/__init__.py.  Real arithmetic in place of
    float64; one value at a time in place of numpy broadcasting. *)
From Coq Require Import Reals QArith Qreals List Lra.
From Verif Require Import Common.
Import ListNotations.
Open Scope R_scope.

Definition log10 (x : R) : R := ln x / ln 10.
(** Python's [a ** b] for a positive base. *)
Definition pow (a b : R) : R := Rpower a b.

(* ------------------------- neukum.py ------------------------- *)

(** valid_versions: neukum.py:186-196. *)
Inductive version := Moon | Mars | Projectile.

(** sfd_tables: neukum.py:249-302. *)
Definition sfd_table (v : version) : list Q :=
  match v with
  | Moon => [ -3.0876; -3.557528; 0.781027; 1.021521; -0.156012; -0.444058; 0.019977;
              0.086850; -0.005874; -0.006809; 0.000825; 0.0000554 ]
  | Mars => [ -3.384; -3.197; 1.257; 0.7915; -0.4861; -0.3630; 0.1016; 0.06756; -0.01181;
              -0.004753; 0.0006233; 0.00005805 ]
  | Projectile => [ 0; 1.375458; 0.1272521; -1.282166; -0.3074558; 0.4149280; 0.1910668;
              -0.04260980; -0.03976305; -0.003180179; 0.002799369; 0.0006892223;
              0.000002614385; -0.00001416178; -0.000001191124 ]
  end%Q.

(** sfd_range, in metres: neukum.py:365-384. *)
Definition sfd_lo (v : version) : R := match v with Moon => 10 | Mars => 15 | Projectile => 1/10 end.
Definition sfd_hi (v : version) : R :=
  match v with Moon => 1000000 | Mars => 362000 | Projectile => 200000 end.

(** [sum(co * x**i for i, co in enumerate(l))]: neukum.py:470, 505 (in Horner form). *)
Fixpoint peval (l : list Q) (x : R) : R :=
  match l with [] => 0 | a :: r => Q2R a + x * peval r x end.

(** _dNdD at a diameter inside the range, the only place it is used:
    neukum.py:442-472 (dcoef = sfd_coef[1:]), called from _extrapolate_sfd 417-440. *)
Definition dNdD (v : version) (Dkm : R) : R := peval (tl (sfd_table v)) (log10 Dkm).

(** _CSFD: neukum.py:474-508, at the reference age of 1 Gy, per km2. *)
Definition CSFD_in (v : version) (Dkm : R) : R := pow 10 (peval (sfd_table v) (log10 Dkm)).
Definition CSFD (v : version) (Dkm : R) : R :=
  let lo := sfd_lo v / 1000 in
  let hi := sfd_hi v / 1000 in
  if Rlt_dec Dkm lo then CSFD_in v lo * pow (Dkm / lo) (dNdD v lo)
  else if Rlt_dec hi Dkm then CSFD_in v hi * pow (Dkm / hi) (dNdD v hi - 5)
  else CSFD_in v Dkm.

(** R_to_CSFD: counting/__init__.py:1589-1632.  [fuel] bounds the while loop (None: out
    of fuel); the terms are added from the far end. *)
Definition bin_term (f : R -> R) (D : R) : R :=
  let next := D * sqrt 2 in
  let mid := (D + next) / 2 in
  f mid / mid ^ 3 * (next - D).
Fixpoint R_to_CSFD (f : R -> R) (Dlim : R) (fuel : nat) (D : R) : option R :=
  if Rlt_dec D Dlim then
    match fuel with
    | O => None
    | S n => match R_to_CSFD f Dlim n (D * sqrt 2) with
             | Some s => Some (bin_term f D + s)
             | None => None
             end
    end
  else Some 0.

(** csfd: neukum.py:398-519, per m2 and My; the value as a relation because of the loop
    (a diameter of 0 makes the loop of the projectile version endless and divides by
    zero in the others; it has no value here). *)
Inductive csfd (v : version) (D : R) : result R -> Prop :=
| csfd_neg : D < 0 -> csfd v D (Err ValueError)
| csfd_proj fuel n : 0 < D -> v = Projectile ->
    R_to_CSFD (CSFD v) 1000000 fuel (D / 1000) = Some n ->
    csfd v D (Ok (n * (294 / 10000000) * 1000))
| csfd_crater : 0 < D -> v <> Projectile -> csfd v D (Ok (CSFD v (D / 1000) * 1000)).

(** Clin, Cexp, tau as they are first computed: neukum.py:319-363. *)
Definition Clin_of (v : version) : R := pow 10 (Q2R (hd 0%Q (sfd_table v))).
Definition Cexp_moon : R := 544 / 100 / 10 ^ 14.
Definition Cexp_of (clin : R) (v : version) : R :=
  match v with Moon => Cexp_moon | _ => Cexp_moon * clin / Clin_of Moon end.
Definition tau : R := 1 / (693 / 100).

(** _N1km: neukum.py:161-179. *)
Definition N1km (cexp clin t : R) : R :=
  (cexp * (exp (t / 1000 / tau) - 1) + clin * t / 1000) / 1000000.
(** chronology: neukum.py:126-184. *)
Definition chronology (cexp clin ts : R) (te : option R) : R :=
  match te with None => N1km cexp clin ts | Some e => N1km cexp clin ts - N1km cexp clin e end.

(** The object: the selected version and the cached coefficients
    (neukum.py:67-69, 319-349). *)
Record neukum := mkNeukum { ver : version; c_lin : option R; c_exp : option R }.
Definition new_neukum (v : version) : neukum := mkNeukum v None None.
(** version setter: neukum.py:229-246 (for a valid name). *)
Definition set_version (v : version) (p : neukum) : neukum := mkNeukum v (c_lin p) (c_exp p).
(** Clin: 319-330; Cexp: 333-349 *)
Definition read_Clin (p : neukum) : R * neukum :=
  match c_lin p with
  | Some c => (c, p)
  | None => let c := Clin_of (ver p) in (c, mkNeukum (ver p) (Some c) (c_exp p))
  end.
Definition read_Cexp (p : neukum) : R * neukum :=
  match c_exp p with
  | Some c => (c, p)
  | None =>
      match ver p with
      | Moon => (Cexp_moon, mkNeukum (ver p) (c_lin p) (Some Cexp_moon))
      | v => let '(cl, p1) := read_Clin p in
             let c := Cexp_of cl v in (c, mkNeukum (ver p1) (c_lin p1) (Some c))
      end
  end.
(** chronology(time_start, time_end): reads Cexp, then Clin. *)
Definition read_chronology (ts : R) (te : option R) (p : neukum) : R * neukum :=
  let '(ce, p1) := read_Cexp p in
  let '(cl, p2) := read_Clin p1 in
  (chronology ce cl ts te, p2).

Inductive neukum_op := SetVersion (v : version) | ReadClin | ReadCexp | ReadChronology (ts : R) (te : option R).
Definition neukum_step (p : neukum) (o : neukum_op) : neukum :=
  match o with
  | SetVersion v => set_version v p
  | ReadClin => snd (read_Clin p)
  | ReadCexp => snd (read_Cexp p)
  | ReadChronology ts te => snd (read_chronology ts te p)
  end.
Definition neukum_history (v : version) (l : list neukum_op) : neukum :=
  fold_left neukum_step l (new_neukum v).

(* ------------------------- powerlaw.py ------------------------- *)
Record powerlaw := mkPower { N1_coef : R; slope : R }.
Inductive generator := GCrater | GProjectile.
(** constructor: powerlaw.py:55-80 *)
Definition new_powerlaw (g : generator) (n1 sl : option R) : result powerlaw :=
  let n := match n1 with Some n => n
           | None => match g with GCrater => 7883 / 1000000 | GProjectile => 7989 / 10000000000 end end in
  if Rlt_dec n 0 then Err ValueError
  else
    let s := match sl with Some s => s
             | None => match g with GCrater => - (3328 / 1000) | GProjectile => - (2634 / 1000) end end in
    Ok (mkPower n (if Rlt_dec 0 s then s * -1 else s)).
(** setters: powerlaw.py:204-221 (for numbers) *)
Definition set_N1 (x : R) (p : powerlaw) : powerlaw * option exn :=
  if Rlt_dec x 0 then (p, Some ValueError) else (mkPower x (slope p), None).
Definition set_slope (x : R) (p : powerlaw) : powerlaw := mkPower (N1_coef p) x.
(** csfd: powerlaw.py:183-197 (positive diameter) *)
Definition pl_csfd (p : powerlaw) (D : R) : R := N1_coef p * pow D (slope p).
(** function: powerlaw.py:87-135, validated arguments; time_end None is 0 *)
Definition pl_function (p : powerlaw) (D ts : R) (te : option R) : R :=
  pl_csfd p D * (ts - match te with Some e => e | None => 0 end).
(** chronology: powerlaw.py:137-181: the value of csfd at 1000 m, whatever the times
    (csfd ignores the keyword arguments it is given). *)
Definition pl_chronology (p : powerlaw) (ts : R) (te : option R) : R := pl_csfd p 1000.

(* ---------------- inverses: production/__init__.py ---------------- *)

(** scipy root_scalar(method="brentq", bracket=[a, b]), idealised: a root in the bracket
    (tolerance 1e-8 in the code), and ValueError when f(a), f(b) have the same sign. *)
Inductive brentq (f : R -> R) (a b : R) : result R -> Prop :=
| brentq_sign : 0 < f a * f b -> brentq f a b (Err ValueError)
| brentq_root x : f a * f b <= 0 -> a <= x <= b -> f x = 0 -> brentq f a b (Ok x).

(** age_from_D_N: production/__init__.py:373-445, scalar arguments; [F] is
    self.function(diameter, time_start), [tlo, thi] valid_time. *)
Definition age_from_D_N (F : R -> R -> R) (tlo thi : option R) (D n : R) (r : result R) : Prop :=
  if Rlt_dec D 0 then r = Err ValueError
  else if Rlt_dec n 0 then r = Err ValueError
  else brentq (fun t => F D t - n) (match tlo with Some l => l | None => 0 end)
              (match thi with Some h => h | None => 1000000 end) r.

(** D_from_N_age: 447-523, validated times; [F] is self.function(diameter) over them. *)
Definition D_from_N_age (F : R -> R) (n : R) (r : result R) : Prop :=
  brentq (fun d => F d - n) (1 / 1000000) 1000000 r.
