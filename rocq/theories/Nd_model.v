(** Model of the arguments that give a period of time as crater densities N(D), in
    production.sample and production.quasimc_merge
    (cratermaker/components/production/__init__.py:656-681 in front of the rest of
    _validate_sample_args, which is [sample_args] of Run_model) and in Simulation.run
    (core/simulation.py:370-387, [pick_args] of Run_model).
    Simplifications as in Run_model: f64 is idealised as R, arguments have the right types.
    [age_of] is age_from_D_N. *)
From Coq Require Import Reals.
From Verif Require Import Common Run_model.
Open Scope R_scope.

Section Nd.
Variables (csfd chron : R -> R) (age_of : R -> R -> result R) (tlo thi : option R).
(** D_conversion_factor and N_conversion_factor. *)
Variables (Dconv Nconv : R).

(** The keyword arguments of sample and quasimc_merge: 196-202, 861-868; age, N_D and N_D_end of
    sample arrive through **kwargs. *)
Record request := mkRequest {
  q_age : option R; q_ts : option R; q_te : option R;
  q_ND : option (R * R); q_NDe : option (R * R); q_dn : option (R * R); q_dne : option (R * R) }.

(** 656-681, then 679-781 with the given area. *)
Definition validate (area : R) (q : request) : result (R * R * (R * R) * (R * R)) :=
  let ts := match q_age q with Some a => Some a | None => q_ts q end in
  rbind (match q_ND q with
         | None => Ok ts
         | Some (D, N) => if given ts then Err ValueError
                          else rbind (age_of (D * Dconv) (N * Nconv)) (fun t => Ok (Some t))
         end) (fun ts =>
  rbind (match q_NDe q with
         | None => Ok (q_te q)
         | Some (D, N) => if given (q_te q) then Err ValueError
                          else rbind (age_of (D * Dconv) (N * Nconv)) (fun t => Ok (Some t))
         end) (fun te =>
  sample_args csfd chron age_of tlo thi area ts te (q_dn q) (q_dne q))).
(** The period over which sample draws and from which quasimc_merge takes craters (251-252 and
    905-906). *)
Definition period (area : R) (q : request) : result (R * R) :=
  rbind (validate area q) (fun y => let '(t0, t1, _, _) := y in Ok (t0, t1)).
(** quasimc_merge: the craters with a time that belong to the period, 909 and 922. *)
Definition merged_times (t0 t1 : R) (times : list R) : list R :=
  filter (fun t => (if Rle_dec t t0 then true else false) && (if Rlt_dec t1 t then true else false)) times.

(** The period of Simulation.run with the same arguments. *)
Definition run_period (area : R) (cur : option R) (a : args) : result (R * R) :=
  rbind (validate_run_args csfd chron age_of tlo thi area Dconv Nconv cur a) (fun p => Ok (p_ts p, p_te p)).
End Nd.
