(** Model of the crater scaling relations: components/scaling/montecarlo.py and
    components/scaling/ctem.py.  Floats are real numbers. *)
From Coq Require Import Reals.
From Verif Require Import Common Prod_model.
Open Scope R_scope.

Inductive mtype : Type := Simple | Transitional | Complex.
Definition mtype_eqb (a b : mtype) : bool :=
  match a, b with Simple, Simple => true | Transitional, Transitional => true | Complex, Complex => true | _, _ => false end.

(** The attributes set by recompute: montecarlo.py:494-517. *)
Record scaling := {
  simple_factor : R;      (** simple_enlargement_factor *)
  complex_factor : R;     (** complex_enlargement_factor *)
  final_exp : R;
  transition : R;         (** transition_diameter *)
  nominal : R;            (** transition_nominal *)
  monte_carlo : bool }.

Inductive scale_type : Type := Silicate | Ice.

(** montecarlo.py:438-447, with mu = A log10 g + B. *)
Definition mc_mu (st : scale_type) (g : R) : R :=
  match st with
  | Silicate => - (0.5484575694575697) * log10 g + 4.201369948094472
  | Ice => - (0.7066985617230864) * log10 g + 3.52268633631802
  end.
Definition mc_sigma (st : scale_type) : R :=
  match st with Silicate => 0.0699898822890725 | Ice => 0.10337890091526512 end.

(** MonteCarloScaling.recompute: montecarlo.py:426-475.  [b1] and [b2] are the two draws
    of bounded_norm and [z] is the normal draw (in units of sigma); they are used only
    when the Monte Carlo flag is set. *)
Definition mc_recompute (st : scale_type) (g : R) (mc : bool) (b1 b2 z : R) : scaling :=
  let nom := Rpower 10 (mc_mu st g) in
  if mc then
    {| simple_factor := 1 / b1; complex_factor := 1.02; final_exp := b2;
       transition := Rpower 10 (mc_mu st g + mc_sigma st * z); nominal := nom; monte_carlo := true |}
  else
    {| simple_factor := 1 / 0.84; complex_factor := 1.02; final_exp := 0.079;
       transition := nom; nominal := nom; monte_carlo := false |}.

(** CTEMScaling.recompute: ctem.py:79-117 (the constructor clears the Monte Carlo flag, 76). *)
Definition ctem_recompute (st : scale_type) (g : R) : scaling :=
  let nom := match st with
             | Silicate => 16533.8 * Rpower g (- (1.0303))
             | Ice => 3081.39 * Rpower g (- (1.22486))
             end in
  {| simple_factor := 1 / 0.84; complex_factor := 1.02;
     final_exp := match st with Silicate => 1 / 0.885 - 1 | Ice => 0.155 end;
     transition := nom; nominal := nom; monte_carlo := false |}.

(** bounded_norm with its default bounds: montecarlo_utils.py:462-475; [truncnorm] is an
    oracle that returns a value within the bounds. *)
Definition bounded_norm (loc scale b : R) : Prop := loc - scale <= b <= loc + scale.

(** rng.choice([a, b], p=[p, 1 - p]) for the uniform draw [u] in [0, 1): numpy picks the
    first category exactly when u < p. *)
Definition choice2 {A} (a b : A) (p u : R) : A := if Rlt_dec u p then a else b.

(** _get_morphology_type: montecarlo.py:152-192.  [u] is the uniform draw. *)
Definition get_morphology_type (s : scaling) (D u : R) : result mtype :=
  if Rle_dec D 0 then Err ValueError
  else
    let lo := 0.5 * nominal s in let hi := 2 * nominal s in
    if Rlt_dec D lo then Ok Simple
    else if Rlt_dec hi D then Ok Complex
    else if monte_carlo s then
      if Rlt_dec D (nominal s)
      then Ok (choice2 Simple Transitional ((nominal s - D) / (nominal s - lo)) u)
      else Ok (choice2 Complex Transitional ((D - nominal s) / (hi - nominal s)) u)
    else Ok Transitional.

(** _f2t_simple and _f2t_complex: montecarlo.py:477-485. *)
Definition f2t_simple (s : scaling) (D : R) : R := D / simple_factor s.
Definition f2t_complex (s : scaling) (D : R) : R :=
  D / (simple_factor s * complex_factor s) * Rpower (D / transition s) (- final_exp s).

(** final_to_transient: montecarlo.py:194-230.  [m] is the optional morphology_type
    argument (other strings than the three names are not modelled). *)
Definition final_to_transient (s : scaling) (D : R) (m : option mtype) (u : R) : result (R * mtype) :=
  if Rle_dec D 0 then Err ValueError
  else rbind (match m with Some t => Ok t | None => get_morphology_type s D u end)
         (fun t => Ok (match t with Simple => f2t_simple s D | _ => f2t_complex s D end, t)).

(** The choice among the two candidate final diameters: transient_to_final,
    montecarlo.py:283-317.  [u] is the uniform draw. *)
Definition choose_final (s : scaling) (Ds Dc : R) (m0 m1 : mtype) (u : R) : result (R * mtype) :=
  if mtype_eqb m0 m1 then
    Ok (match m0 with Simple => Ds | _ => Dc end, m0)
  else if mtype_eqb m0 Simple || mtype_eqb m1 Simple then
    let '(ms, mc) := if mtype_eqb m0 Simple then (m0, m1) else (m1, m0) in
    let p := if monte_carlo s then u else 0.5 in
    if Req_EM_T (Ds - Dc) 0 then Err ZeroDivisionError
    else if Rlt_dec p (Rabs (Dc - transition s) / Rabs (Ds - Dc)) then Ok (Ds, ms) else Ok (Dc, mc)
  else Ok (Dc, if monte_carlo s then choice2 m0 m1 (1/2) u else Transitional).

(** transient_to_final: montecarlo.py:232-317.  [u0], [u1] are the draws of the two calls
    of _get_morphology_type and [u2] the draw of the choice.  root_scalar with a bracket is
    the relation [brentq] of Prod_model. *)
Inductive transient_to_final (s : scaling) (Dt u0 u1 u2 : R) : result (R * mtype) -> Prop :=
| t2f_invalid : Dt <= 0 -> transient_to_final s Dt u0 u1 u2 (Err ValueError)
| t2f_solver e : 0 < Dt ->
    brentq (fun D => f2t_complex s D - Dt) (0.1 * (Dt * simple_factor s)) (10 * (Dt * simple_factor s)) (Err e) ->
    transient_to_final s Dt u0 u1 u2 (Err e)
| t2f_root Dc : 0 < Dt ->
    brentq (fun D => f2t_complex s D - Dt) (0.1 * (Dt * simple_factor s)) (10 * (Dt * simple_factor s)) (Ok Dc) ->
    transient_to_final s Dt u0 u1 u2
      (let Ds := Dt * simple_factor s in
       rbind (get_morphology_type s Ds u0) (fun m0 =>
       rbind (get_morphology_type s Dc u1) (fun m1 => choose_final s Ds Dc m0 m1 u2))).

(** x ** y for x >= 0 and y > 0. *)
Definition ppow (x y : R) : R := if Rle_dec x 0 then 0 else Rpower x y.

(** What projectile_to_transient reads from the scaling, target and projectile. *)
Record impact := {
  K1 : R; mu : R; Ybar : R;
  gravity : R; target_density : R;
  projectile_density : R; vertical_velocity : R }.

(** pivol: montecarlo.py:335-343 (pitwo > 0 so that the base of the last power is positive). *)
Definition pivol (i : impact) (r : R) : R :=
  let c1 := 1 + 0.5 * mu i in
  let c2 := (- 3 * mu i) / (2 + mu i) in
  let pitwo := gravity i * r / (vertical_velocity i) ^ 2 in
  let pithree := Ybar i / (target_density i * (vertical_velocity i) ^ 2) in
  let pifour := target_density i / projectile_density i in
  K1 i * Rpower (pitwo * Rpower pifour (- 1 / 3) + ppow pithree c1) c2.

(** projectile_to_transient: montecarlo.py:319-356.  pivolg and cvolg are computed there
    but not used. *)
Definition projectile_to_transient (i : impact) (d : R) : result R :=
  if Rle_dec d 0 then Err ValueError
  else if Req_EM_T (vertical_velocity i) 0 then Err ZeroDivisionError
  else
    let r := d / 2 in
    let mass := 4 / 3 * PI * r ^ 3 * projectile_density i in
    let cvol := pivol i r * (mass / target_density i) in
    let tr := ppow (3 * cvol / PI) (1 / 3) in
    let td := tr * 2 in
    Ok (if Rlt_dec td d then d else td).

(** transient_to_projectile: montecarlo.py:358-389.  The bracket is positive, so that
    inside it projectile_to_transient fails only for a zero vertical velocity. *)
Definition p2t_value (i : impact) (d : R) : R :=
  match projectile_to_transient i d with Ok x => x | Err _ => 0 end.
Inductive transient_to_projectile (i : impact) (Dt : R) : result R -> Prop :=
| t2p_invalid : Dt <= 0 -> transient_to_projectile i Dt (Err ValueError)
| t2p_velocity : 0 < Dt -> vertical_velocity i = 0 -> transient_to_projectile i Dt (Err ZeroDivisionError)
| t2p_solver r : 0 < Dt -> vertical_velocity i <> 0 ->
    brentq (fun d => p2t_value i d - Dt) (1 / 100000 * Dt) (1.2 * Dt) r -> transient_to_projectile i Dt r.
