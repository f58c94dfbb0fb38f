(** Model of the references between the components of a simulation: which objects are made, which
    are shared, and what an assignment changes (simulation.py: __init__, component setters;
    the maker methods and constructors of the components).
    An object is a number; each kind of component has its own numbers.  Component names and
    missing arguments both make a new object.  Only references are modelled, and for a scaling
    the body its transition diameters were computed for. *)
From Coq Require Import List Bool Arith.
From Verif Require Import Common.
Import ListNotations.

Definition ref := nat.
Inductive body := TheMoon | Other (n : nat).

(** What an argument gives: nothing, a name, or an object. *)
Inductive arg := New | Named | Given (r : ref).

Record scaling := mkScaling { s_target : ref; s_projectile : ref; s_for : ref }.
Record counting := mkCounting { c_surface : ref; c_morphology : option ref }.
Record morphology := mkMorphology {
  m_surface : ref; m_counting : option ref; m_scaling : ref; m_production : ref; m_do_counting : bool }.

Record heap := mkHeap {
  next : nat;                          (* objects made so far have smaller numbers *)
  target_body : ref -> body;
  projectile_target : ref -> ref;
  scalings : ref -> scaling;
  surface_target : ref -> ref;
  countings : ref -> counting;
  morphologies : ref -> morphology;
  production_crater : ref -> option ref;  (* production._Crater: the morphology it belongs to *)
  production_target : ref -> option ref }. (* the target it was chosen for *)

Definition upd {A} (f : ref -> A) (r : ref) (x : A) : ref -> A := fun q => if q =? r then x else f q.

(** Storing into an object; a new object takes the next number. *)
Definition tick (h : heap) : heap :=
  mkHeap (S (next h)) (target_body h) (projectile_target h) (scalings h) (surface_target h) (countings h)
    (morphologies h) (production_crater h) (production_target h).
Definition put_target r x h :=
  mkHeap (next h) (upd (target_body h) r x) (projectile_target h) (scalings h) (surface_target h) (countings h)
    (morphologies h) (production_crater h) (production_target h).
Definition put_projectile r x h :=
  mkHeap (next h) (target_body h) (upd (projectile_target h) r x) (scalings h) (surface_target h) (countings h)
    (morphologies h) (production_crater h) (production_target h).
Definition put_scaling r x h :=
  mkHeap (next h) (target_body h) (projectile_target h) (upd (scalings h) r x) (surface_target h) (countings h)
    (morphologies h) (production_crater h) (production_target h).
Definition put_surface r x h :=
  mkHeap (next h) (target_body h) (projectile_target h) (scalings h) (upd (surface_target h) r x) (countings h)
    (morphologies h) (production_crater h) (production_target h).
Definition put_counting r x h :=
  mkHeap (next h) (target_body h) (projectile_target h) (scalings h) (surface_target h) (upd (countings h) r x)
    (morphologies h) (production_crater h) (production_target h).
Definition put_morphology r x h :=
  mkHeap (next h) (target_body h) (projectile_target h) (scalings h) (surface_target h) (countings h)
    (upd (morphologies h) r x) (production_crater h) (production_target h).
Definition put_production r c t h :=
  mkHeap (next h) (target_body h) (projectile_target h) (scalings h) (surface_target h) (countings h)
    (morphologies h) (upd (production_crater h) r c) (upd (production_target h) r t).

(** target/__init__.py:204-236: an object is returned as it is; no name means the Moon *)
Definition make_target (b : body) (a : arg) (h : heap) : heap * ref :=
  match a with
  | Given r => (h, r)
  | _ => (tick (put_target (next h) b h), next h)
  end.

(** projectile/__init__.py:233-276 and base.py:855-866: an object is returned as it is, its target
    is not changed (no velocity, angle, direction, location or density given) *)
Definition make_projectile (a : arg) (t : ref) (h : heap) : heap * ref :=
  match a with
  | Given r => (h, r)
  | _ => (tick (put_projectile (next h) t h), next h)
  end.

(** production/__init__.py:156-191: an object is returned as it is *)
Definition make_production (a : arg) (t : ref) (h : heap) : heap * ref :=
  match a with
  | Given r => (h, r)
  | _ => (tick (put_production (next h) None (Some t) h), next h)
  end.

(** scaling/__init__.py:54-60 (constructor), montecarlo.py:102-136 (the transition diameters are
    computed for the target), 111-126 maker: the projectile and target are then assigned, to an
    object that was given as well; nothing is recomputed (141-162) *)
Definition make_scaling (a : arg) (t p : ref) (h : heap) : heap * ref :=
  match a with
  | Given r => (put_scaling r (mkScaling t p (s_for (scalings h r))) h, r)
  | _ => (tick (put_scaling (next h) (mkScaling t p t) h), next h)
  end.

(** surface/__init__.py:135, 179-191 *)
Definition make_surface (a : arg) (t : ref) (h : heap) : heap * ref :=
  match a with
  | Given r => (h, r)
  | _ => (tick (put_surface (next h) t h), next h)
  end.

(** counting/__init__.py:69-81, 131-142 *)
Definition make_counting (a : arg) (s : ref) (h : heap) : heap * ref :=
  match a with
  | Given r => (h, r)
  | _ => (tick (put_counting (next h) (mkCounting s None) h), next h)
  end.

(** counting/__init__.py:1574-1580: the morphology of a counting object *)
Definition set_c_morphology (c m : ref) (h : heap) : heap :=
  put_counting c (mkCounting (c_surface (countings h c)) (Some m)) h.

(** morphology/__init__.py:829-845: assigning the counting object of a morphology; counting is
    switched on, or off for None *)
Definition set_m_counting (m : ref) (c : option ref) (h : heap) : heap :=
  let x := morphologies h m in
  match c with
  | Some c => set_c_morphology c m
      (put_morphology m (mkMorphology (m_surface x) (Some c) (m_scaling x) (m_production x) true) h)
  | None => put_morphology m (mkMorphology (m_surface x) None (m_scaling x) (m_production x) false) h
  end.

(** morphology/__init__.py:424-428: the do_counting argument, when given *)
Definition set_do (m : ref) (d : option bool) (h : heap) : heap :=
  match d with
  | None => h
  | Some b => let x := morphologies h m in
      put_morphology m (mkMorphology (m_surface x) (m_counting x) (m_scaling x) (m_production x) b) h
  end.

(** morphology/__init__.py:387-434: the morphology of a simulation, every component given as an object *)
Definition make_morphology (a : arg) (s c sc p : ref) (d : option bool) (h : heap) : heap * ref :=
  match a with
  | Given r => (h, r)
  | _ =>
      let m := next h in
      let h1 := tick (put_morphology m (mkMorphology s None sc p true) h) in
      (set_do m d (set_m_counting m (Some c) h1), m)
  end.

(** morphology/__init__.py:387-434: Morphology.maker(surface=..., counting=..., do_counting=...), without
    a scaling, a production or a target.  The surface is that of a counting object given alone; a
    counting that is not given is made (417); the scaling is made for the default target (419) and
    the production for that of the surface (431-433). *)
Definition morphology_alone (surface counting : arg) (d : option bool) (h : heap) : heap * ref :=
  let '(h1, s) := match surface, counting with
                  | New, Given c => (h, c_surface (countings h c))
                  | Given s, _ => (h, s)
                  | _, _ => let '(h1, t) := make_target TheMoon New h in make_surface New t h1
                  end in
  let '(h2, c) := make_counting counting s h1 in
  let '(h3, t) := make_target TheMoon New h2 in
  let '(h4, pj) := make_projectile New t h3 in
  let '(h5, sc) := make_scaling New t pj h4 in
  let '(h6, p) := make_production New (surface_target h5 s) h5 in
  make_morphology New s c sc p d h6.

Record sim := mkSim {
  target_ : ref; production_ : ref; projectile_ : ref; scaling_ : ref; surface_ : ref; counting_ : ref;
  morphology_ : ref }.

Record args := mkArgs {
  a_body : body; a_target : arg; a_production : arg; a_projectile : arg; a_scaling : arg; a_surface : arg;
  a_counting : arg; a_morphology : arg; a_do : option bool }.

(** simulation.py:168-236 __init__ *)
Definition simulation (a : args) (h : heap) : heap * sim :=
  let '(h1, t) := make_target (a_body a) (a_target a) h in
  let '(h2, p) := make_production (a_production a) t h1 in
  let '(h3, pj) := make_projectile (a_projectile a) t h2 in
  let '(h4, sc) := make_scaling (a_scaling a) t pj h3 in
  let '(h5, s) := make_surface (a_surface a) t h4 in
  let '(h6, c) := make_counting (a_counting a) s h5 in
  let '(h7, m) := make_morphology (a_morphology a) s c sc p (a_do a) h6 in
  let h8 := match production_crater h7 p with
            | None => put_production p (Some m) (production_target h7 p) h7
            | Some _ => h7
            end in
  (h8, mkSim t p pj sc s c m).

(** simulation.py:1451-1539: assigning a component to a simulation *)
Inductive part := PTarget | PProduction | PProjectile | PScaling | PSurface | PCounting | PMorphology.
Definition get (k : part) (s : sim) : ref :=
  match k with
  | PTarget => target_ s | PProduction => production_ s | PProjectile => projectile_ s | PScaling => scaling_ s
  | PSurface => surface_ s | PCounting => counting_ s | PMorphology => morphology_ s
  end.
Definition assign (k : part) (r : ref) (s : sim) : sim :=
  match s with
  | mkSim t p pj sc su c m =>
      match k with
      | PTarget => mkSim r p pj sc su c m
      | PProduction => mkSim t r pj sc su c m
      | PProjectile => mkSim t p r sc su c m
      | PScaling => mkSim t p pj r su c m
      | PSurface => mkSim t p pj sc r c m
      | PCounting => mkSim t p pj sc su r m
      | PMorphology => mkSim t p pj sc su c r
      end
  end.

(** Where things happen.  simulation.py:865, morphology/__init__.py:603-621: craters are formed on the
    surface of the morphology and recorded in its counting; 185: sized by its scaling. *)
Definition formed_on (h : heap) (s : sim) : ref := m_surface (morphologies h (morphology_ s)).
(** morphology/__init__.py:614: the list of emplaced craters is that of the counting, whether or not
    craters are counted *)
Definition listed_in (h : heap) (s : sim) : result ref :=
  match m_counting (morphologies h (morphology_ s)) with Some c => Ok c | None => Err AttributeError end.
Definition recorded_in (h : heap) (s : sim) : option ref :=
  let m := morphologies h (morphology_ s) in if m_do_counting m then m_counting m else None.
Definition sized_for (h : heap) (s : sim) : ref := s_target (scalings h (m_scaling (morphologies h (morphology_ s)))).
(** simulation.py:876-879: what is saved *)
Definition saved_surface (s : sim) : ref := surface_ s.
Definition saved_counts (s : sim) : ref := counting_ s.
