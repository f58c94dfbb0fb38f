(** Vocabulary of C115. *)
From Coq Require Import List Bool Arith.
From Verif Require Import Common Parts_model.
Import ListNotations.

(** All parts of a simulation refer to one another: one target, one surface, one counting... *)
Record together (h : heap) (s : sim) : Prop := mkTogether {
  projectile_body : projectile_target h (projectile_ s) = target_ s;
  scaling_body : s_target (scalings h (scaling_ s)) = target_ s;
  scaling_projectile : s_projectile (scalings h (scaling_ s)) = projectile_ s;
  scaling_computed : s_for (scalings h (scaling_ s)) = target_ s;
  surface_body : surface_target h (surface_ s) = target_ s;
  counted_surface : c_surface (countings h (counting_ s)) = surface_ s;
  counted_craters : c_morphology (countings h (counting_ s)) = Some (morphology_ s);
  morphology_surface : m_surface (morphologies h (morphology_ s)) = surface_ s;
  morphology_counting : m_counting (morphologies h (morphology_ s)) = Some (counting_ s);
  morphology_scaling : m_scaling (morphologies h (morphology_ s)) = scaling_ s;
  morphology_production : m_production (morphologies h (morphology_ s)) = production_ s;
  production_craters : production_crater h (production_ s) = Some (morphology_ s) }.

Definition not_given (a : arg) : Prop := match a with Given _ => False | _ => True end.
(** Objects that are given exist already. *)
Definition exists_in (h : heap) (a : arg) : Prop := match a with Given r => r < next h | _ => True end.
Definition all_exist (h : heap) (a : args) : Prop :=
  exists_in h (a_target a) /\ exists_in h (a_production a) /\ exists_in h (a_projectile a) /\ exists_in h (a_scaling a) /\
  exists_in h (a_surface a) /\ exists_in h (a_counting a) /\ exists_in h (a_morphology a).

(** The given objects agree with the simulation [s] they are given to. *)
Definition agree (h : heap) (a : args) (s : sim) : Prop :=
  (forall r, a_projectile a = Given r -> projectile_target h r = target_ s) /\
  (forall r, a_scaling a = Given r -> s_for (scalings h r) = target_ s) /\
  (forall r, a_surface a = Given r -> surface_target h r = target_ s) /\
  (forall r, a_counting a = Given r -> c_surface (countings h r) = surface_ s) /\
  (forall r, a_production a = Given r ->
     production_crater h r = None \/ production_crater h r = Some (morphology_ s)) /\
  (forall r, a_morphology a = Given r ->
     m_surface (morphologies h r) = surface_ s /\ m_counting (morphologies h r) = Some (counting_ s) /\
     m_scaling (morphologies h r) = scaling_ s /\ m_production (morphologies h r) = production_ s /\
     a_counting a = Given (counting_ s) /\ c_morphology (countings h (counting_ s)) = Some r).

(** No object that existed in [h] is changed in [h']. *)
Definition untouched (h h' : heap) : Prop := forall r, r < next h ->
  target_body h' r = target_body h r /\ projectile_target h' r = projectile_target h r /\
  scalings h' r = scalings h r /\ surface_target h' r = surface_target h r /\ countings h' r = countings h r /\
  morphologies h' r = morphologies h r /\ production_crater h' r = production_crater h r.

(** A program that has not made anything yet, and the arguments of Simulation(target=...). *)
Definition nothing : heap :=
  mkHeap 0 (fun _ => TheMoon) (fun _ => 0) (fun _ => mkScaling 0 0 0) (fun _ => 0) (fun _ => mkCounting 0 None)
    (fun _ => mkMorphology 0 None 0 0 true) (fun _ => None) (fun _ => None).
Definition of_body (b : body) : args := mkArgs b Named New New New New New New None.
