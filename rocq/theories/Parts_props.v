(** C115: the parts of a simulation belong together. *)
From Coq Require Import List Bool Arith Lia.
From Verif Require Import Common Parts_model Parts_spec Parts_proofs.
Import ListNotations.

(** A simulation whose components are named or left out, for any target, has parts that all refer
    to one another, whatever was made before. *)
Theorem C115_new : forall a h, not_given (a_production a) -> not_given (a_projectile a) -> not_given (a_scaling a) ->
  not_given (a_surface a) -> not_given (a_counting a) -> not_given (a_morphology a) ->
  let '(h', s) := simulation a h in together h' s.
Proof. exact all_new. Qed.
Print Assumptions C115_new.
Example C115_new_ex : not_given (a_surface (of_body (Other 4))) /\
  target_body (fst (simulation (of_body (Other 4)) nothing)) (target_ (snd (simulation (of_body (Other 4)) nothing))) = Other 4.
Proof. split; [exact I | reflexivity]. Qed.

(** It does not touch the objects that existed: simulations made from names are independent. *)
Theorem C115_separate : forall a h, not_given (a_production a) -> not_given (a_projectile a) -> not_given (a_scaling a) ->
  not_given (a_surface a) -> not_given (a_counting a) -> not_given (a_morphology a) ->
  untouched h (fst (simulation a h)).
Proof. exact separate. Qed.
Print Assumptions C115_separate.
Example C115_separate_ex : let h := fst (simulation (of_body TheMoon) nothing) in
  next h = 7 /\ morphology_ (snd (simulation (of_body (Other 1)) h)) = 13.
Proof. vm_compute. split; reflexivity. Qed.

(** When objects are given, the parts refer to one another exactly when the given objects agree
    with the simulation already. *)
Theorem C115_given_exact : forall a h, let '(h', s) := simulation a h in together h' s <-> agree h a s.
Proof. exact exact. Qed.
Print Assumptions C115_given_exact.
Example C115_given_exact_ex : let '(h, m) := simulation (of_body TheMoon) nothing in
  let a := mkArgs TheMoon (Given (target_ m)) New (Given (projectile_ m)) New (Given (surface_ m)) New New None in
  agree h a (snd (simulation a h)).
Proof. vm_compute. repeat split; intros; try discriminate; match goal with E : _ = _ |- _ => injection E as <- end; reflexivity. Qed.

(** A surface or projectile made for another body, a counting object made for another surface and
    a morphology made alone are accepted and left as they are. *)
Theorem C115_given_refuted : exists h s, surface_target h s <> 0 /\
  let '(h', m) := simulation (mkArgs TheMoon (Given 0) New New New (Given s) New New None) h in
  surface_target h' (surface_ m) <> target_ m /\ ~ together h' m.
Proof.
  exists (fst (simulation (of_body (Other 1)) (fst (simulation (of_body TheMoon) nothing)))), 11.
  split; [discriminate|]. split; [discriminate|]. intros [_ _ _ _ T _ _ _ _ _ _ _]. discriminate T.
Qed.
Print Assumptions C115_given_refuted.
Example C115_given_refuted_ex :
  surface_ (snd (simulation (of_body (Other 1)) (fst (simulation (of_body TheMoon) nothing)))) = 11.
Proof. reflexivity. Qed.

(** A scaling that is given takes the target and projectile of the simulation, but keeps the
    transition diameters computed for its old target; the simulation it came from now uses the
    body of the new one. *)
Theorem C115_scaling_refuted : forall a h r, a_scaling a = Given r -> let '(h', s) := simulation a h in
  s_target (scalings h' r) = target_ s /\ s_projectile (scalings h' r) = projectile_ s /\
  s_for (scalings h' r) = s_for (scalings h r).
Proof. exact taken_scaling. Qed.
Print Assumptions C115_scaling_refuted.
Example C115_scaling_refuted_ex : let '(h, m) := simulation (of_body TheMoon) nothing in
  let '(h', m') := simulation (mkArgs (Other 1) Named New New (Given (scaling_ m)) New New New None) h in
  target_body h' (sized_for h' m) = Other 1 /\ s_for (scalings h' (scaling_ m')) = target_ m /\
  target_body h' (target_ m) = TheMoon /\ s_target (scalings h' (scaling_ m)) <> target_ m.
Proof. vm_compute. repeat split; discriminate. Qed.

(** A counting object that is given keeps its own surface and becomes that of the new morphology. *)
Theorem C115_counting_refuted : forall a h r, a_counting a = Given r -> not_given (a_morphology a) ->
  let '(h', s) := simulation a h in
  c_morphology (countings h' r) = Some (morphology_ s) /\ c_surface (countings h' r) = c_surface (countings h r).
Proof. exact taken_counting. Qed.
Print Assumptions C115_counting_refuted.
Example C115_counting_refuted_ex : let '(h, m) := simulation (of_body TheMoon) nothing in
  let '(h', m') := simulation (mkArgs TheMoon New New New New New (Given (counting_ m)) New None) h in
  c_surface (countings h' (counting_ m')) = surface_ m /\ surface_ m <> surface_ m' /\
  formed_on h' m' = surface_ m' /\ m_counting (morphologies h' (morphology_ m)) = Some (counting_ m').
Proof. vm_compute. repeat split; discriminate. Qed.

(** A production function that is used in a second simulation goes on making the craters of the
    first one. *)
Theorem C115_production_refuted : forall a h r m, a_production a = Given r -> production_crater h r = Some m ->
  production_crater (fst (simulation a h)) r = Some m.
Proof. exact kept_production. Qed.
Print Assumptions C115_production_refuted.
Example C115_production_refuted_ex : let '(h, m) := simulation (of_body TheMoon) nothing in
  let '(h', m') := simulation (mkArgs TheMoon New (Given (production_ m)) New New New New New None) h in
  production_ m' = production_ m /\ production_crater h' (production_ m') = Some (morphology_ m) /\ morphology_ m <> morphology_ m'.
Proof. vm_compute. repeat split; discriminate. Qed.

(** While the parts belong together, craters are formed on the surface that is saved, listed and
    counted in the counting object that is saved, and sized for the target. *)
Theorem C115_effects : forall h s, together h s ->
  formed_on h s = saved_surface s /\ listed_in h s = Ok (saved_counts s) /\ sized_for h s = target_ s /\
  (recorded_in h s = Some (saved_counts s) \/ recorded_in h s = None).
Proof. exact effects. Qed.
Print Assumptions C115_effects.
Example C115_effects_ex : let '(h, s) := simulation (of_body (Other 2)) nothing in together h s.
Proof. exact (all_new (of_body (Other 2)) nothing I I I I I I). Qed.

(** Assigning any other component to a simulation leaves its other parts with the old one. *)
Theorem C115_assign_refuted : forall k r s h, together h s -> r <> get k s -> ~ together h (assign k r s).
Proof. exact assigned. Qed.
Print Assumptions C115_assign_refuted.
Example C115_assign_refuted_ex : let '(h, s) := simulation (of_body TheMoon) nothing in together h s /\ 9 <> get PSurface s.
Proof. split; [exact (all_new (of_body TheMoon) nothing I I I I I I) | discriminate]. Qed.

(** After assigning a surface, craters are formed on the old one and the new one is saved; after
    assigning a counting object they are listed in the old one and the new one is saved; after
    assigning a target or a scaling, craters are sized as before. *)
Theorem C115_assign_effects_refuted : forall h s r, together h s ->
  (r <> surface_ s -> formed_on h (assign PSurface r s) <> saved_surface (assign PSurface r s)) /\
  (r <> counting_ s -> listed_in h (assign PCounting r s) <> Ok (saved_counts (assign PCounting r s))) /\
  (r <> target_ s -> sized_for h (assign PTarget r s) <> target_ (assign PTarget r s)) /\
  (sized_for h (assign PScaling r s) = sized_for h s).
Proof. exact replaced. Qed.
Print Assumptions C115_assign_effects_refuted.
Example C115_assign_effects_refuted_ex : let '(h, s) := simulation (of_body TheMoon) nothing in
  surface_ s = 4 /\ formed_on h (assign PSurface 9 s) = 4 /\ saved_surface (assign PSurface 9 s) = 9.
Proof. vm_compute. repeat split. Qed.

(** The do_counting argument decides whether the craters of a new simulation are counted; they are
    listed either way. *)
Theorem C115_do_counting : forall a h, not_given (a_morphology a) -> let '(h', s) := simulation a h in
  recorded_in h' s = match a_do a with Some false => None | _ => Some (counting_ s) end /\
  listed_in h' s = Ok (counting_ s).
Proof. exact counts. Qed.
Print Assumptions C115_do_counting.
Example C115_do_counting_ex : let '(h, s) := simulation (mkArgs TheMoon New New New New New New New (Some false)) nothing in
  recorded_in h s = None /\ listed_in h s = Ok (counting_ s).
Proof. vm_compute. split; reflexivity. Qed.

(** Assigning a counting object to a morphology switches counting on, also where it was switched
    off; assigning None switches it off, and then no crater can be formed: AttributeError. *)
Theorem C115_switch_refuted : forall m c h,
  m_do_counting (morphologies (set_m_counting m (Some c) h) m) = true /\
  m_counting (morphologies (set_m_counting m (Some c) h) m) = Some c /\
  c_morphology (countings (set_m_counting m (Some c) h) c) = Some m /\
  m_do_counting (morphologies (set_m_counting m None h) m) = false /\
  (forall s, morphology_ s = m -> listed_in (set_m_counting m None h) s = Err AttributeError).
Proof. exact switched. Qed.
Print Assumptions C115_switch_refuted.
Example C115_switch_refuted_ex :
  let '(h, s) := simulation (mkArgs TheMoon New New New New New New New (Some false)) nothing in
  recorded_in h s = None /\ recorded_in (set_m_counting (morphology_ s) (Some (counting_ s)) h) s = Some (counting_ s).
Proof. vm_compute. split; reflexivity. Qed.

(** A morphology made alone has the surface it is given, or that of the counting object it is
    given; it has a counting object that refers back to it, and counts even when none is given,
    although it is documented not to; its scaling is for a Moon of its own, whatever the body of
    the surface. *)
Theorem C115_alone_partial : forall su c d h, exists_in h su -> exists_in h c ->
  (forall r, c = Given r -> c_surface (countings h r) < next h) ->
  (forall r, r < next h -> surface_target h r < next h) ->
  let '(h', m) := morphology_alone su c d h in
  let x := morphologies h' m in
  target_body h' (s_target (scalings h' (m_scaling x))) = TheMoon /\
  s_target (scalings h' (m_scaling x)) >= next h /\
  m_do_counting x = (match d with Some b => b | None => true end) /\
  (exists q, m_counting x = Some q /\ c_morphology (countings h' q) = Some m) /\
  (forall s, su = Given s -> m_surface x = s /\ surface_target h' s = surface_target h s /\ surface_target h s < next h) /\
  (forall r, su = New -> c = Given r -> m_surface x = c_surface (countings h r)) /\
  (forall r, c = Given r -> m_counting x = Some r /\ c_surface (countings h' r) = c_surface (countings h r)).
Proof. exact alone. Qed.
Print Assumptions C115_alone_partial.
Example C115_alone_partial_ex : let '(h, t) := make_target (Other 4) Named nothing in let '(h, s) := make_surface Named t h in
  exists_in h (Given s) /\ (forall r, r < next h -> surface_target h r < next h).
Proof. cbn. split; [lia|]. intros r L. unfold upd. destruct (r =? 1); lia. Qed.

(** The scaling of a morphology made for a surface of another body is lunar. *)
Theorem C115_alone_refuted : exists h s, target_body h (surface_target h s) = Other 4 /\
  let '(h', m) := morphology_alone (Given s) New None h in
  m_surface (morphologies h' m) = s /\ target_body h' (surface_target h' s) = Other 4 /\
  target_body h' (s_target (scalings h' (m_scaling (morphologies h' m)))) = TheMoon /\
  m_do_counting (morphologies h' m) = true.
Proof.
  exists (fst (make_surface Named 0 (fst (make_target (Other 4) Named nothing)))), 1. repeat split.
Qed.
Print Assumptions C115_alone_refuted.
