(** C84: what a projectile is made of. *)
From Coq Require Import Reals List String Bool Lra.
From Verif Require Import Common Proj_model Proj_spec Proj_proofs Proj_cases Proj_wit.
Import ListNotations.
Open Scope R_scope.

(** A projectile of a named population can be made exactly when: the population is generic and
    has the mean velocity (sampling) or the velocity (not sampling), or the population is
    asteroids or comets and, when not sampling, the angle, direction and location are given; and
    no given value is negative; and the given location is valid. *)
Theorem C84_accepts : forall normalize pop a t d,
  succeeds (maker normalize (ByName pop) a t d) <-> acceptable normalize pop a.
Proof. exact accepts. Qed.
Print Assumptions C84_accepts.
Example C84_accepts_ex : acceptable ok_location Asteroids (no_args true) /\ ~ acceptable ok_location Generic (no_args true).
Proof.
  split.
  - repeat split; try (intros x E; discriminate E).
  - intros [[x E] _]. discriminate.
Qed.

(** Every argument that is given is honoured, whether or not the population samples. *)
Theorem C84_given : forall normalize pop a t d p, maker normalize (ByName pop) a t d = Ok p ->
  p_pop p = pop /\ p_sample p = a_sample a /\ p_target p = t /\
  (forall v, a_velocity a = Some v -> p_velocity p = Some v) /\
  (forall v, a_angle a = Some v -> p_angle p = Some v) /\
  (forall v, a_direction a = Some v -> p_direction p = Some v) /\
  (forall v, a_density a = Some v -> p_density p = Some v) /\
  (forall l, a_location a = Some l -> exists l', normalize l = Ok l' /\ p_location p = Some l').
Proof. exact given_args. Qed.
Print Assumptions C84_given.
Example C84_given_ex : exists p,
  maker ok_location (ByName Comets) (mkArgs true None (Some 9000) None None (Some 12) None) the_moon some_draws = Ok p /\
  p_velocity p = Some 9000 /\ p_direction p = Some 12 /\ p_angle p = Some 45.
Proof.
  eexists. split.
  - cbn. unfold new_projectile; cbn. unfold non_negative.
    repeat match goal with |- context [Rlt_dec ?x 0] => destruct (Rlt_dec x 0); [lra|cbn] end. reflexivity.
  - repeat split.
Qed.

(** When the population samples, every argument that is not given is drawn, and the velocity is
    drawn for the mean velocity of the projectile and the escape velocity of its target. *)
Theorem C84_sampled : forall normalize pop a t d p, maker normalize (ByName pop) a t d = Ok p -> a_sample a = true ->
  (a_velocity a = None -> exists m, p_mean p = Some m /\ p_velocity p = Some (d_velocity d m (b_escape t))) /\
  (a_angle a = None -> p_angle p = Some (d_angle d)) /\
  (a_direction a = None -> p_direction p = Some (d_direction d)) /\
  (a_location a = None -> p_location p = Some (d_location d)).
Proof. exact sampled. Qed.
Print Assumptions C84_sampled.
Example C84_sampled_ex : exists p, maker ok_location (ByName Asteroids) (no_args true) mars some_draws = Ok p /\ p_velocity p = Some 10700.
Proof. eexists. split; [lazy; reflexivity|reflexivity]. Qed.

(** When it does not sample, a velocity that is not given is the mean velocity of the catalogue;
    the defaults 90 degrees, 0 degrees and (0, 0) are those of the generic population only. *)
Theorem C84_fixed : forall normalize pop a t d p, maker normalize (ByName pop) a t d = Ok p -> a_sample a = false ->
  (a_velocity a = None -> pop <> Generic /\ p_velocity p = p_mean p /\ given (p_velocity p)) /\
  (a_angle a = None -> pop = Generic /\ p_angle p = Some 90) /\
  (a_direction a = None -> pop = Generic /\ p_direction p = Some 0) /\
  (a_location a = None -> pop = Generic /\ p_location p = Some (0, 0)).
Proof. exact fixed. Qed.
Print Assumptions C84_fixed.
Example C84_fixed_ex : exists p, maker ok_location (ByName Generic) (mkArgs false None (Some 9000) None None None None) mars some_draws = Ok p.
Proof.
  cbn. unfold new_projectile; cbn. unfold non_negative.
  repeat match goal with |- context [Rlt_dec ?x 0] => destruct (Rlt_dec x 0); [lra|cbn] end. eexists; reflexivity.
Qed.

(** The density that is not given is 2250 (asteroids), 500 (comets) or 1000 kg/m3 (generic). *)
Theorem C84_density : forall normalize pop a t d p, maker normalize (ByName pop) a t d = Ok p -> a_density a = None ->
  p_density p = Some (match pop with Asteroids => 2250 | Comets => 500 | Generic => 1000 end).
Proof. exact density_default. Qed.
Print Assumptions C84_density.
Example C84_density_ex : exists p, maker ok_location (ByName Asteroids) (no_args true) mars some_draws = Ok p.
Proof. eexists. lazy; reflexivity. Qed.

(** The mean velocity is the entry of the catalogue of the population for the target; for a
    target that is not there it is that of the Moon (asteroids) or of a Kuiper belt object
    (comets); for the generic population it is the argument. *)
Theorem C84_mean : forall normalize pop a t d p, maker normalize (ByName pop) a t d = Ok p ->
  (pop = Asteroids ->
     (forall v, In (b_name t, v) asteroid_table -> p_mean p = Some v) /\
     (~ In (b_name t) (map fst asteroid_table) -> exists v, In ("Moon"%string, v) asteroid_table /\ p_mean p = Some v)) /\
  (pop = Comets ->
     (forall v, In (b_name t, v) comet_table -> p_mean p = Some v) /\
     (~ In (b_name t) (map fst comet_table) -> exists v, In ("KBO"%string, v) comet_table /\ p_mean p = Some v)) /\
  (pop = Generic -> p_mean p = a_mean a).
Proof. exact mean_catalogue. Qed.
Print Assumptions C84_mean.
Example C84_mean_ex : exists p, maker ok_location (ByName Comets) (no_args true) (mkBody "Arrokoth" 1) some_draws = Ok p /\ p_mean p = Some 1800.
Proof. eexists. split; [lazy; reflexivity|reflexivity]. Qed.

(** With no population named, a target of the asteroid catalogue gets asteroids, another target
    of the comet catalogue gets comets, and any other a generic population whose mean velocity
    is the argument or 20 km/s. *)
Theorem C84_default : forall normalize a t d,
  (In (b_name t) (map fst asteroid_table) -> maker normalize ByDefault a t d = maker normalize (ByName Asteroids) a t d) /\
  (~ In (b_name t) (map fst asteroid_table) -> In (b_name t) (map fst comet_table) ->
     maker normalize ByDefault a t d = maker normalize (ByName Comets) a t d) /\
  (~ In (b_name t) (map fst asteroid_table) -> ~ In (b_name t) (map fst comet_table) ->
     forall p, maker normalize ByDefault a t d = Ok p ->
       p_pop p = Generic /\ (p_mean p = a_mean a \/ (a_mean a = None /\ p_mean p = Some 20000))).
Proof. exact by_default. Qed.
Print Assumptions C84_default.
Example C84_default_ex : exists p, maker ok_location ByDefault (no_args true) (mkBody "Arrokoth" 1) some_draws = Ok p /\ p_mean p = Some 20000.
Proof. eexists. split; [lazy; reflexivity|reflexivity]. Qed.

(** Every projectile that a program can hold, after any sequence of makers, renewals, copies and
    setters, has a velocity, an angle, a direction and a density, none of them negative, and a
    location. *)
Theorem C84_complete : forall normalize p, reachable normalize p -> complete p.
Proof. exact reachable_complete. Qed.
Print Assumptions C84_complete.
Example C84_complete_ex : reachable ok_location hit /\ p_velocity hit = Some 5000.
Proof. split; [exact hit_reachable|reflexivity]. Qed.

(** A new projectile keeps the population, the target, the flag and the density.  If it samples
    it draws the rest anew.  If it does not, it keeps the angle, direction and location; the
    velocity is kept by the generic population only. *)
Theorem C84_renewed : forall normalize p a d p', complete p -> new_projectile normalize a d p = Ok p' ->
  p_pop p' = p_pop p /\ p_sample p' = p_sample p /\ p_target p' = p_target p /\
  (a_density a = None -> p_density p' = p_density p) /\
  (p_sample p = true -> a_angle a = None -> a_direction a = None -> a_location a = None ->
     p_angle p' = Some (d_angle d) /\ p_direction p' = Some (d_direction d) /\ p_location p' = Some (d_location d)) /\
  (p_sample p = true -> a_velocity a = None -> exists m, p_mean p' = Some m /\ p_velocity p' = Some (d_velocity d m (b_escape (p_target p)))) /\
  (p_sample p = false -> a_angle a = None -> a_direction a = None -> a_location a = None ->
     p_angle p' = p_angle p /\ p_direction p' = p_direction p /\ p_location p' = p_location p) /\
  (p_sample p = false -> a_velocity a = None -> p_velocity p' = if (match p_pop p with Generic => true | _ => false end) then p_velocity p else p_mean p').
Proof. exact renewed. Qed.
Print Assumptions C84_renewed.
Example C84_renewed_ex : exists p', new_projectile ok_location (no_args true) some_draws hit = Ok p' /\ p_velocity p' = Some 22100.
Proof. eexists. split; [lazy; reflexivity|reflexivity]. Qed.

(** A copy of a projectile should be equal to it.  It is for the generic population; for the
    others it is equal but for the two velocities, which become that of the catalogue. *)
Theorem C84_copy_partial : forall p, complete p ->
  (p_pop p = Generic -> (p_sample p = true -> given (p_mean p)) -> copy p = Ok p) /\
  (p_pop p <> Generic -> exists m,
     m = (match p_pop p with Asteroids => asteroid_mean (p_target p) | _ => comet_mean (p_target p) end) /\
     copy p = Ok (with_mean (Some m) (with_velocity (Some m) p))).
Proof. exact (fun p C => conj (fun E M => copy_generic p E C M) (fun E => copy_catalogue p E C)). Qed.
Print Assumptions C84_copy_partial.
Example C84_copy_partial_ex : complete hit.
Proof. exact (reachable_complete ok_location hit hit_reachable). Qed.

(** Copying an asteroid or a comet loses its velocity: copy.copy of a projectile made with a
    velocity of 5 km/s has the mean velocity of the catalogue, 22.1 km/s. *)
Theorem C84_copy_refuted : exists p q,
  reachable ok_location p /\ copy p = Ok q /\ p_velocity p = Some 5000 /\ p_velocity q = Some 22100.
Proof. exact copy_lost. Qed.
Print Assumptions C84_copy_refuted.

(** The documented defaults are not there: asteroids and comets with sample=False and nothing
    else raise a ValueError (documented: 90 degrees, 0 degrees and (0, 0)); so do the generic
    population with no mean velocity, and with sample=False and only a mean velocity
    (documented: the velocity will be the mean velocity). *)
Theorem C84_defaults_refuted : forall normalize t d m,
  maker normalize (ByName Asteroids) (no_args false) t d = Err ValueError /\
  maker normalize (ByName Comets) (no_args false) t d = Err ValueError /\
  maker normalize (ByName Generic) (no_args true) t d = Err ValueError /\
  maker normalize (ByName Generic) (mkArgs false (Some m) None None None None None) t d = Err ValueError.
Proof. exact defaults_missing. Qed.
Print Assumptions C84_defaults_refuted.

(** The argument mean_velocity is ignored, with no warning, for asteroids and comets. *)
Theorem C84_mean_ignored_refuted : exists p,
  maker ok_location (ByName Asteroids) (mkArgs true (Some 15000) None None None None None) the_moon some_draws = Ok p /\
  p_mean p = Some 22100.
Proof. exact mean_ignored_ex. Qed.
Print Assumptions C84_mean_ignored_refuted.

(** An existing projectile given to the maker with none of the five impact arguments is returned
    as it is: the arguments sample, mean_velocity and target are ignored. *)
Theorem C84_object : forall normalize p s m t d,
  maker normalize (ByObject p) (mkArgs s m None None None None None) t d = Ok p.
Proof. exact object_as_is. Qed.
Print Assumptions C84_object.
Example C84_object_ex : maker ok_location (ByObject hit) (mkArgs true (Some 1) None None None None None) mars some_draws = Ok hit.
Proof. reflexivity. Qed.

(** An existing projectile given to the maker with impact arguments becomes one that has every
    value that was given. *)
Theorem C84_object_given : forall normalize p a t d p', maker normalize (ByObject p) a t d = Ok p' ->
  (forall v, a_velocity a = Some v -> p_velocity p' = Some v) /\
  (forall v, a_angle a = Some v -> p_angle p' = Some v) /\
  (forall v, a_direction a = Some v -> p_direction p' = Some v) /\
  (forall v, a_density a = Some v -> p_density p' = Some v) /\
  (forall l, a_location a = Some l -> exists l', normalize l = Ok l' /\ p_location p' = Some l').
Proof. exact object_given. Qed.
Print Assumptions C84_object_given.
Example C84_object_given_ex : exists p, maker ok_location (ByObject hit) (mkArgs true None None (Some 2700) None None None) the_moon some_draws = Ok p /\ p_density p = Some 2700.
Proof.
  eexists. split.
  - cbn. unfold new_projectile; cbn. unfold non_negative.
    repeat match goal with |- context [Rlt_dec ?x 0] => destruct (Rlt_dec x 0); [lra|cbn] end. reflexivity.
  - reflexivity.
Qed.

(** Setting the target of a projectile leaves the mean velocity of the old target: an asteroid
    moved from the Moon to Mars keeps 22.1 km/s instead of 10.7 km/s. *)
Theorem C84_target_refuted : exists p q,
  reachable ok_location p /\ set ok_location (SetTarget mars) p = Ok q /\
  p_target q = mars /\ p_mean q = Some 22100 /\ In ("Mars"%string, 10700) asteroid_table.
Proof. exact target_stale. Qed.
Print Assumptions C84_target_refuted.

(** A scaling made for a target has the default projectile of that target, or the projectile
    object that it was given. *)
Theorem C84_scaling_partial : forall normalize moon t d d' p,
  (scaling_projectile normalize moon ByDefault t d d' = Ok p -> maker normalize ByDefault (no_args true) t d = Ok p) /\
  (forall q, scaling_projectile normalize moon (ByObject q) t d d' = Ok p -> p = q).
Proof. exact scaling_ok. Qed.
Print Assumptions C84_scaling_partial.
Example C84_scaling_partial_ex : exists p, scaling_projectile ok_location the_moon ByDefault mars some_draws some_draws = Ok p /\ p_mean p = Some 10700.
Proof. eexists. split; [lazy; reflexivity|reflexivity]. Qed.

(** But Scaling.maker(target="Mars", projectile="asteroids") has asteroids of the Moon. *)
Theorem C84_scaling_refuted : forall normalize d d', exists p,
  scaling_projectile normalize the_moon (ByName Asteroids) mars d d' = Ok p /\
  p_mean p = Some 22100 /\ p_target p = the_moon.
Proof. exact scaling_moon. Qed.
Print Assumptions C84_scaling_refuted.

(** The vertical velocity lies between 0 and the velocity for every angle up to 90 degrees. *)
Theorem C84_vertical_partial : forall p v a,
  p_velocity p = Some v -> p_angle p = Some a -> 0 <= v -> 0 <= a <= 90 ->
  exists w, vertical_velocity p = Some w /\ 0 <= w <= v.
Proof. exact vertical. Qed.
Print Assumptions C84_vertical_partial.
Example C84_vertical_partial_ex : p_velocity hit = Some 5000 /\ p_angle hit = Some 30 /\ 0 <= 30 <= 90.
Proof. repeat split; lra. Qed.

(** Angles above 90 degrees are accepted: at 270 degrees the vertical velocity is negative. *)
Theorem C84_vertical_refuted : exists p w,
  reachable ok_location p /\ p_velocity p = Some 5000 /\ vertical_velocity p = Some w /\ w < 0.
Proof. exact vertical_negative. Qed.
Print Assumptions C84_vertical_refuted.
