(** C110: the production function chosen for a body. *)
From Coq Require Import Reals Lra.
From Verif Require Import Common Conf_model Prod_model Choice_model Choice_spec Choice_proofs.
Import ListNotations.
Open Scope string_scope.
Open Scope R_scope.

(** C110.  Asking for "neukum" (in any case) for a body gives the law documented for that body. *)
Theorem C110_named (s name : string) (l : law) :
  lower s = "neukum" -> documented name l -> has_law (production_maker (PNamed s) (TObject name) no_keywords) l.
Proof. exact (fun E => named s name E l). Qed.
Print Assumptions C110_named.
Example C110_named_case : lower "Neukum" = "neukum" /\ documented "Mars" (LNeukum Mars) /\ documented "Ceres" (default_power GCrater).
Proof. split; [reflexivity|]. split; constructor. cbn. intros [H|[H|[H|[H|[H|[]]]]]]; discriminate. Qed.

(** C110.  When no production function is named, every body gets the lunar one. *)
Theorem C110_default_partial (name : string) (kw : keywords) :
  k_version kw = None -> has_law (production_maker PMissing (TObject name) kw) (LNeukum Moon).
Proof. exact (default name kw). Qed.
Print Assumptions C110_default_partial.
Example C110_default_partial_case : k_version no_keywords = None /\ documented "Moon" (LNeukum Moon).
Proof. split; [reflexivity | constructor]. Qed.

(** C110, false: a simulation of Mars for which no production function is named uses the lunar one, not
    the Martian one. *)
Theorem C110_default_refuted : exists l, documented "Mars" l /\
  ~ has_law (new_simulation PMissing "Mars" no_keywords) l /\ has_law (new_simulation PMissing "Mars" no_keywords) (LNeukum Moon).
Proof. exact default_wrong. Qed.
Print Assumptions C110_default_refuted.

(** C110.  A version that is named is used exactly when it is the text "projectile" or the version of the
    body; otherwise the version of the body is used in its place. *)
Theorem C110_version_partial (s name w : string) (v : version) :
  lower s = "neukum" -> terrestrial name -> read_version w = Some v ->
  (has_law (production_maker (PNamed s) (TObject name) (with_version w)) (LNeukum v) <->
   w = "projectile" \/ documented name (LNeukum v)).
Proof. exact (version_exact s name w v). Qed.
Print Assumptions C110_version_partial.
Example C110_version_partial_case : terrestrial "Venus" /\ read_version "pROJECTILE" = Some Projectile /\ documented "Venus" (LNeukum Projectile).
Proof. split; [cbn; tauto|]. split; [reflexivity | constructor]. Qed.

(** C110, false: the version "Projectile", spelled as documented, and the version "Mars" are replaced by
    the lunar one for the Moon; the version "mars" without a target is the lunar one. *)
Theorem C110_version_refuted :
  (read_version "Projectile" = Some Projectile /\
   has_law (production_maker (PNamed "neukum") (TObject "Moon") (with_version "Projectile")) (LNeukum Moon)) /\
  (read_version "mars" = Some Mars /\
   has_law (production_maker (PNamed "neukum") TMissing (with_version "mars")) (LNeukum Moon)) /\
  (read_version "Mars" = Some Mars /\
   has_law (production_maker (PNamed "neukum") (TObject "Moon") (with_version "Mars")) (LNeukum Moon)).
Proof. exact version_wrong. Qed.
Print Assumptions C110_version_refuted.

(** C110, false: a version that does not exist is not an error: the law of the body is used. *)
Theorem C110_unknown_version_refuted (s name w : string) :
  lower s = "neukum" -> read_version w = None ->
  exists l, documented name l /\ has_law (production_maker (PNamed s) (TObject name) (with_version w)) l.
Proof. exact (version_unknown s name w). Qed.
Print Assumptions C110_unknown_version_refuted.
Example C110_unknown_version_refuted_case : read_version "Venus" = None /\ read_version "" = None.
Proof. split; reflexivity. Qed.

(** C110, false: a version is refused with TypeError unless the production function is named "neukum": also
    when none is named, although Neukum's is then the one that is used. *)
Theorem C110_version_alone_refuted (a : production_arg) (t : target_arg) (kw : keywords) :
  (forall s, a = PNamed s -> lower s <> "neukum") -> k_version kw <> None ->
  production_maker a t kw = Err TypeError.
Proof. exact (version_refused a t kw). Qed.
Print Assumptions C110_version_alone_refuted.
Example C110_version_alone_refuted_case : (forall s, PMissing = PNamed s -> lower s <> "neukum") /\ k_version (with_version "Mars") <> None.
Proof. split; discriminate. Qed.

(** C110, false: for other bodies Neukum's law cannot be had by name, whatever the keywords. *)
Theorem C110_other_bodies_refuted (s name : string) (kw : keywords) (v : version) :
  lower s = "neukum" -> ~ terrestrial name -> k_gen kw = None ->
  ~ has_law (production_maker (PNamed s) (TObject name) kw) (LNeukum v).
Proof. exact (replaced s name kw v). Qed.
Print Assumptions C110_other_bodies_refuted.
Example C110_other_bodies_refuted_case : ~ terrestrial "Ceres" /\ k_gen (with_version "Moon") = None.
Proof. split; [|reflexivity]. cbn. intros [H|[H|[H|[H|[H|[]]]]]]; discriminate. Qed.

(** C110.  Any other name is a KeyError, except "powerlaw". *)
Theorem C110_unknown (s : string) (t : target_arg) (kw : keywords) :
  k_version kw = None -> ~ In (lower s) ["neukum"; "powerlaw"] -> production_maker (PNamed s) t kw = Err KeyError.
Proof. exact (other_name s t kw). Qed.
Print Assumptions C110_unknown.
Example C110_unknown_case : ~ In (lower "power law") ["neukum"; "powerlaw"].
Proof. cbn. intros [H|[H|[]]]; discriminate. Qed.

(** C110.  A power law has the coefficient and slope given, the slope with either sign. *)
Theorem C110_power (s : string) (t : target_arg) (n sl : R) :
  lower s = "powerlaw" -> 0 <= n -> sl <= 0 ->
  has_law (production_maker (PNamed s) t (mkKw None None (Some n) (Some sl))) (LPower GCrater n sl) /\
  has_law (production_maker (PNamed s) t (mkKw None None (Some n) (Some (- sl)))) (LPower GCrater n sl).
Proof. exact (power_named s t n sl). Qed.
Print Assumptions C110_power.
Example C110_power_case : lower "PowerLaw" = "powerlaw" /\ 0 <= 1 / 100 /\ -3 <= 0.
Proof. split; [reflexivity|]. split; lra. Qed.

(** C110.  A production object is used as it is. *)
Theorem C110_object (p : production) (name : string) :
  new_simulation (PObject p) name no_keywords = Ok p /\ morphology_production (PObject p) = Ok p.
Proof. exact (conj (kept p (TObject name)) eq_refl). Qed.
Print Assumptions C110_object.
Example C110_object_case : documented "Moon" (LNeukum Moon) /\ law_of (Neukum Mars false) <> LNeukum Moon.
Proof. split; [constructor | discriminate]. Qed.

(** C110.  A resumed simulation has the production function it was saved with exactly when that is the law
    documented for the body, or a power law with the default coefficient and slope. *)
Theorem C110_resumed_partial (name : string) (p : production) :
  (exists p', resume name p = Ok p' /\ law_of p' = law_of p) <->
  match law_of p with LNeukum v => documented name (LNeukum v) | LPower g n s => LPower g n s = default_power g end.
Proof. exact (resume_exact name p). Qed.
Print Assumptions C110_resumed_partial.
Example C110_resumed_partial_case : documented "Earth" (LNeukum Projectile).
Proof. constructor. Qed.

(** C110, false: resumed without arguments, a simulation of Mars that had the lunar law goes on with the
    Martian one, a simulation of Ceres that had the lunar law with a power law, a simulation of the Moon
    that had projectiles with lunar craters, and one that had a power law of slope -3 with the default
    slope. *)
Theorem C110_resumed_refuted :
  (exists p p', new_simulation PMissing "Mars" no_keywords = Ok p /\ resume "Mars" p = Ok p' /\ law_of p = LNeukum Moon /\ law_of p' = LNeukum Mars) /\
  (exists p p', new_simulation PMissing "Ceres" no_keywords = Ok p /\ resume "Ceres" p = Ok p' /\ law_of p = LNeukum Moon /\ law_of p' = default_power GCrater) /\
  (exists p p', new_simulation (PNamed "neukum") "Moon" (with_version "projectile") = Ok p /\ resume "Moon" p = Ok p' /\ law_of p = LNeukum Projectile /\ law_of p' = LNeukum Moon) /\
  (exists p p', new_simulation (PNamed "powerlaw") "Moon" (mkKw None None None (Some (-3))) = Ok p /\ resume "Moon" p = Ok p' /\
     law_of p = LPower GCrater (7883 / 1000000) (-3) /\ law_of p' = default_power GCrater).
Proof. exact resume_wrong. Qed.
Print Assumptions C110_resumed_refuted.

(** C110.  Once resumed, further resumptions change nothing. *)
Theorem C110_settles (name : string) (p p1 p2 : production) (l : list event) :
  resume name p = Ok p1 -> (forall e, In e l -> e = Resume) -> history name p1 l p2 -> law_of p2 = law_of p1.
Proof. exact (fun E A => settles name p p1 E l p2 A). Qed.
Print Assumptions C110_settles.
Example C110_settles_case : resume "Mars" (Neukum Moon false) = Ok (Neukum Mars false) /\
  history "Mars" (Neukum Mars false) [Resume; Resume] (Neukum Mars false).
Proof. split; [reflexivity|]. econstructor; [constructor; reflexivity|]. econstructor; [constructor; reflexivity|]. constructor. Qed.

(** C110, false: on the terrestrial bodies a version assigned by the user never survives: after any history
    of assignments and resumptions that ends with a resumption, the law is that of the body. *)
Theorem C110_assigned_refuted (name : string) (v : version) (b : bool) (l : list event) (p : production) :
  terrestrial name -> history name (Neukum v b) (l ++ [Resume])%list p -> documented name (law_of p).
Proof. exact (resumed_last name v b l p). Qed.
Print Assumptions C110_assigned_refuted.
Example C110_assigned_refuted_case : history "Moon" (Neukum Moon false) ([Assign "Mars"] ++ [Resume])%list (Neukum Moon false) /\
  law_of (fst (assign_version "Mars" (Neukum Moon false))) = LNeukum Mars.
Proof. split; [|reflexivity]. econstructor; [constructor|]. econstructor; [constructor; reflexivity|]. constructor. Qed.

(** C110, false: assigned by name to a morphology model, "neukum" is the lunar law, whatever body the surface
    belongs to. *)
Theorem C110_morphology_refuted : exists l, documented "Mars" l /\
  has_law (production_maker (PNamed "neukum") (TObject "Mars") no_keywords) l /\
  ~ has_law (morphology_production (PNamed "neukum")) l.
Proof. exact morphology_wrong. Qed.
Print Assumptions C110_morphology_refuted.

(** C110.  A body may be given by its name, when it is one of the known bodies; other names are an error. *)
Theorem C110_bodies (s name : string) (kw : keywords) : lower s = "neukum" ->
  (In name known_bodies ->
     production_maker (PNamed s) (TNamed name) kw = production_maker (PNamed s) (TObject name) kw) /\
  (~ In name known_bodies -> production_maker (PNamed s) (TNamed name) kw = Err ValueError).
Proof. exact (fun E => conj (body_named s kw name E) (body_unknown s kw name E)). Qed.
Print Assumptions C110_bodies.
Example C110_bodies_case : In "Titan" known_bodies /\ ~ In "Sedna" known_bodies.
Proof. split; [cbn; tauto|]. cbn. intros H. repeat (destruct H as [H|H]; [discriminate|]). exact H. Qed.

(** C110.  Assigning a version to a Neukum production function gives it that version, which is then
    saved; a version that does not exist is an error and changes nothing. *)
Theorem C110_assigned (v : version) (b : bool) (w : string) :
  match read_version w with
  | Some v' => snd (assign_version w (Neukum v b)) = None /\ law_of (fst (assign_version w (Neukum v b))) = LNeukum v' /\
               exists t, k_version (snd (saved_config (fst (assign_version w (Neukum v b))))) = Some (Some t) /\ read_version t = Some v'
  | None => snd (assign_version w (Neukum v b)) = Some ValueError /\ law_of (fst (assign_version w (Neukum v b))) = LNeukum v
  end.
Proof. exact (assigned v b w). Qed.
Print Assumptions C110_assigned.
Example C110_assigned_case : read_version "mars" = Some Mars. Proof. reflexivity. Qed.

(** C110.  A power law is for craters or projectiles as asked for, in any case; other types are an error. *)
Theorem C110_generator (s : string) (t : target_arg) (g : string) : lower s = "powerlaw" ->
  (In (lower g) ["crater"; ""] -> has_law (production_maker (PNamed s) t (mkKw None (Some g) None None)) (default_power GCrater)) /\
  (lower g = "projectile" -> has_law (production_maker (PNamed s) t (mkKw None (Some g) None None)) (default_power GProjectile)) /\
  (~ In (lower g) ["crater"; ""; "projectile"] -> production_maker (PNamed s) t (mkKw None (Some g) None None) = Err ValueError).
Proof. exact (generators s t g). Qed.
Print Assumptions C110_generator.
Example C110_generator_case : lower "PowerLaw" = "powerlaw" /\ lower "Projectile" = "projectile".
Proof. split; reflexivity. Qed.

(** C110.  A Simulation asked for "neukum" uses the law documented for its body; it does not take a class. *)
Theorem C110_simulation (s name : string) (l : law) (kw : keywords) (m : model) :
  (lower s = "neukum" -> documented name l -> has_law (new_simulation (PNamed s) name no_keywords) l) /\
  new_simulation (PClass m) name kw = Err TypeError /\ new_simulation PBad name kw = Err TypeError.
Proof. exact (simulation_choice s name l kw m). Qed.
Print Assumptions C110_simulation.
Example C110_simulation_case : documented "Mars" (LNeukum Mars). Proof. constructor. Qed.
