(** Proofs for the choice of a production function. *)
From Coq Require Import Reals Lra.
From Verif Require Import Common Conf_model Prod_model Choice_model Choice_spec.
Import ListNotations.
Open Scope string_scope.
Open Scope R_scope.

Lemma eqb_f s t : s <> t -> String.eqb s t = false.
Proof. apply String.eqb_neq. Qed.

Lemma power_default g : new_powerlaw g None None =
  Ok (match g with GCrater => mkPower (7883 / 1000000) (- (3328 / 1000)) | GProjectile => mkPower (7989 / 10000000000) (- (2634 / 1000)) end).
Proof.
  unfold new_powerlaw. destruct g; destruct (Rlt_dec _ 0); try lra; destruct (Rlt_dec 0 _); try lra; reflexivity.
Qed.
Lemma construct_power version : construct MPower version no_keywords = Ok (Power GCrater (mkPower (7883 / 1000000) (- (3328 / 1000)))).
Proof. unfold construct, no_keywords. cbn [k_gen k_n1 k_slope rbind]. rewrite power_default. reflexivity. Qed.

Definition five name := existsb (String.eqb name) ["Mercury"; "Venus"; "Earth"; "Moon"; "Mars"].
Lemma five_in name : five name = true <-> terrestrial name.
Proof.
  unfold five, terrestrial. cbn [existsb In]. rewrite !Bool.orb_true_iff, !String.eqb_eq.
  split; [intros [->|[->|[->|[->|[->|H]]]]]; try discriminate | intros [<-|[<-|[<-|[<-|[<-|[]]]]]]]; tauto.
Qed.
Lemma five_out name : ~ terrestrial name -> five name = false.
Proof. intros H. destruct (five name) eqn:E; [|reflexivity]. apply five_in in E. contradiction. Qed.

Lemma documented_fun s l1 l2 : documented s l1 -> documented s l2 -> l1 = l2.
Proof.
  assert (X : forall s, ~ In s ["Moon"; "Mars"; "Mercury"; "Venus"; "Earth"]%string -> forall t, s = t -> In t ["Moon"; "Mars"; "Mercury"; "Venus"; "Earth"]%string -> False) by (intros; subst; auto).
  intros H1 H2; destruct H1; inversion H2; subst; try reflexivity; exfalso; eapply X; eauto; cbn; tauto.
Qed.
Lemma documented_total s : exists l, documented s l.
Proof.
  destruct (five s) eqn:E.
  - apply five_in in E. destruct E as [<-|[<-|[<-|[<-|[<-|[]]]]]]; eexists; constructor.
  - exists (default_power GCrater). constructor. intros H. apply five_in in H. congruence.
Qed.

(** Neukum by name. *)
Lemma maker_neukum s t kw : lower s = "neukum" ->
  production_maker (PNamed s) t kw =
  let v := match k_version kw with Some v => v | None => None end in
  let kw := mkKw None (k_gen kw) (k_n1 kw) (k_slope kw) in
  let t := match t, v with
           | TMissing, Some w => if existsb (String.eqb w) ["Moon"; "Mars"] then TNamed w else TMissing
           | _, _ => t
           end in
  rbind (make_target t) (fun name =>
    if five name then
      let own := if existsb (String.eqb name) ["Moon"; "Mars"] then name else "projectile" in
      construct MNeukum (match v with Some w => if String.eqb w "projectile" then Some w else Some own | None => Some own end) kw
    else construct MPower v kw).
Proof.
  intros E. unfold production_maker. rewrite E. cbn zeta. change (String.eqb "neukum" "neukum") with true. cbn iota.
  reflexivity.
Qed.

Lemma named s name : lower s = "neukum" -> forall l, documented name l ->
  has_law (production_maker (PNamed s) (TObject name) no_keywords) l.
Proof.
  intros E l D. rewrite (maker_neukum s _ _ E). cbn zeta. cbn [k_version no_keywords make_target rbind k_gen k_n1 k_slope].
  unfold has_law. destruct D as [| | | | |nm H]; try (eexists; split; reflexivity).
  rewrite (five_out nm H). change (mkKw None None None None) with no_keywords. rewrite construct_power. eexists; split; reflexivity.
Qed.

Lemma default name : forall kw, k_version kw = None ->
  has_law (production_maker PMissing (TObject name) kw) (LNeukum Moon).
Proof. intros kw E. unfold production_maker, call_maker. rewrite E. eexists; split; reflexivity. Qed.

Lemma default_wrong : exists l, documented "Mars" l /\ ~ has_law (new_simulation PMissing "Mars" no_keywords) l /\
  has_law (new_simulation PMissing "Mars" no_keywords) (LNeukum Moon).
Proof.
  exists (LNeukum Mars). split; [constructor|]. split.
  - intros (p & E & L). cbn in E. injection E as <-. discriminate.
  - exists (Neukum Moon false). split; reflexivity.
Qed.

(** A version that is named. *)
Definition own_of name := if existsb (String.eqb name) ["Moon"; "Mars"] then name else "projectile".
Lemma versioned s name w : lower s = "neukum" -> terrestrial name ->
  production_maker (PNamed s) (TObject name) (with_version w) =
  construct MNeukum (if String.eqb w "projectile" then Some w else Some (own_of name)) no_keywords.
Proof.
  intros E T. rewrite (maker_neukum s _ _ E). cbn zeta. cbn [with_version k_version make_target rbind k_gen k_n1 k_slope].
  rewrite (proj2 (five_in name) T). unfold own_of. destruct (String.eqb w "projectile"); reflexivity.
Qed.
Lemma version_exact s name w v : lower s = "neukum" -> terrestrial name -> read_version w = Some v ->
  (has_law (production_maker (PNamed s) (TObject name) (with_version w)) (LNeukum v) <->
   w = "projectile"%string \/ documented name (LNeukum v)).
Proof.
  intros E T V. rewrite (versioned s name w E T).
  destruct (String.eqb_spec w "projectile") as [->|N].
  - split; [tauto|]. intros _. cbn in V. injection V as <-. eexists; split; reflexivity.
  - assert (X : forall u, read_version (own_of name) = Some u -> own_of name <> ""%string ->
       (has_law (construct MNeukum (Some (own_of name)) no_keywords) (LNeukum v) <-> u = v)).
    { intros u R1 R2. unfold has_law, construct. rewrite (proj2 (String.eqb_neq _ _) R2), R1. split.
      - intros (p & A & B). injection A as <-. cbn in B. congruence.
      - intros ->. eexists; split; reflexivity. }
    destruct T as [<-|[<-|[<-|[<-|[<-|[]]]]]];
    [ rewrite (X Moon eq_refl) | rewrite (X Mars eq_refl) | rewrite (X Projectile eq_refl) | rewrite (X Projectile eq_refl) | rewrite (X Projectile eq_refl) ];
    try (intros H; discriminate H);
    (split; [intros <-; right; constructor | intros [H|H]; [contradiction|]; inversion H; subst; try reflexivity;
       match goal with K : ~ In _ _ |- _ => exfalso; apply K; cbn; tauto | _ => idtac end ]).
Qed.

Lemma version_wrong :
  (read_version "Projectile" = Some Projectile /\
   has_law (production_maker (PNamed "neukum") (TObject "Moon") (with_version "Projectile")) (LNeukum Moon)) /\
  (read_version "mars" = Some Mars /\
   has_law (production_maker (PNamed "neukum") TMissing (with_version "mars")) (LNeukum Moon)) /\
  (read_version "Mars" = Some Mars /\
   has_law (production_maker (PNamed "neukum") (TObject "Moon") (with_version "Mars")) (LNeukum Moon)).
Proof. repeat split; exists (Neukum Moon false); split; reflexivity. Qed.

Lemma version_unknown s name w : lower s = "neukum" -> read_version w = None ->
  exists l, documented name l /\ has_law (production_maker (PNamed s) (TObject name) (with_version w)) l.
Proof.
  intros E V. destruct (documented_total name) as [l D]. exists l. split; [exact D|].
  destruct (five name) eqn:F.
  - apply five_in in F. rewrite (versioned s name w E F).
    destruct (String.eqb_spec w "projectile") as [->|N]; [discriminate V|].
    destruct F as [<-|[<-|[<-|[<-|[<-|[]]]]]]; inversion D; subst; try (eexists; split; reflexivity);
    match goal with K : ~ In _ _ |- _ => exfalso; apply K; cbn; tauto end.
  - rewrite (maker_neukum s _ _ E). cbn zeta. cbn [with_version k_version make_target rbind k_gen k_n1 k_slope]. rewrite F.
    change (mkKw None None None None) with no_keywords. rewrite construct_power.
    inversion D; subst; try discriminate F. eexists; split; reflexivity.
Qed.

Lemma version_refused a t kw : (forall s, a = PNamed s -> lower s <> "neukum"%string) -> k_version kw <> None ->
  production_maker a t kw = Err TypeError.
Proof.
  intros N V. destruct (k_version kw) as [v|] eqn:K; [|contradiction].
  unfold production_maker. destruct a as [|s|m|p|]; unfold call_maker; try (rewrite K; reflexivity).
  rewrite (proj2 (String.eqb_neq _ _) (N s eq_refl)). rewrite K. reflexivity.
Qed.

Lemma replaced s name kw v : lower s = "neukum" -> ~ terrestrial name -> k_gen kw = None ->
  ~ has_law (production_maker (PNamed s) (TObject name) kw) (LNeukum v).
Proof.
  intros E T G (p & A & B). rewrite (maker_neukum s _ _ E) in A. cbn zeta in A. cbn [make_target rbind] in A.
  rewrite (five_out name T) in A. unfold construct in A. cbn [k_gen k_n1 k_slope] in A. rewrite G in A. cbn [rbind] in A.
  destruct (new_powerlaw GCrater (k_n1 kw) (k_slope kw)); cbn in A; [injection A as <-; discriminate B | discriminate A].
Qed.

Lemma other_name s t kw : k_version kw = None -> ~ In (lower s) ["neukum"; "powerlaw"]%string ->
  production_maker (PNamed s) t kw = Err KeyError.
Proof.
  intros K N. unfold production_maker. cbn [In] in N.
  rewrite (eqb_f (lower s) "neukum") by (intros H; apply N; auto).
  unfold call_maker. rewrite K. unfold component_maker, available, registered.
  rewrite (eqb_f (lower s) "neukum") by (intros H; apply N; auto).
  rewrite (eqb_f (lower s) "powerlaw") by (intros H; apply N; auto). reflexivity.
Qed.

Lemma kept p t : production_maker (PObject p) t no_keywords = Ok p.
Proof. reflexivity. Qed.

Lemma power_named s t n sl : lower s = "powerlaw" -> 0 <= n -> sl <= 0 ->
  has_law (production_maker (PNamed s) t (mkKw None None (Some n) (Some sl))) (LPower GCrater n sl) /\
  has_law (production_maker (PNamed s) t (mkKw None None (Some n) (Some (- sl)))) (LPower GCrater n sl).
Proof.
  intros E Hn Hs. unfold production_maker. rewrite E. cbn zeta. change (String.eqb "powerlaw" "neukum") with false. cbn iota.
  unfold call_maker. cbn [k_version]. unfold component_maker. change (registered "powerlaw" available) with (Some MPower). cbn iota.
  unfold construct. cbn [k_gen k_n1 k_slope rbind]. unfold new_powerlaw.
  destruct (Rlt_dec n 0); [lra|]. destruct (Rlt_dec 0 sl); [lra|]. split.
  - eexists; split; reflexivity.
  - destruct (Rlt_dec 0 (- sl)).
    + eexists; split; [reflexivity|]. cbn. f_equal. lra.
    + assert (sl = 0) by lra. subst. eexists; split; [reflexivity|]. cbn. f_equal. lra.
Qed.

(** Resuming. *)
Lemma resume_neukum name v b l : documented name l -> has_law (resume name (Neukum v b)) l.
Proof.
  intros D. unfold resume, saved_config. rewrite (maker_neukum "neukum" _ _ eq_refl). cbn zeta.
  cbn [k_version k_gen k_n1 k_slope make_target rbind].
  destruct D as [| | | | |nm H]; try (destruct b, v; eexists; split; reflexivity).
  rewrite (five_out nm H). change (mkKw None None None None) with no_keywords. rewrite construct_power. eexists; split; reflexivity.
Qed.
Lemma resume_power name g q : exists q', resume name (Power g q) = Ok (Power g q') /\ law_of (Power g q') = default_power g.
Proof.
  unfold resume, saved_config, production_maker. cbn zeta. change (String.eqb (lower "powerlaw") "neukum") with false. cbn iota.
  unfold call_maker. cbn [k_version]. unfold component_maker. change (registered (lower "powerlaw") available) with (Some MPower).
  cbn iota. unfold construct. cbn [k_gen k_n1 k_slope].
  destruct g; cbn [read_generator rbind].
  - change (read_generator "crater") with (Ok GCrater). cbn [rbind]. rewrite power_default. eexists; split; reflexivity.
  - change (read_generator "projectile") with (Ok GProjectile). cbn [rbind]. rewrite power_default. eexists; split; reflexivity.
Qed.

Lemma resume_law name p : exists p', resume name p = Ok p' /\
  match p with Neukum _ _ => documented name (law_of p') | Power g _ => law_of p' = default_power g end.
Proof.
  destruct p as [v b|g q].
  - destruct (documented_total name) as [l D]. destruct (resume_neukum name v b l D) as (p' & A & B). exists p'. split; [exact A|]. congruence.
  - destruct (resume_power name g q) as (q' & A & B). eauto.
Qed.
Lemma resume_exact name p : (exists p', resume name p = Ok p' /\ law_of p' = law_of p) <->
  match law_of p with LNeukum v => documented name (LNeukum v) | LPower g n s => LPower g n s = default_power g end.
Proof.
  destruct (resume_law name p) as (p' & A & B). split.
  - intros (p2 & C & D). assert (p2 = p') by congruence. subst p2. destruct p as [v b|g q]; cbn in *; congruence.
  - intros H. exists p'. split; [exact A|]. destruct p as [v b|g q]; cbn in *; [eapply documented_fun; eauto | congruence].
Qed.
Lemma resume_wrong :
  (exists p p', new_simulation PMissing "Mars" no_keywords = Ok p /\ resume "Mars" p = Ok p' /\ law_of p = LNeukum Moon /\ law_of p' = LNeukum Mars) /\
  (exists p p', new_simulation PMissing "Ceres" no_keywords = Ok p /\ resume "Ceres" p = Ok p' /\ law_of p = LNeukum Moon /\ law_of p' = default_power GCrater) /\
  (exists p p', new_simulation (PNamed "neukum") "Moon" (with_version "projectile") = Ok p /\ resume "Moon" p = Ok p' /\ law_of p = LNeukum Projectile /\ law_of p' = LNeukum Moon) /\
  (exists p p', new_simulation (PNamed "powerlaw") "Moon" (mkKw None None None (Some (-3))) = Ok p /\ resume "Moon" p = Ok p' /\
     law_of p = LPower GCrater (7883 / 1000000) (-3) /\ law_of p' = default_power GCrater).
Proof.
  split; [|split; [|split]].
  - exists (Neukum Moon false), (Neukum Mars false). repeat split.
  - destruct (resume_neukum "Ceres" Moon false (default_power GCrater)) as (p' & A & B).
    { constructor. cbn. intros [H|[H|[H|[H|[H|[]]]]]]; discriminate. }
    exists (Neukum Moon false), p'. repeat split; auto.
  - exists (Neukum Projectile false), (Neukum Moon false). repeat split.
  - destruct (resume_power "Moon" GCrater (mkPower (7883 / 1000000) (-3))) as (q' & A & B).
    exists (Power GCrater (mkPower (7883 / 1000000) (-3))), (Power GCrater q'). repeat split; auto.
    unfold new_simulation, production_maker. cbn zeta. change (String.eqb (lower "powerlaw") "neukum") with false. cbn iota.
    unfold call_maker. cbn [k_version]. unfold component_maker. change (registered (lower "powerlaw") available) with (Some MPower). cbn iota.
    unfold construct. cbn [k_gen k_n1 k_slope rbind]. unfold new_powerlaw.
    destruct (Rlt_dec _ 0); [lra|]. destruct (Rlt_dec 0 _); [lra|]. reflexivity.
Qed.

(** Histories. *)
Definition settled (name : string) (p : production) : Prop :=
  match p with Neukum _ _ => terrestrial name | Power g _ => law_of p = default_power g end.
Lemma terrestrial_neukum name v b p : terrestrial name -> resume name (Neukum v b) = Ok p -> exists v' b', p = Neukum v' b'.
Proof.
  intros T E. destruct (documented_total name) as [l D]. destruct (resume_neukum name v b l D) as (p' & A & B).
  assert (p' = p) by congruence. subst p'. destruct p as [v' b'|g q]; [eauto|].
  exfalso. cbn in B. subst l. inversion D; subst; contradiction.
Qed.
Lemma history_power name : forall p l p', history name p l p' -> forall g q, p = Power g q ->
  exists q', p' = Power g q' /\ (law_of p' = law_of p \/ law_of p' = default_power g).
Proof.
  induction 1 as [p|p e p1 l p2 H HH IH]; intros g q ->.
  - eauto.
  - inversion H; subst.
    + destruct (IH g q eq_refl) as (q' & A & B). eauto.
    + destruct (resume_power name g q) as (q1 & A & B). assert (p1 = Power g q1) by congruence. subst p1.
      destruct (IH g q1 eq_refl) as (q' & C & D). exists q'. split; [exact C|]. right. destruct D; congruence.
Qed.
Lemma history_neukum name : terrestrial name -> forall p l p', history name p l p' -> forall v b, p = Neukum v b ->
  exists v' b', p' = Neukum v' b'.
Proof.
  intros T. induction 1 as [p|p e p1 l p2 H HH IH]; intros v b ->; [eauto|].
  inversion H; subst.
  - cbn in HH |- *. destruct (read_version s) eqn:E; cbn [assign_version fst] in *; eapply IH; unfold assign_version; rewrite E; reflexivity.
  - destruct (terrestrial_neukum name v b p1 T) as (v' & b' & ->); eauto.
Qed.
Lemma history_app name : forall l1 l2 p p', history name p (l1 ++ l2)%list p' -> exists pm, history name p l1 pm /\ history name pm l2 p'.
Proof.
  induction l1 as [|e l1 IH]; cbn; intros l2 p p' H.
  - exists p. split; [constructor | exact H].
  - inversion H; subst. destruct (IH _ _ _ H5) as (pm & A & B). exists pm. split; [econstructor; eauto | exact B].
Qed.
Lemma resumed_last name v b l p : terrestrial name -> history name (Neukum v b) (l ++ [Resume])%list p -> documented name (law_of p).
Proof.
  intros T H. apply history_app in H. destruct H as (pm & A & B).
  destruct (history_neukum name T _ _ _ A v b eq_refl) as (v' & b' & ->).
  inversion B; subst. inversion H4; subst. inversion H2; subst.
  destruct (resume_law name (Neukum v' b')) as (p' & C & D). congruence.
Qed.
Lemma settles name p p1 : resume name p = Ok p1 -> forall l p2, (forall e, In e l -> e = Resume) -> history name p1 l p2 -> law_of p2 = law_of p1.
Proof.
  intros R1 l p2 AllR H. revert p R1 AllR.
  induction H as [p1|p1 e p' l p2 HS HH IH]; intros p R1 AllR; [reflexivity|].
  assert (e = Resume) by (apply AllR; cbn; auto). subst e. inversion HS; subst.
  rewrite (IH p1) by (auto; intros e He; apply AllR; cbn; auto). clear IH HH.
  destruct (resume_law name p1) as (q & A & B). assert (q = p') by congruence. subst q.
  destruct (resume_law name p) as (q & C & D). assert (q = p1) by congruence. subst q.
  destruct p1 as [v b|g q]; cbn in *.
  - destruct p as [v0 b0|g0 q0]; [eapply documented_fun; eauto | destruct g0; discriminate D].
  - rewrite B. destruct p as [v0 b0|g0 q0].
    + inversion D; subst; reflexivity.
    + assert (g = g0) by (destruct g0; cbn in D; congruence). subst. congruence.
Qed.

Lemma morphology_named s : lower s = "neukum"%string -> has_law (morphology_production (PNamed s)) (LNeukum Moon).
Proof. intros E. unfold morphology_production. rewrite (maker_neukum s _ _ E). eexists; split; reflexivity. Qed.
Lemma morphology_wrong : exists l, documented "Mars" l /\ has_law (production_maker (PNamed "neukum") (TObject "Mars") no_keywords) l /\
  ~ has_law (morphology_production (PNamed "neukum")) l.
Proof.
  exists (LNeukum Mars). split; [constructor|]. split; [exists (Neukum Mars false); split; reflexivity|].
  intros (p & E & L). cbn in E. injection E as <-. discriminate.
Qed.

(* --- bodies, assignments and generators --- *)
Lemma body_named s kw name : lower s = "neukum" -> In name known_bodies ->
  production_maker (PNamed s) (TNamed name) kw = production_maker (PNamed s) (TObject name) kw.
Proof.
  intros E I. unfold production_maker. rewrite E. cbn [String.eqb]. change (String.eqb "neukum" "neukum") with true. cbn iota.
  unfold make_target.
  assert (existsb (String.eqb name) bodies = true) as ->.
  { apply existsb_exists. exists name. split; [exact I|apply String.eqb_refl]. }
  reflexivity.
Qed.
Lemma body_unknown s kw name : lower s = "neukum" -> ~ In name known_bodies ->
  production_maker (PNamed s) (TNamed name) kw = Err ValueError.
Proof.
  intros E N. unfold production_maker. rewrite E. change (String.eqb "neukum" "neukum") with true. cbn iota.
  unfold make_target.
  assert (existsb (String.eqb name) bodies = false) as ->.
  { destruct (existsb (String.eqb name) bodies) eqn:B; [|reflexivity]. apply existsb_exists in B.
    destruct B as (x & I & X). apply String.eqb_eq in X. subst x. exfalso. apply N. exact I. }
  reflexivity.
Qed.
Lemma assigned v b w : 
  match read_version w with
  | Some v' => snd (assign_version w (Neukum v b)) = None /\ law_of (fst (assign_version w (Neukum v b))) = LNeukum v' /\
               exists t, k_version (snd (saved_config (fst (assign_version w (Neukum v b))))) = Some (Some t) /\ read_version t = Some v'
  | None => snd (assign_version w (Neukum v b)) = Some ValueError /\ law_of (fst (assign_version w (Neukum v b))) = LNeukum v
  end.
Proof.
  unfold assign_version. destruct (read_version w) as [v'|]; cbn; [|auto].
  split; [reflexivity|]. split; [reflexivity|]. destruct v'; eexists; split; reflexivity.
Qed.
Lemma generators s t g : lower s = "powerlaw" ->
  (In (lower g) ["crater"; ""] -> has_law (production_maker (PNamed s) t (mkKw None (Some g) None None)) (default_power GCrater)) /\
  (lower g = "projectile" -> has_law (production_maker (PNamed s) t (mkKw None (Some g) None None)) (default_power GProjectile)) /\
  (~ In (lower g) ["crater"; ""; "projectile"] -> production_maker (PNamed s) t (mkKw None (Some g) None None) = Err ValueError).
Proof.
  intros E. unfold production_maker, call_maker, component_maker, construct. rewrite E.
  change (String.eqb "powerlaw" "neukum") with false. cbn [k_version registered available].
  change (String.eqb "powerlaw" "neukum") with false. change (String.eqb "powerlaw" "powerlaw") with true. cbn iota.
  cbn [k_gen k_n1 k_slope]. unfold read_generator.
  assert (G : g = "" <-> lower g = "").
  { destruct g; cbn; split; intros; congruence. }
  assert (K : forall gg, has_law (rbind (Ok gg) (fun g0 => rbind (new_powerlaw g0 None None) (fun p => Ok (Power g0 p)))) (default_power gg)).
  { intros gg. cbn [rbind]. rewrite power_default. eexists. split; [reflexivity|]. destruct gg; reflexivity. }
  split; [|split].
  - intros I. cbn in I. destruct I as [I|[I|[]]].
    + destruct (String.eqb_spec g ""); [apply (K GCrater)|]. rewrite <- I. apply (K GCrater).
    + destruct (String.eqb_spec g "") as [->|N]; [apply (K GCrater)|symmetry in I; apply G in I; contradiction].
  - intros I. destruct (String.eqb_spec g "") as [->|N]; [discriminate|]. rewrite I. apply (K GProjectile).
  - intros N. destruct (String.eqb_spec g "") as [->|NE]; [exfalso; apply N; cbn; auto|].
    destruct (String.eqb_spec (lower g) "crater") as [X|_]; [exfalso; apply N; rewrite X; cbn; auto|].
    destruct (String.eqb_spec (lower g) "projectile") as [X|_]; [exfalso; apply N; rewrite X; cbn; auto|]. reflexivity.
Qed.
Lemma simulation_choice s name l kw m : 
  (lower s = "neukum" -> documented name l -> has_law (new_simulation (PNamed s) name no_keywords) l) /\
  new_simulation (PClass m) name kw = Err TypeError /\ new_simulation PBad name kw = Err TypeError.
Proof. split; [|split; reflexivity]. intros E D. exact (named s name E l D). Qed.
