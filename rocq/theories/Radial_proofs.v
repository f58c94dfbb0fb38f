(** Proofs about Radial_model. *)
From Coq Require Import Reals List Lra Lia Arith Bool.
From Verif Require Import Common Profile_model Radial_model Radial_spec.
Import ListNotations.
Open Scope R_scope.

Lemma f64_dec k : {k = F64} + {k <> F64}.
Proof. destruct k; [left; reflexivity | right; discriminate | right; discriminate]. Qed.
Lemma is_f64_true k : is_f64 k = true <-> k = F64.
Proof. destruct k; cbn; split; congruence. Qed.
(** What to_array and asarray give. *)
Lemma as_given g k s l : contains g k s l -> exists s', asarray g = Ok (mk_array k s' l) /\ fold_right mult 1%nat s' = fold_right mult 1%nat s /\ List.length l = fold_right mult 1%nat s.
Proof.
  intros [b k0 x | k0 s0 d N H | k0 s0 H | a H]; cbn [asarray].
  - exists []. auto.
  - destruct d; [congruence |]. exists s0. auto.
  - exists s0. auto.
  - exists (a_shape a). destruct a; auto.
Qed.
Lemma converted g k s l : contains g k s l -> exists k', to_array g = Ok (mk_array k' s l) /\ (k' = F64 <-> (an_array g -> k = F64)).
Proof.
  intros [b k0 x | k0 s0 d N H | k0 s0 H | a H]; cbn [to_array].
  - exists F64. split; [reflexivity |]. split; [intros _ (a & E); discriminate | reflexivity].
  - exists F64. split; [reflexivity |]. split; [intros _ (a & E); discriminate | reflexivity].
  - exists F64. split; [reflexivity |]. split; [reflexivity | reflexivity].
  - exists (a_kind a). split; [destruct a; reflexivity |]. split; [auto |]. intros K. apply K. exists a. reflexivity.
Qed.
Lemma profile_some p pts : pts <> [] -> exists out, crater_profile p pts = Ok out /\ List.length out = List.length pts.
Proof.
  intros N. unfold crater_profile. destruct (meanref (diameter p / 2) pts) eqn:E.
  - eexists. split; [reflexivity |]. apply map_length.
  - exfalso. unfold meanref in E. destruct (filter _ pts); [| discriminate]. destruct pts; [congruence | discriminate].
Qed.
Lemma zeros {A} (l : list A) : map (fun _ => 0) l = repeat 0 (List.length l).
Proof. induction l; cbn; [reflexivity | f_equal; assumption]. Qed.

Section Crater.
Variables (p : shape) (r : given) (k : kind) (s : list nat) (rs : list R) (ref : option given) (k' : kind) (refs : list R).
Hypothesis C : contains r k s rs.
Hypothesis F : references (List.length rs) k ref k' refs.
Lemma crater_eq : exists kr, (kr = F64 <-> (an_array r -> k = F64)) /\ py_crater_profile p r ref =
  rbind (if is_f64 kr then Ok rs else Err TypeError) (fun rs =>
  rbind (if is_f64 k' then Ok refs else Err TypeError) (fun refs =>
  if negb (Nat.eqb (List.length rs) (List.length refs)) then Err RustErr else
  rbind (crater_profile p (combine rs refs)) (fun elevation => Ok (mk_array F64 s elevation)))).
Proof.
  destruct (converted r k s rs C) as (kr & T & K). exists kr. split; [exact K |]. unfold py_crater_profile. rewrite T.
  destruct (as_given r k s rs C) as (s1 & A & _). inversion F as [| g kg sg lg Cg].
  - subst ref k' refs. rewrite A. cbn [rbind asarray]. unfold zeros_like, ravel, readonly. cbn [a_kind a_shape a_data]. rewrite zeros. reflexivity.
  - subst ref kg lg. cbn [rbind]. destruct (as_given g k' sg refs Cg) as (s2 & B & _). rewrite B. reflexivity.
Qed.
Lemma crater_ok : rs <> [] -> (an_array r -> k = F64) -> k' = F64 -> List.length refs = List.length rs ->
  exists out, py_crater_profile p r ref = Ok (mk_array F64 s out) /\ crater_profile p (combine rs refs) = Ok out /\ List.length out = List.length rs.
Proof.
  intros N K K' L. destruct crater_eq as (kr & KR & E). rewrite E. assert (kr = F64) as -> by (apply KR, K). subst k'. cbn [is_f64 rbind].
  rewrite L, Nat.eqb_refl. cbn [negb].
  assert (combine rs refs <> []) as N' by (destruct rs; [congruence |]; destruct refs; [discriminate L | discriminate]).
  destruct (profile_some p _ N') as (out & O & LO). rewrite O. exists out. split; [reflexivity |]. split; [reflexivity |]. rewrite LO, combine_length, L, Nat.min_id. reflexivity.
Qed.
Lemma crater_fails : rs = [] \/ (an_array r /\ k <> F64) \/ k' <> F64 \/ List.length refs <> List.length rs ->
  exists e, py_crater_profile p r ref = Err e /\ ((an_array r /\ k <> F64) \/ k' <> F64 -> e = TypeError).
Proof.
  intros H. destruct crater_eq as (kr & KR & E). rewrite E.
  destruct (is_f64 kr) eqn:X; cbn [rbind]; [| exists TypeError; auto]. apply is_f64_true in X. pose proof (proj1 KR X) as KK.
  destruct (is_f64 k') eqn:Y; cbn [rbind]; [| exists TypeError; auto]. apply is_f64_true in Y.
  destruct (Nat.eqb_spec (List.length rs) (List.length refs)) as [L | L]; cbn [negb].
  - destruct H as [-> | [[A B] | [B | B]]]; [| elim B; auto | congruence | congruence]. exists RustErr. split; [reflexivity |]. intros [[A B] | B]; [elim B; auto | congruence].
  - exists RustErr. split; [reflexivity |]. intros [[A B] | B]; [elim B; auto | congruence].
Qed.
End Crater.
Lemma crater_ragged p ref : py_crater_profile p Ragged ref = Err ValueError.
Proof. destruct ref; reflexivity. Qed.

Lemma thick p rs : Forall2 (thickness_at p) rs (ejecta_profile rs (diameter p) (ejrim p)).
Proof.
  unfold ejecta_profile. induction rs as [| r rs IH]; cbn [map]; constructor; [| exact IH]. unfold ejecta_profile_function, thickness_at, EJPROFILE.
  destruct (Rle_dec (diameter p / 2) r); [right; split; [assumption | reflexivity] | left; split; [lra | reflexivity]].
Qed.
Lemma ejecta_eq p r k s rs : contains r k s rs -> py_ejecta_profile p r = Err TypeError /\ an_array r /\ k <> F64 \/
  py_ejecta_profile p r = Ok (mk_array F64 s (ejecta_profile rs (diameter p) (ejrim p))) /\ (an_array r -> k = F64).
Proof.
  intros C. destruct (converted r k s rs C) as (kr & T & K). unfold py_ejecta_profile. rewrite T. unfold readonly, ravel. cbn [rbind a_kind a_data a_shape].
  destruct (is_f64 kr) eqn:X; cbn [rbind].
  - right. split; [reflexivity |]. apply K, is_f64_true, X.
  - left. split; [reflexivity |]. destruct C as [b k0 x | k0 s0 d N H | k0 s0 H | a H]; try (injection T as <-; discriminate X).
    split; [exists a; reflexivity |]. intros E. cbn [to_array] in T. injection T as T. rewrite T in E. cbn [a_kind] in E. subst kr. discriminate.
Qed.
Lemma ejecta_ok p r k s rs : contains r k s rs -> (an_array r -> k = F64) ->
  exists out, py_ejecta_profile p r = Ok (mk_array F64 s out) /\ Forall2 (thickness_at p) rs out.
Proof. intros C K. destruct (ejecta_eq p r k s rs C) as [(_ & A & B) | (E & _)]; [elim B; auto |]. rewrite E. eexists. split; [reflexivity | apply thick]. Qed.
Lemma ejecta_fails p r k s rs : contains r k s rs -> an_array r -> k <> F64 -> py_ejecta_profile p r = Err TypeError.
Proof. intros C A N. destruct (ejecta_eq p r k s rs C) as [(E & _) | (_ & B)]; [exact E | elim N; auto]. Qed.

Lemma row_last s n : a_row s -> n = fold_right mult 1%nat s -> exists t, rev s = n :: t.
Proof. intros (b & l & E & L) N. rewrite E, rev_app_distr. cbn. exists (rev b). congruence. Qed.
Lemma last_row s n t : rev s = n :: t -> n = fold_right mult 1%nat s -> a_row s.
Proof. intros E N. exists (rev t), n. split; [| exact N]. rewrite <- (rev_involutive s), E. reflexivity. Qed.
Definition product (q : R * R) : R := fst q * snd q.

Section Distribution.
Variables (rays : list R -> list R -> list R) (p : shape).
Hypothesis L : forall a b, List.length (rays a b) = List.length a.
Variables (r theta : given) (k : kind) (s : list nat) (rs : list R) (k' : kind) (s' : list nat) (ts : list R).
Hypotheses (Cr : contains r k s rs) (Ct : contains theta k' s' ts).
Definition rad (l : list R) := map (fun x => x * PI / 180) l.
Lemma intensity_eq : exists sa st, asarray r = Ok (mk_array k sa rs) /\ asarray theta = Ok (mk_array k' st ts) /\
  bound_ray_intensity rays (ravel (mk_array k sa rs)) (radians_of (ravel (mk_array k' st ts))) =
    (if is_f64 k then if (match k' with F32 => false | _ => true end) then if Nat.eqb (List.length rs) (List.length ts) then Ok (rays rs (rad ts)) else Err ValueError else Err TypeError else Err TypeError).
Proof.
  destruct (as_given r k s rs Cr) as (sa & A & _). destruct (as_given theta k' s' ts Ct) as (st & B & _). exists sa, st. split; [exact A |]. split; [exact B |].
  unfold bound_ray_intensity, readonly, ravel, radians_of. cbn [a_kind a_data a_shape]. destruct (is_f64 k); cbn [rbind]; [| reflexivity]. destruct k'; cbn [is_f64 rbind]; try reflexivity; rewrite map_length; reflexivity.
Qed.
Lemma distribution_ok : k = F64 -> (an_array r /\ a_row s \/ exists x, r = Scalar true F64 x) -> k' <> F32 -> List.length ts = List.length rs ->
  exists out th inten, ejecta_distribution rays p r theta = (Ok (mk_array F64 out th, mk_array F64 out inten), 1%nat) /\
    (an_array r -> out = s) /\ inten = rays rs (map (fun x => x * PI / 180) ts) /\
    exists full, Forall2 (thickness_at p) rs full /\ th = map product (combine full inten).
Proof.
  intros K Row K' LL. destruct intensity_eq as (sa & st & A & B & E). subst k. unfold ejecta_distribution. rewrite A, B.
  destruct (ejecta_ok p r F64 s rs Cr (fun _ => eq_refl)) as (full & P & T). rewrite P, E. cbn [is_f64]. replace (match k' with F32 => false | _ => true end) with true by (destruct k'; congruence).
  rewrite LL, Nat.eqb_refl. cbn [rbind].
  assert (M : multiply_in_place (mk_array F64 s full) (rays rs (rad ts)) = Ok (mk_array F64 s (map product (combine full (rays rs (rad ts)))))).
  { unfold multiply_in_place. cbn [a_shape a_data]. destruct Row as [[_ Row] | (x & ->)].
    - destruct (as_given r F64 s rs Cr) as (_ & _ & _ & N). destruct (row_last s (List.length rs) Row N) as (t & ->). rewrite L, Nat.eqb_refl. reflexivity.
    - inversion Cr; subst. cbn [rev app]. rewrite L. cbn. reflexivity. }
  rewrite M. cbn [rbind]. destruct Row as [[(a & ->) _] | (x & ->)]; cbn [shape_attr rbind].
  - inversion Cr; subst. exists (a_shape a). do 2 eexists. split; [reflexivity |]. split; [reflexivity |]. split; [reflexivity |]. exists full. split; [exact T | reflexivity].
  - exists []. do 2 eexists. split; [reflexivity |]. split; [intros (a & X); discriminate |]. split; [reflexivity |]. exists full. split; [exact T | reflexivity].
Qed.
Lemma distribution_fails : ~ (k = F64 /\ (an_array r /\ a_row s \/ exists x, r = Scalar true F64 x) /\ k' <> F32 /\ List.length ts = List.length rs) ->
  exists e, fst (ejecta_distribution rays p r theta) = Err e.
Proof.
  intros N. destruct intensity_eq as (sa & st & A & B & E). unfold ejecta_distribution. rewrite A, B.
  destruct (ejecta_eq p r k s rs Cr) as [(-> & _) | (P & _)]; [eexists; reflexivity |]. rewrite P, E. cbn [fst].
  destruct (is_f64 k) eqn:X; [| eexists; reflexivity]. apply is_f64_true in X. subst k.
  destruct (match k' with F32 => false | _ => true end) eqn:Y; [| eexists; reflexivity].
  destruct (Nat.eqb_spec (List.length rs) (List.length ts)) as [LL | LL]; [| eexists; reflexivity]. cbn [rbind].
  unfold multiply_in_place. cbn [a_shape a_data]. destruct (rev s) as [| n t] eqn:RV; [eexists; reflexivity |].
  rewrite L. destruct (Nat.eqb_spec n (List.length rs)) as [NN | NN]; [| eexists; reflexivity]. cbn [rbind].
  destruct (as_given r F64 s rs Cr) as (_ & _ & _ & SZ). pose proof (last_row s n t RV (eq_trans NN SZ)) as Row.
  destruct r as [b kk x | kk ss d | | a] eqn:ER; cbn [shape_attr]; try (eexists; reflexivity).
  - destruct b; [| eexists; reflexivity]. elim N. split; [reflexivity |]. split; [right; exists x; inversion Cr; subst; reflexivity |]. split; [destruct k'; congruence | congruence].
  - elim N. split; [reflexivity |]. split; [left; split; [exists a; reflexivity | exact Row] |]. split; [destruct k'; congruence | congruence].
Qed.
Lemma intensity_ok : k = F64 -> an_array r -> k' <> F32 -> List.length ts = List.length rs ->
  ray_intensity rays r theta = (Ok (mk_array F64 s (rays rs (map (fun x => x * PI / 180) ts))), 1%nat).
Proof.
  intros K (a & Ea) K' LL. destruct intensity_eq as (sa & st & A & B & E). unfold ray_intensity. rewrite A, B, E. subst k. cbn [is_f64].
  replace (match k' with F32 => false | _ => true end) with true by (destruct k'; congruence). rewrite LL, Nat.eqb_refl. cbn [rbind]. rewrite Ea. cbn [shape_attr rbind].
  rewrite Ea in Cr. inversion Cr; subst. reflexivity.
Qed.
(** Lists and plain numbers: the seed is drawn and the call fails. *)
Lemma list_fails : (exists kk ss d, r = Nested kk ss d) \/ (exists kk x, r = Scalar false kk x) -> forall f, f = fst (ejecta_distribution rays p r theta) ->
  (exists e, f = Err e) /\ snd (ejecta_distribution rays p r theta) = 1%nat /\
  (exists e, fst (ray_intensity rays r theta) = Err e) /\ snd (ray_intensity rays r theta) = 1%nat.
Proof.
  intros H f ->. assert (NA : ~ an_array r) by (intros (a & ->); destruct H as [(? & ? & ? & X) | (? & ? & X)]; discriminate).
  split.
  { apply distribution_fails. intros (_ & [[X _] | (x & ->)] & _); [contradiction |]. destruct H as [(? & ? & ? & X) | (? & ? & X)]; discriminate. }
  destruct intensity_eq as (sa & st & A & B & E). unfold ejecta_distribution, ray_intensity. rewrite A, B.
  destruct (ejecta_eq p r k s rs Cr) as [(_ & X & _) | (P & _)]; [contradiction |]. rewrite P. split; [reflexivity |]. split; [| reflexivity]. cbn [fst]. rewrite E.
  destruct (is_f64 k), (match k' with F32 => false | _ => true end), (Nat.eqb (List.length rs) (List.length ts)); cbn [rbind]; try (eexists; reflexivity).
  destruct H as [(? & ? & ? & ->) | (? & ? & ->)]; eexists; reflexivity.
Qed.
End Distribution.

Lemma ragged rays p r theta k s rs : contains r k s rs -> (an_array r -> k = F64) ->
  py_crater_profile p r (Some Ragged) = Err ValueError
  /\ ejecta_distribution rays p Ragged theta = (Err ValueError, 0%nat) /\ ejecta_distribution rays p r Ragged = (Err ValueError, 0%nat)
  /\ ray_intensity rays Ragged theta = (Err ValueError, 0%nat) /\ ray_intensity rays r Ragged = (Err ValueError, 0%nat).
Proof.
  intros C K. destruct (ejecta_ok p r k s rs C K) as (out & E & _).
  unfold ejecta_distribution, ray_intensity. rewrite E. destruct C as [b k x | k s [| x d] N L | k s L | a L]; try contradiction; repeat split; try reflexivity.
Qed.
