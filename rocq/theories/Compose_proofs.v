(** Lemmas about the data composer. *)
From Coq Require Import Reals Permutation Lra.
From Verif Require Import Common Compose_model Compose_spec.
Open Scope R_scope.

(** ** Values *)
Lemma pix_gives r p : (exists d, pix_dist r p = Some d) <-> exists m, gives r p m.
Proof.
  unfold pix_dist, gives. split.
  - intros [d H]. destruct (ra_inside r p); [|discriminate]. destruct (ra_value r p) as [v|]; [|discriminate].
    eexists. split; [reflexivity|]. exists v. split; reflexivity.
  - intros [m [I [v [V _]]]]. rewrite I, V. eauto.
Qed.

Lemma nearest_none l p : nearest l p = None <-> forall r, In r l -> forall m, ~ gives r p m.
Proof.
  induction l as [|r l IH]; cbn [nearest]; [split; [intros _ r []|reflexivity]|].
  destruct (pix_dist r p) as [d|] eqn:D.
  - assert (G : exists m, gives r p m) by (apply pix_gives; eauto). split.
    + destruct (nearest l p) as [[r' d']|]; [destruct (Rlt_dec d' d)|]; discriminate.
    + intros H. destruct G as [m G]. exfalso. exact (H r (or_introl eq_refl) m G).
  - rewrite IH. split; intros H.
    + intros s [<-|I] m G; [|exact (H s I m G)]. assert (X : exists d, pix_dist r p = Some d) by (apply pix_gives; eauto). destruct X. congruence.
    + intros s I. apply H. right. exact I.
Qed.

Lemma nearest_some l p r d : nearest l p = Some (r, d) ->
  In r l /\ pix_dist r p = Some d /\ forall s e, In s l -> pix_dist s p = Some e -> d <= e.
Proof.
  revert r d. induction l as [|s l IH]; cbn [nearest]; intros r d H; [discriminate|].
  destruct (pix_dist s p) as [e|] eqn:E.
  - destruct (nearest l p) as [[r' d']|] eqn:N.
    + destruct (IH _ _ eq_refl) as [I [P M]]. destruct (Rlt_dec d' e) as [L|L]; injection H as <- <-.
      * split; [right; exact I|]. split; [exact P|]. intros t f [<-|J] T; [|exact (M t f J T)]. assert (e = f) by congruence. lra.
      * split; [left; reflexivity|]. split; [exact E|]. intros t f [<-|J] T; [assert (e = f) by congruence; lra|].
        pose proof (M t f J T). lra.
    + injection H as <- <-. split; [left; reflexivity|]. split; [exact E|]. intros t f [<-|J] T; [assert (e = f) by congruence; lra|].
      pose proof (proj1 (nearest_none l p) N t J) as X. assert (Y : exists m, gives t p m) by (apply pix_gives; eauto). destruct Y as [m Y]. exfalso. exact (X m Y).
  - destruct (IH _ _ H) as [I [P M]]. split; [right; exact I|]. split; [exact P|].
    intros t f [<-|J] T; [congruence|exact (M t f J T)].
Qed.

Lemma composed_gives l p r d : nearest l p = Some (r, d) -> gives r p (composed l p).
Proof.
  intros N. destruct (nearest_some _ _ _ _ N) as [_ [P _]]. unfold composed. rewrite N. unfold pix_dist in P.
  unfold gives. destruct (ra_inside r p); [|discriminate]. destruct (ra_value r p) as [v|]; [|discriminate].
  split; [reflexivity|]. exists v. split; reflexivity.
Qed.

Lemma gives_fun r p a b : gives r p a -> gives r p b -> a = b.
Proof. intros [_ [v [V A]]] [_ [w [W B]]]. congruence. Qed.

Theorem values l p :
  ((forall r m, In r l -> ~ gives r p m) -> composed l p = 0) /\
  ((exists r m, In r l /\ gives r p m) -> exists r, In r l /\ gives r p (composed l p)) /\
  (forall r m, In r l -> gives r p m -> (forall s k, In s l -> gives s p k -> s = r) -> composed l p = m).
Proof.
  split; [|split].
  - intros H. unfold composed. replace (nearest l p) with (@None (raster * R)); [reflexivity|].
    symmetry. apply nearest_none. intros r I m. apply H. exact I.
  - intros [r [m [I G]]]. destruct (nearest l p) as [[s d]|] eqn:N.
    + exists s. split; [apply (nearest_some _ _ _ _ N)|apply (composed_gives _ _ _ _ N)].
    + exfalso. exact (proj1 (nearest_none l p) N r I m G).
  - intros r m I G U. destruct (nearest l p) as [[s d]|] eqn:N.
    + destruct (nearest_some _ _ _ _ N) as [J _]. pose proof (composed_gives _ _ _ _ N) as C.
      rewrite (U s _ J C) in C. exact (gives_fun _ _ _ _ C G).
    + exfalso. exact (proj1 (nearest_none l p) N r I m G).
Qed.

(** ** Life *)
Section Life.
Variable pts : list point.
Variable is_local : bool.
Variable open : string -> option raster.

Lemma add_items_props l : forall c, c_finished c = false ->
  let c' := fst (snd (add_items open l c)) in
  (accounted c -> accounted c') /\ c_finished c' = false /\ c_elev c' = c_elev c /\ c_closed c' = c_closed c.
Proof.
  induction l as [|it l IH]; intros c F c'.
  - subst c'. cbn. auto.
  - subst c'. cbn [add_items]. destruct (match it with Reader r => Some r | Path name => open name end) as [r|].
    + set (c1 := mk_c _ _ _ _ _). specialize (IH c1 F). destruct (add_items open l c1) as [rest out]. cbn [snd] in *.
      destruct IH as [A [B [C D]]]. split; [|split; [exact B|split; [exact C|exact D]]].
      intros G. apply A. unfold accounted in *. subst c1. cbn [c_added c_closed c_list]. rewrite map_app. cbn [map].
      rewrite app_assoc. apply Permutation_app_tail. exact G.
    + cbn. auto.
Qed.

Lemma finish_cases c : 
  (finish pts is_local c = (c, Some ValueError)) \/
  (c_finished c = false /\ c_list c <> [] /\ (is_local = true -> forall r, In r (c_list c) -> exists p, In p pts /\ ra_inside r p = true) /\
   finish pts is_local c = (mk_c [] true (map (fun q => fst q + composed (c_list c) (snd q)) (combine (c_elev c) pts))
          (c_added c) (c_closed c ++ map ra_handle (c_list c))%list, None)).
Proof.
  unfold finish. destruct (c_finished c); [left; reflexivity|].
  destruct (is_local && existsb (misses pts) (c_list c)) eqn:M; [left; reflexivity|].
  destruct (c_list c) as [|r l] eqn:L; [left; reflexivity|]. right. split; [reflexivity|]. split; [discriminate|]. split; [|reflexivity].
  intros T s I. rewrite T in M. cbn [andb] in M.
  destruct (existsb (ra_inside s) pts) eqn:X; [apply existsb_exists in X; exact X|].
  exfalso. assert (Y : existsb (misses pts) (r :: l) = true) by (apply existsb_exists; exists s; split; [exact I|unfold misses; rewrite X; reflexivity]). congruence.
Qed.

Lemma step_accounted o c : (c_finished c = true -> c_list c = []) -> accounted c ->
  let c' := fst (step pts is_local open o c) in (c_finished c' = true -> c_list c' = []) /\ accounted c'.
Proof.
  intros K A. destruct o as [l| | |e]; cbn [step].
  - unfold add_data. destruct (c_finished c) eqn:F; [cbn; auto|].
    destruct (add_items_props l c F) as [B [C _]]. cbv zeta. split; [congruence|apply B; exact A].
  - cbn [fst cancel c_list]. split; [reflexivity|]. unfold accounted in *. cbn. rewrite app_nil_r. exact A.
  - destruct (finish_cases c) as [->|[_ [_ [_ ->]]]]; cbn [fst]; [auto|]. split; [reflexivity|].
    unfold accounted in *. cbn. rewrite app_nil_r. exact A.
  - cbn. auto.
Qed.

Lemma calls_accounted l : forall c, (c_finished c = true -> c_list c = []) -> accounted c ->
  let c' := calls pts is_local open l c in (c_finished c' = true -> c_list c' = []) /\ accounted c'.
Proof.
  induction l as [|o l IH]; intros c K A; [cbn; auto|]. cbn [calls fold_left].
  destruct (step_accounted o c K A) as [K1 A1]. exact (IH _ K1 A1).
Qed.

Lemma finished_stays o c : c_finished c = true -> c_list c = [] ->
  let c' := fst (step pts is_local open o c) in
  c_finished c' = true /\ c_list c' = [] /\ c_elev c' = c_elev c /\ c_added c' = c_added c /\ c_closed c' = c_closed c.
Proof.
  intros F L. destruct o as [l| | |e]; cbn [step].
  - unfold add_data. rewrite F. cbn. auto.
  - cbn. rewrite L. cbn. rewrite app_nil_r. auto.
  - unfold finish. rewrite F. cbn. auto.
  - cbn. auto.
Qed.

Lemma finished_calls l : forall c, c_finished c = true -> c_list c = [] ->
  c_elev (calls pts is_local open l c) = c_elev c /\ c_finished (calls pts is_local open l c) = true /\ c_closed (calls pts is_local open l c) = c_closed c /\
  c_added (calls pts is_local open l c) = c_added c.
Proof.
  induction l as [|o l IH]; intros c F L; [cbn; auto|]. cbn [calls fold_left].
  destruct (finished_stays o c F L) as [A [B [C [D E]]]]. destruct (IH _ A B) as [X [Y [Z W]]].
  unfold calls in *. rewrite X, Y, Z, W, C, D, E. auto.
Qed.

Lemma step_elev o c : c_finished c = false ->
  let c' := fst (step pts is_local open o c) in
  c_elev c' = c_elev c \/ (o = Finish /\ c_finished c' = true /\ snd (step pts is_local open o c) = None /\
    c_elev c' = map (fun q => fst q + composed (c_list c) (snd q)) (combine (c_elev c) pts)).
Proof.
  intros F. destruct o as [l| | |e]; cbn [step].
  - unfold add_data. rewrite F. left. apply (add_items_props l c F).
  - left. reflexivity.
  - destruct (finish_cases c) as [->|[_ [_ [_ ->]]]]; cbn [fst snd]; [left; reflexivity|right]. auto.
  - left. reflexivity.
Qed.

Theorem once l : forall elev, let c := calls pts is_local open l (fresh elev) in
  accounted c /\ (c_finished c = true -> all_closed c /\
     forall o, let (c', e) := step pts is_local open o c in c_elev c' = c_elev c /\ all_closed c' /\
       (o = Finish \/ (exists its, o = Add its) -> c' = c /\ e = Some ValueError)) /\
  (c_elev c = elev \/ c_finished c = true /\ exists before after, l = (before ++ Finish :: after)%list /\
     let b := calls pts is_local open before (fresh elev) in c_finished b = false /\ c_list b <> [] /\
     c_elev c = map (fun q => fst q + composed (c_list b) (snd q)) (combine elev pts)).
Proof.
  intros elev c.
  assert (K0 : c_finished (fresh elev) = true -> c_list (fresh elev) = []) by reflexivity.
  assert (A0 : accounted (fresh elev)) by (unfold accounted; cbn; constructor).
  destruct (calls_accounted l _ K0 A0) as [K A]. change (calls pts is_local open l (fresh elev)) with c in K, A.
  split; [exact A|]. split.
  - intros F. assert (AC : all_closed c) by (unfold accounted in A; rewrite (K F) in A; cbn in A; rewrite app_nil_r in A; exact A).
    split; [exact AC|]. intros o. pose proof (finished_stays o c F (K F)) as X. destruct (step pts is_local open o c) as [c' e] eqn:S.
    cbn [fst] in X. destruct X as [_ [_ [X1 [X2 X3]]]]. split; [exact X1|]. split; [unfold all_closed; rewrite X2, X3; exact AC|].
    intros [->|[its ->]].
    + cbn in S. unfold finish in S. rewrite F in S. injection S as <- <-. auto.
    + cbn in S. unfold add_data in S. rewrite F in S. cbn in S. injection S as <- <-. auto.
  - subst c. clear K A. induction l as [|o l IH] using rev_ind; [left; reflexivity|].
    unfold calls in *. rewrite fold_left_app. cbn [fold_left]. set (b := fold_left _ l (fresh elev)) in *.
    destruct (calls_accounted l _ K0 A0) as [K A]. change (calls pts is_local open l (fresh elev)) with b in K, A.
    destruct (c_finished b) eqn:F.
    + destruct (finished_stays o b F (K eq_refl)) as [X1 [_ [X2 _]]]. rewrite X2.
      destruct IH as [IH|[_ [be [af [Q IH]]]]]; [left; exact IH|]. right. split; [exact X1|].
      exists be, (af ++ [o])%list. split; [rewrite Q, <- app_assoc; reflexivity|exact IH].
    + assert (EB : c_elev b = elev) by (destruct IH as [IH|[IH _]]; [exact IH|discriminate]).
      destruct (step_elev o b F) as [X|[-> [X1 [X2 X3]]]]; [left; congruence|].
      right. split; [exact X1|]. exists l, []. split; [reflexivity|]. cbv zeta. change (fold_left (fun c o => fst (step pts is_local open o c)) l (fresh elev)) with b.
      split; [exact F|]. split; [|rewrite <- EB; exact X3].
      destruct (finish_cases b) as [Y|[_ [Y _]]]; [|exact Y]. cbn in X2. rewrite Y in X2. discriminate.
Qed.

(** ** The with statement *)
Lemma body_calls l : forall c, exists k, fst (body pts is_local open l c) = calls pts is_local open (firstn k l) c.
Proof.
  induction l as [|o l IH]; intros c; [exists 0%nat; reflexivity|]. cbn [body].
  destruct (step pts is_local open o c) as [c' e] eqn:S. destruct e as [e|].
  - exists 1%nat. cbn. rewrite S. reflexivity.
  - destruct (IH c') as [k K]. exists (Datatypes.S k). cbn [firstn calls fold_left]. rewrite S. exact K.
Qed.

Lemma body_ok l elev : let c := fst (body pts is_local open l (fresh elev)) in
  accounted c /\ (c_finished c = true -> c_list c = []) .
Proof.
  intros c. destruct (body_calls l (fresh elev)) as [k K]. subst c. rewrite K.
  assert (K0 : c_finished (fresh elev) = true -> c_list (fresh elev) = []) by reflexivity.
  assert (A0 : accounted (fresh elev)) by (unfold accounted; cbn; constructor).
  destruct (calls_accounted (firstn k l) _ K0 A0). split; assumption.
Qed.

Theorem with_raises l elev c e : body pts is_local open l (fresh elev) = (c, Some e) ->
  exists c', with_block pts is_local open l (fresh elev) = (c', Some e) /\
    c_finished c' = true /\ all_closed c' /\ c_elev c' = c_elev c.
Proof.
  intros B. unfold with_block. pose proof (body_ok l elev) as [A K]. rewrite B in *. cbn [fst] in *. unfold leave.
  destruct (c_finished c) eqn:F.
  - exists c. split; [reflexivity|]. split; [exact F|]. split; [|reflexivity]. unfold accounted in A. rewrite (K eq_refl) in A. cbn in A. rewrite app_nil_r in A. exact A.
  - exists (cancel c). split; [reflexivity|]. split; [reflexivity|]. split; [exact A|reflexivity].
Qed.

Theorem with_returns l elev c : with_block pts is_local open l (fresh elev) = (c, None) ->
  c_finished c = true /\ all_closed c.
Proof.
  unfold with_block. pose proof (body_ok l elev) as [A K]. destruct (body pts is_local open l (fresh elev)) as [c1 e]. cbn [fst] in *.
  unfold leave. destruct (c_finished c1) eqn:F.
  - intros [= <- ->]. split; [exact F|]. unfold accounted in A. rewrite (K eq_refl) in A. cbn in A. rewrite app_nil_r in A. exact A.
  - destruct e as [e|]; [discriminate|]. destruct (finish_cases c1) as [->|[_ [_ [_ ->]]]]; [discriminate|].
    intros [= <-]. split; [reflexivity|]. exact A.
Qed.

Theorem with_applies l elev c : body pts is_local open l (fresh elev) = (c, None) -> c_finished c = false -> c_list c <> [] ->
  (is_local = true -> forall r, In r (c_list c) -> exists p, In p pts /\ ra_inside r p = true) ->
  exists c', with_block pts is_local open l (fresh elev) = (c', None) /\
    c_elev c' = map (fun q => fst q + composed (c_list c) (snd q)) (combine elev pts).
Proof.
  intros B F L M. unfold with_block. rewrite B. unfold leave. rewrite F. unfold finish. rewrite F.
  replace (is_local && existsb (misses pts) (c_list c)) with false.
  - destruct (c_list c) as [|r l'] eqn:Q; [congruence|]. eexists. split; [reflexivity|]. cbn [c_elev].
    destruct (body_calls l (fresh elev)) as [k K]. rewrite B in K. cbn [fst] in K.
    destruct (once (firstn k l) elev) as [_ [_ [E|[E _]]]]; cbv zeta in E; rewrite <- K in E; [rewrite E; reflexivity|congruence].
  - symmetry. destruct is_local; [|reflexivity]. cbn [andb]. apply not_true_is_false. intros X. apply existsb_exists in X.
    destruct X as [r [I X]]. destruct (M eq_refl r I) as [p [P Q]]. unfold misses in X. apply negb_true_iff in X.
    assert (Y : existsb (ra_inside r) pts = true) by (apply existsb_exists; eauto). congruence.
Qed.

Theorem with_leaks l elev c : body pts is_local open l (fresh elev) = (c, None) -> c_finished c = false ->
  (c_list c = [] \/ is_local = true /\ exists r, In r (c_list c) /\ forall p, In p pts -> ra_inside r p = false) ->
  with_block pts is_local open l (fresh elev) = (c, Some ValueError).
Proof.
  intros B F H. unfold with_block. rewrite B. unfold leave. rewrite F. unfold finish. rewrite F.
  destruct H as [H|[-> [r [I H]]]].
  - rewrite H. cbn. destruct is_local; reflexivity.
  - replace (true && existsb (misses pts) (c_list c)) with true; [reflexivity|]. symmetry. cbn [andb]. apply existsb_exists.
    exists r. split; [exact I|]. unfold misses. apply negb_true_iff. apply not_true_is_false. intros X. apply existsb_exists in X.
    destruct X as [p [P Q]]. rewrite (H p P) in Q. discriminate.
Qed.

Lemma adds_waiting rs : forall c, c_finished c = false ->
  exists c', body pts is_local open [Add (map Reader rs)] c = (c', None) /\ c_finished c' = false /\
   c_list c' = (c_list c ++ rs)%list /\ c_elev c' = c_elev c /\ c_closed c' = c_closed c /\ c_added c' = (c_added c ++ map ra_handle rs)%list.
Proof.
  cbn [body step]. unfold add_data. intros c F. rewrite F. revert c F.
  induction rs as [|r rs IH]; intros c F.
  - cbn. exists c. rewrite !app_nil_r. repeat split; assumption.
  - cbn [map add_items]. set (c1 := mk_c _ _ _ _ _). destruct (IH c1 F) as [c' [A [B [C [D [E G]]]]]].
    destruct (add_items open (map Reader rs) c1) as [its [c2 e]]. cbn [snd] in *. exists c'. split; [exact A|]. split; [exact B|].
    subst c1. cbn in C, D, E, G. rewrite <- app_assoc in C, G. repeat split; assumption.
Qed.

Theorem list_replaced its c : c_finished c = false -> snd (snd (add_data open its c)) = None ->
  exists rs, fst (add_data open its c) = map Reader rs /\ c_list (fst (snd (add_data open its c))) = (c_list c ++ rs)%list.
Proof.
  intros F. unfold add_data. rewrite F. revert c F. induction its as [|it its IH]; intros c F.
  - cbn. intros _. exists []. rewrite app_nil_r. auto.
  - cbn [add_items]. destruct (match it with Reader r => Some r | Path name => open name end) as [r|]; [|discriminate].
    set (c1 := mk_c _ _ _ _ _). specialize (IH c1 F). destruct (add_items open its c1) as [rest out]. cbn [fst snd] in *.
    intros N. destruct (IH N) as [rs [A B]]. exists (r :: rs). rewrite A, B. subst c1. cbn. rewrite <- app_assoc. auto.
Qed.
End Life.

(** ** Distances *)
Lemma py_mod_small x : 0 <= x < 2 * PI -> py_mod x (2 * PI) = x.
Proof.
  intros H. unfold py_mod. replace (Int_part (x / (2 * PI))) with 0%Z; [ring|].
  pose proof PI_RGT_0. assert (0 <= x / (2 * PI) < 1).
  { split; [apply Rmult_le_pos; [lra|left; apply Rinv_0_lt_compat; lra]|]. apply Rmult_lt_reg_r with (2 * PI); [lra|].
    unfold Rdiv. rewrite Rmult_assoc, Rinv_l by lra. lra. }
  destruct (base_Int_part (x / (2 * PI))) as [A B].
  assert (-1 < IZR (Int_part (x / (2 * PI)))) by lra. assert (IZR (Int_part (x / (2 * PI))) < 1) by lra.
  apply lt_IZR in H2. apply lt_IZR in H3. lia.
Qed.

Lemma equator_distance a : -180 < a < 180 -> orderable_distance (0, 0) (a, 0) = cos (a * (PI / 180) / 2) ^ 2.
Proof.
  intros A. pose proof PI_RGT_0. unfold orderable_distance. cbn [fst snd]. cbv zeta. unfold deg2rad.
  assert (- PI < a * (PI / 180) < PI).
  { split; [replace (- PI) with (-180 * (PI / 180)) by field|replace PI with (180 * (PI / 180)) at 2 by field]; apply Rmult_lt_compat_r; lra. }
  rewrite py_mod_small by lra. replace (0 * (PI / 180)) with 0 by ring. replace ((0 - 0) / 2) with 0 by field. rewrite sin_0, cos_0.
  replace ((a * (PI / 180) - 0 + PI) / 2) with (PI / 2 + a * (PI / 180) / 2) by field.
  rewrite <- cos_sin. ring.
Qed.

Lemma equator_chord a : chord (0, 0) (a, 0) = sin (a * (PI / 180) / 2) ^ 2.
Proof.
  unfold chord. cbn [fst snd]. replace (0 * (PI / 180)) with 0 by ring. replace ((0 - 0) / 2) with 0 by field.
  rewrite sin_0, cos_0. replace (a * (PI / 180) - 0) with (a * (PI / 180)) by ring. ring.
Qed.

Theorem farthest r1 r2 a b x y : -180 < a < 180 -> -180 < b < 180 -> chord (0, 0) (a, 0) < chord (0, 0) (b, 0) ->
  ra_centre r1 (0, 0) = (a, 0) -> ra_centre r2 (0, 0) = (b, 0) -> gives r1 (0, 0) x -> gives r2 (0, 0) y ->
  composed [r1; r2] (0, 0) = y /\ composed [r2; r1] (0, 0) = y.
Proof.
  intros A B C C1 C2 G1 G2. rewrite !equator_chord in C.
  assert (L : orderable_distance (0, 0) (b, 0) < orderable_distance (0, 0) (a, 0)).
  { rewrite !equator_distance by assumption. 
    pose proof (sin2_cos2 (a * (PI / 180) / 2)). pose proof (sin2_cos2 (b * (PI / 180) / 2)). unfold Rsqr in *. cbn [pow] in *. lra. }
  destruct G1 as [I1 [v [V ->]]]. destruct G2 as [I2 [w [W ->]]].
  unfold composed. cbn [nearest]. unfold pix_dist. rewrite I1, I2, V, W, C1, C2. split.
  - destruct (Rlt_dec _ _); [rewrite W; reflexivity|lra].
  - destruct (Rlt_dec _ _); [lra|]. rewrite W. reflexivity.
Qed.

(** ** A case *)
Definition e_raster (h : nat) (lon v : R) : raster := mk_raster h [] (fun _ => true) (fun _ => Some v) (fun _ => (lon, 0)).
Lemma e_case : 
  (-180 < 1 < 180 /\ -180 < 90 < 180 /\ chord (0, 0) (1, 0) < chord (0, 0) (90, 0)) /\
  gives (e_raster 0 1 5) (0, 0) 5 /\ gives (e_raster 1 90 7) (0, 0) 7 /\
  composed [e_raster 0 1 5; e_raster 1 90 7] (0, 0) = 7.
Proof.
  assert (C : chord (0, 0) (1, 0) < chord (0, 0) (90, 0)).
  { rewrite !equator_chord. pose proof PI_RGT_0. apply Rlt_le_trans with (sin (90 * (PI / 180) / 2) ^ 2); [|lra].
    assert (P : 0 < sin (1 * (PI / 180) / 2)) by (apply sin_gt_0; lra).
    assert (sin (1 * (PI / 180) / 2) < sin (90 * (PI / 180) / 2)) by (apply sin_increasing_1; lra).
    cbn [pow]. rewrite !Rmult_1_r. apply Rmult_gt_0_lt_compat; lra. }
  assert (G1 : gives (e_raster 0 1 5) (0, 0) 5) by (split; [reflexivity|]; exists 5; cbn; split; [reflexivity|ring]).
  assert (G2 : gives (e_raster 1 90 7) (0, 0) 7) by (split; [reflexivity|]; exists 7; cbn; split; [reflexivity|ring]).
  split; [split; [lra|split; [lra|exact C]]|]. split; [exact G1|]. split; [exact G2|].
  apply (farthest (e_raster 0 1 5) (e_raster 1 90 7) 1 90 5 7); try lra; try reflexivity; assumption.
Qed.
