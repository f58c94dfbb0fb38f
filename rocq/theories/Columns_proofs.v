(** Round trip of tuple columns. *)
From Coq Require Import Reals.
From Verif Require Import Common Columns_model Columns_spec.

Lemma eqb_false : forall a b : string, a <> b -> String.eqb a b = false.
Proof. intros. apply String.eqb_neq. assumption. Qed.

Definition col (o : option cell) (i : nat) : option cell :=
  match o with Some (CTup l) => nth_error l i | _ => None end.

(** The flattened dictionary, key by key. *)
Definition flat_of (d e : dict) : Prop :=
  e "location"%string = None /\ e "measured_location"%string = None /\ e "production_ND"%string = None /\
  e "longitude"%string = col (d "location"%string) 0 /\ e "latitude"%string = col (d "location"%string) 1 /\
  e "measured_longitude"%string = col (d "measured_location"%string) 0 /\
  e "measured_latitude"%string = col (d "measured_location"%string) 1 /\
  e "production_D"%string = col (d "production_ND"%string) 0 /\ e "production_N"%string = col (d "production_ND"%string) 1 /\
  e "production_N_stdev"%string = col (d "production_ND"%string) 2 /\
  e "production_time"%string = col (d "production_time"%string) 0 /\
  e "production_time_stdev"%string = col (d "production_time"%string) 1 /\
  forall k, ~ In k tuple_keys -> ~ In k column_keys -> e k = drop_blank d k.

Ltac lits := cbv [String.eqb Ascii.eqb Bool.eqb].

Lemma flatten_spec : forall d, crater_record d -> exists e, flatten d = Ok e /\ flat_of d e.
Proof.
  intros d (HL & HM & HN & HT & C).
  pose proof (C "longitude"%string ltac:(simpl; tauto) ltac:(simpl; intuition discriminate)) as C1.
  pose proof (C "latitude"%string ltac:(simpl; tauto) ltac:(simpl; intuition discriminate)) as C2.
  pose proof (C "measured_longitude"%string ltac:(simpl; tauto) ltac:(simpl; intuition discriminate)) as C3.
  pose proof (C "measured_latitude"%string ltac:(simpl; tauto) ltac:(simpl; intuition discriminate)) as C4.
  pose proof (C "production_D"%string ltac:(simpl; tauto) ltac:(simpl; intuition discriminate)) as C5.
  pose proof (C "production_N"%string ltac:(simpl; tauto) ltac:(simpl; intuition discriminate)) as C6.
  pose proof (C "production_N_stdev"%string ltac:(simpl; tauto) ltac:(simpl; intuition discriminate)) as C7.
  pose proof (C "production_time_stdev"%string ltac:(simpl; tauto) ltac:(simpl; intuition discriminate)) as C8.
  clear C.
  unfold flatten, fold_res, tuple_map, flat_one, fst, snd.
  destruct HL as [HL|(l1 & l2 & HL)]; destruct HM as [HM|(m1 & m2 & HM)];
  destruct HN as [HN|(n1 & n2 & n3 & HN)]; destruct HT as [HT|(t1 & t2 & HT)];
  rewrite HL, HM, HN, HT; cbn [flat_cols item nth_error rbind];
  eexists; (split; [reflexivity|]); unfold flat_of; rewrite HL, HM, HN, HT; cbn [col nth_error];
  ((repeat match goal with |- _ /\ _ => split end);
   [..|intros k NT NC; unfold upd; simpl in NT, NC; rewrite ?eqb_false by (intro E; subst k; tauto); reflexivity]);
  unfold upd, drop_blank; lits;
  rewrite ?C1, ?C2, ?C3, ?C4, ?C5, ?C6, ?C7, ?C8, ?HL, ?HM, ?HN, ?HT; reflexivity.
Qed.

Lemma rebuild_spec : forall d e, crater_record d -> flat_of d e ->
  exists d', rebuild e = Ok d' /\ (forall k, In k tuple_keys -> d' k = d k) /\
   (forall k, ~ In k tuple_keys -> ~ In k column_keys -> d' k = drop_blank d k).
Proof.
  intros d e (HL & HM & HN & HT & _) (E1 & E2 & E3 & E4 & E5 & E6 & E7 & E8 & E9 & E10 & E11 & E12 & E13).
  assert (Oth : forall k, ~ In k tuple_keys -> ~ In k column_keys -> drop_blank e k = drop_blank d k).
  { intros k NT NC. unfold drop_blank at 1. rewrite (E13 k NT NC). unfold drop_blank.
    destruct (d k) as [[| | | |]|]; reflexivity. }
  unfold rebuild, alias_ND, alias_time.
  destruct HL as [HL|(l1 & l2 & HL)]; destruct HM as [HM|(m1 & m2 & HM)];
  destruct HN as [HN|(n1 & n2 & n3 & HN)]; destruct HT as [HT|(t1 & t2 & HT)];
  rewrite HL in *; rewrite HM in *; rewrite HN in *; rewrite HT in *; cbn [col nth_error] in *;
  rewrite E8; try rewrite E9, E10; unfold upd; lits; rewrite ?E11, ?E12;
  unfold fold_res, tuple_map, rebuild_one, existsb, present, fst, snd;
  cbn [fill repeat List.length set_item rbind orb]; unfold upd; lits;
  rewrite ?E1, ?E2, ?E3, ?E4, ?E5, ?E6, ?E7, ?E8, ?E9, ?E10, ?E11, ?E12;
  cbn [orb rbind set_item or_zero];
  eexists; (split; [reflexivity|]);
  (split; [intros k [<-|[<-|[<-|[<-|[]]]]]; unfold drop_blank; lits;
     rewrite ?E1, ?E2, ?E3, ?E4, ?E5, ?E6, ?E7, ?E8, ?E9, ?E10, ?E11, ?E12, ?HL, ?HM, ?HN, ?HT; reflexivity
   |intros k NT NC; rewrite <- (Oth k NT NC); simpl in NT, NC; rewrite ?eqb_false by (intro E; subst k; tauto); reflexivity]).
Qed.

Lemma round_trip : forall d, crater_record d ->
  exists e d', flatten d = Ok e /\ rebuild e = Ok d' /\
   (forall k, In k tuple_keys -> d' k = d k) /\
   (forall k, In k tuple_keys -> k <> "production_time"%string -> e k = None) /\
   (forall k v, In k column_keys -> e k = Some v -> exists x, v = CNum x) /\
   (forall k, ~ In k tuple_keys -> ~ In k column_keys -> e k = drop_blank d k /\ d' k = drop_blank d k).
Proof.
  intros d H. destruct (flatten_spec d H) as (e & Ee & F). destruct (rebuild_spec d e H F) as (d' & Ed & R1 & R2).
  exists e, d'. split; [exact Ee|]. split; [exact Ed|]. split; [exact R1|].
  destruct H as (HL & HM & HN & HT & _). destruct F as (E1 & E2 & E3 & E4 & E5 & E6 & E7 & E8 & E9 & E10 & E11 & E12 & E13).
  split; [intros k [<-|[<-|[<-|[<-|[]]]]] Hk; congruence|].
  split; [|intros k A B; split; [apply E13; assumption|apply R2; assumption]].
  intros k v I Ev.
  destruct HL as [HL|(l1 & l2 & HL)]; destruct HM as [HM|(m1 & m2 & HM)];
  destruct HN as [HN|(n1 & n2 & n3 & HN)]; destruct HT as [HT|(t1 & t2 & HT)];
  rewrite ?HL, ?HM, ?HN, ?HT in *; cbn [col nth_error] in *;
  destruct I as [<-|[<-|[<-|[<-|[<-|[<-|[<-|[<-|[<-|[]]]]]]]]]];
  rewrite Ev in *; try discriminate; match goal with H : Some v = Some _ |- _ => injection H as -> end; eauto.
Qed.

Lemma none_fails : forall d a b, d "location"%string = Some (CTup [CNum a; CNum b]) ->
  d "measured_location"%string = Some CNone -> flatten d = Err TypeError.
Proof.
  intros d a b H1 H2. unfold flatten, fold_res, tuple_map, flat_one, fst, snd. rewrite H1, H2. reflexivity.
Qed.
