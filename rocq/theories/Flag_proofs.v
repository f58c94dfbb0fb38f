(** Proofs for C127. *)
From Coq Require Import List Reals Lra.
From Verif Require Import Common Flag_model Flag_spec.
Import ListNotations.
Open Scope R_scope.

Section Proofs.
Context {crater : Type} (time : crater -> R) (process : list crater -> result (list crater)).
Notation happens := (happens time process).
Notation history := (history time process).

Lemma period a b c : in_period crater time a b c = true <-> b < time c <= a.
Proof. unfold in_period. destruct (Rle_dec (time c) a), (Rlt_dec b (time c)); split; intros; try discriminate; try reflexivity; lra. Qed.
Lemma merge_all s : (flag crater s = Some true \/ flag crater s = None) -> merges_given time s.
Proof.
  intros H a b c. unfold populate, do_quasimc. destruct H as [H | H]; rewrite H.
  - cbn. rewrite filter_In, period. reflexivity.
  - destruct (quasi crater s) as [| x l] eqn:Q; [cbn; tauto |]. cbn -[filter]. rewrite filter_In, period. reflexivity.
Qed.
Lemma merge_none s : flag crater s = Some false -> merges_none time s.
Proof. intros H a b. unfold populate, do_quasimc. rewrite H. reflexivity. Qed.
Lemma given_flag s v : flag crater (happens s (Given v)) = flag crater s.
Proof.
  cbn. unfold set_craters. destruct v as [[| x l] | |]; try reflexivity. destruct (process (x :: l)); reflexivity.
Qed.
Lemma only_given : forall es s, Forall gives es -> flag crater (history s es) = flag crater s.
Proof.
  induction es as [| e es IH]; intros s F; [reflexivity |]. inversion F as [| ? ? G F']; subst. cbn [fold_left].
  change (history s (e :: es)) with (history (happens s e) es). rewrite IH by exact F'. destruct e; try contradiction. apply given_flag.
Qed.
Lemma before_asked l es : Forall gives es -> merges_given time (history (new_sim crater l) es).
Proof. intros F. apply merge_all. right. rewrite only_given; [reflexivity | exact F]. Qed.
Lemma flag_stays b : forall es s, flag crater s = Some b -> Forall (fun e => ~ sets_flag e) es -> flag crater (history s es) = Some b.
Proof.
  induction es as [| e es IH]; intros s H F; [exact H |]. inversion F as [| ? ? N F']; subst.
  change (history s (e :: es)) with (history (happens s e) es). apply IH; [| exact F'].
  destruct e as [| x y | v | v].
  - cbn. unfold do_quasimc. rewrite H. exact H.
  - cbn. unfold populate, do_quasimc. rewrite H. exact H.
  - destruct v; [exfalso; apply N; exact I | exact H | exact H].
  - rewrite given_flag. exact H.
Qed.
Lemma asked_flag s : flag crater s = None -> flag crater (happens s Asked) = Some (match quasi crater s with [] => false | _ => true end)
  /\ forall a b, flag crater (happens s (Populated a b)) = Some (match quasi crater s with [] => false | _ => true end).
Proof. intros H. cbn. unfold populate, do_quasimc. rewrite H. split; [| intros a b]; reflexivity. Qed.
Lemma first_ask l early ask es : Forall gives early -> (ask = Asked \/ exists a b, ask = Populated a b) -> Forall (fun e => ~ sets_flag e) es ->
  let at_first := history (new_sim crater l) early in let s := history (happens at_first ask) es in
  (quasi crater at_first <> [] -> merges_given time s) /\ (quasi crater at_first = [] -> merges_none time s).
Proof.
  intros G A F. cbv zeta. assert (flag crater (history (new_sim crater l) early) = None) as N by (rewrite only_given; [reflexivity | exact G]).
  destruct (asked_flag _ N) as [X Y].
  assert (flag crater (happens (history (new_sim crater l) early) ask) = Some (match quasi crater (history (new_sim crater l) early) with [] => false | _ => true end)) as Z.
  { destruct A as [-> | (a & b & ->)]; [exact X | apply Y]. }
  split; intros Q.
  - apply merge_all. left. apply flag_stays; [| exact F]. rewrite Z. destruct (quasi crater (history (new_sim crater l) early)); [contradiction | reflexivity].
  - apply merge_none. apply flag_stays; [| exact F]. rewrite Z, Q. reflexivity.
Qed.
Lemma flagged s b es : Forall (fun e => ~ sets_flag e) es -> let s' := history (happens s (Flagged (Truth b))) es in
  fst (do_quasimc crater s') = b /\ (if b then merges_given time s' else merges_none time s').
Proof.
  intros F. cbv zeta. assert (flag crater (history (happens s (Flagged (Truth b))) es) = Some b) as H by (apply flag_stays; [reflexivity | exact F]).
  split; [unfold do_quasimc; rewrite H; reflexivity |]. destruct b; [apply merge_all; left; exact H | apply merge_none; exact H].
Qed.
Lemma no_reset s v : (forall b, v <> Truth b) -> set_do_quasimc crater s v = Err TypeError /\ happens s (Flagged v) = s.
Proof. intros N. destruct v; [exfalso; exact (N b eq_refl) | split; reflexivity | split; reflexivity]. Qed.
Lemma given_list s v : (v = Absent crater \/ v = List crater [] -> quasi crater (happens s (Given v)) = [])
  /\ (forall l, v = List crater l -> l <> [] -> forall l', process l = Ok l' -> quasi crater (happens s (Given v)) = l')
  /\ ((v = Wrong crater \/ exists l e, v = List crater l /\ l <> [] /\ process l = Err e) -> happens s (Given v) = s).
Proof.
  split; [intros [-> | ->]; reflexivity |]. split.
  - intros [| x l] -> N l' E; [contradiction |]. cbn. rewrite E. reflexivity.
  - intros [-> | ([| x l] & e & -> & N & E)]; [reflexivity | contradiction |]. cbn. rewrite E. reflexivity.
Qed.
Lemma list_kept : forall es s, Forall (fun e => ~ gives e) es -> quasi crater (history s es) = quasi crater s.
Proof.
  induction es as [| e es IH]; intros s F; [reflexivity |]. inversion F as [| ? ? N F']; subst.
  change (history s (e :: es)) with (history (happens s e) es). rewrite IH by exact F'.
  destruct e as [| x y | v | v]; [| | destruct v | exfalso; apply N; exact I]; try reflexivity; cbn; unfold populate, do_quasimc; destruct (flag crater s); reflexivity.
Qed.
End Proofs.

Lemma late_ex : Forall gives [Given (Absent R)] /\ quasi R (history own keep (new_sim R []) [Given (Absent R)]) = []
  /\ quasi R (history own keep (happens own keep (new_sim R []) Asked) [Given (List R [3])]) = [3]
  /\ Forall (fun e => ~ sets_flag e) [Given (List R [3])].
Proof. split; [repeat constructor |]. split; [reflexivity |]. split; [reflexivity |]. constructor; [intros [] | constructor]. Qed.
Lemma early_ex : Forall gives [Given (List R [3; 5])] /\ In 3 (quasi R (history own keep (new_sim R []) [Given (List R [3; 5])])).
Proof. split; [repeat constructor |]. left. reflexivity. Qed.
Lemma flagged_ex : Forall (fun e : event R => ~ sets_flag e) [Asked; Populated 4 0; Given (List R [3]); Flagged Nothing].
Proof. repeat (constructor; [intros [] |]). constructor. Qed.
Lemma kept_ex : Forall (fun e : event R => ~ gives e) [Asked; Populated 4 0; Flagged (Truth false)].
Proof. repeat (constructor; [intros [] |]). constructor. Qed.
