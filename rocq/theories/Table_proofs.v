From Coq Require Import Reals ZArith List Lia Bool.
From Verif Require Import Common Table_model Table_spec.
Import ListNotations.
Open Scope string_scope.

Definition field (header fields : list string) (k : string) : option value :=
  match find (fun p => String.eqb (fst p) k) (combine header fields) with
  | Some (_, s) => Some (VText s)
  | None => if in_dec string_dec k header then Some VNone else None
  end.
Lemma set_same d k v : set d k v k = v.
Proof. unfold set. rewrite String.eqb_refl. reflexivity. Qed.
Lemma set_other d k v j : j <> k -> set d k v j = d j.
Proof. intros N. unfold set. apply String.eqb_neq in N. rewrite N. reflexivity. Qed.
Lemma by_column_at header : forall fields d k, NoDup header ->
  by_column header fields d k = match field header fields k with Some v => Some v | None => d k end.
Proof.
  unfold field. induction header as [|h hs IH]; intros fields d k ND; [reflexivity|].
  inversion ND as [|? ? NI ND']; subst. cbn [by_column]. destruct fields as [|f fs].
  - rewrite IH by exact ND'. cbn [combine find]. rewrite combine_nil. cbn [find].
    destruct (in_dec string_dec k hs) as [A|A], (in_dec string_dec k (h :: hs)) as [B|B]; try reflexivity.
    + exfalso. apply B. right. exact A.
    + destruct B as [<-|B]; [apply set_same | contradiction].
    + apply set_other. intros ->. apply B. left. reflexivity.
  - rewrite IH by exact ND'. cbn [combine find fst]. destruct (String.eqb h k) eqn:E.
    + apply String.eqb_eq in E. subst k.
      destruct (find (fun p => String.eqb (fst p) h) (combine hs fs)) as [[a b]|] eqn:F.
      * exfalso. apply find_some in F as [F G]. apply String.eqb_eq in G. cbn in G. subst a. apply in_combine_l in F. contradiction.
      * destruct (in_dec string_dec h hs); [contradiction|]. apply set_same.
    + apply String.eqb_neq in E.
      destruct (find (fun p => String.eqb (fst p) k) (combine hs fs)) as [[a b]|]; [reflexivity|].
      destruct (in_dec string_dec k hs) as [A|A], (in_dec string_dec k (h :: hs)) as [B|B]; try reflexivity.
      * exfalso. apply B. right. exact A.
      * destruct B as [B|B]; contradiction.
      * apply set_other. intros X. apply E. symmetry. exact X.
Qed.

(* ------------------------------ pairs and triples ------------------------------ *)
Definition raw (inp : dict) : Prop := forall k, inp k = None \/ inp k = Some VNone \/ exists s, inp k = Some (VText s).
Definition pv (inp : dict) (k : string) : value := match inp k with Some v => v | None => VNone end.
Lemma pv_fill inp k : match inp k with None | Some VNone => VNone | Some x => x end = pv inp k.
Proof. unfold pv. destruct (inp k) as [[]|]; reflexivity. Qed.
Lemma set_set d k v w j : set (set d k v) k w j = set d k w j.
Proof. unfold set. destruct (String.eqb j k); reflexivity. Qed.

(** One column into a list. *)
Lemma fill_step inp tup i v (r : list string) new l : String.eqb v tup = false -> new tup = Some (VList l) -> (i < List.length l)%nat ->
  nth i l VNone = VNone ->
  exists new', fill inp tup i (v :: r) new = fill inp tup (S i) r new' /\ new' tup = Some (VList (set_item i (pv inp v) l)) /\
    (forall k, k <> tup -> new' k = new k).
Proof.
  intros N E L Z. cbn. rewrite N. unfold pv.
  assert (SI : set_item i VNone l = l).
  { clear -L Z. revert i L Z. induction l as [|a l IH]; intros [|i] L Z; cbn in *; try lia; [subst; reflexivity|].
    f_equal. apply IH; [lia | exact Z]. }
  destruct (inp v) as [x|].
  - destruct x; try (exists new; split; [reflexivity|]; rewrite ?SI; split; [exact E|reflexivity]);
    rewrite E; cbn; (eexists; split; [reflexivity|]; split; [apply set_same | intros k K; apply set_other; exact K]).
  - exists new. split; [reflexivity|]. rewrite SI. split; [exact E | reflexivity].
Qed.
Lemma pair_one inp tup a b new : inp tup = None -> String.eqb a tup = false -> String.eqb b tup = false ->
  exists d, rebuild_one inp (tup, [a; b]) new = Ok d /\
    forall k, d k = if String.eqb k tup then if (present inp a || present inp b)%bool then Some (VList [pv inp a; pv inp b]) else new k
                    else new k.
Proof.
  intros T A B. unfold rebuild_one. cbn [fst snd existsb]. rewrite orb_false_r.
  destruct (present inp a || present inp b)%bool eqn:P.
  - assert (PT : present inp tup = false) by (unfold present; rewrite T; reflexivity). rewrite PT. cbn [List.length repeat].
    set (n0 := set new tup _).
    destruct (fill_step inp tup 0 a [b] n0 [VNone; VNone] A (set_same _ _ _)) as (n1 & -> & E1 & O1); [cbn; lia | reflexivity |].
    destruct (fill_step inp tup 1 b [] n1 [pv inp a; VNone] B E1) as (n2 & -> & E2 & O2); [cbn; lia | reflexivity |].
    exists n2. split; [reflexivity|]. intros k. destruct (String.eqb k tup) eqn:K.
    + apply String.eqb_eq in K. subst k. exact E2.
    + apply String.eqb_neq in K. rewrite O2, O1 by exact K. apply set_other. exact K.
  - exists new. split; [reflexivity|]. intros k. destruct (String.eqb k tup); reflexivity.
Qed.
Lemma triple_one inp tup a b c new : inp tup = None -> String.eqb a tup = false -> String.eqb b tup = false -> String.eqb c tup = false ->
  exists d, rebuild_one inp (tup, [a; b; c]) new = Ok d /\
    forall k, d k = if String.eqb k tup then if (present inp a || (present inp b || present inp c))%bool
                                              then Some (VList [pv inp a; pv inp b; pv inp c]) else new k
                    else new k.
Proof.
  intros T A B C. unfold rebuild_one. cbn [fst snd existsb]. rewrite orb_false_r.
  destruct (present inp a || (present inp b || present inp c))%bool eqn:P.
  - assert (PT : present inp tup = false) by (unfold present; rewrite T; reflexivity). rewrite PT. cbn [List.length repeat].
    set (n0 := set new tup _).
    destruct (fill_step inp tup 0 a [b; c] n0 [VNone; VNone; VNone] A (set_same _ _ _)) as (n1 & -> & E1 & O1); [cbn; lia | reflexivity |].
    destruct (fill_step inp tup 1 b [c] n1 [pv inp a; VNone; VNone] B E1) as (n2 & -> & E2 & O2); [cbn; lia | reflexivity |].
    destruct (fill_step inp tup 2 c [] n2 [pv inp a; pv inp b; VNone] C E2) as (n3 & -> & E3 & O3); [cbn; lia | reflexivity |].
    exists n3. split; [reflexivity|]. intros k. destruct (String.eqb k tup) eqn:K.
    + apply String.eqb_eq in K. subst k. exact E3.
    + apply String.eqb_neq in K. rewrite O3, O2, O1 by exact K. apply set_other. exact K.
  - exists new. split; [reflexivity|]. intros k. destruct (String.eqb k tup); reflexivity.
Qed.
Lemma own_one inp tup b new : inp tup = None -> String.eqb b tup = false ->
  exists d, rebuild_one inp (tup, [tup; b]) new = Ok d /\
    forall k, d k = if String.eqb k tup then if present inp b then Some (VList [VNone; pv inp b]) else new k else new k.
Proof.
  intros T B. unfold rebuild_one. cbn [fst snd existsb]. rewrite orb_false_r.
  assert (PT : present inp tup = false) by (unfold present; rewrite T; reflexivity). rewrite PT. cbn [orb].
  destruct (present inp b) eqn:P.
  - cbn [List.length repeat]. set (n0 := set new tup _).
    assert (F0 : fill inp tup 0 [tup; b] n0 = fill inp tup 1 [b] n0) by (cbn [fill]; rewrite String.eqb_refl; reflexivity).
    rewrite F0.
    destruct (fill_step inp tup 1 b [] n0 [VNone; VNone] B (set_same _ _ _)) as (n2 & -> & E2 & O2); [cbn; lia | reflexivity |].
    exists n2. split; [reflexivity|]. intros k. destruct (String.eqb k tup) eqn:K.
    + apply String.eqb_eq in K. subst k. exact E2.
    + apply String.eqb_neq in K. rewrite O2 by exact K. apply set_other. exact K.
  - exists new. split; [reflexivity|]. intros k. destruct (String.eqb k tup); reflexivity.
Qed.

(** The dictionary of a row with its pairs. *)
Definition pairs_of (inp : dict) (k : string) : option value :=
  if String.eqb k "location" then
    if (present inp "longitude" || present inp "latitude")%bool then Some (VList [pv inp "longitude"; pv inp "latitude"]) else None
  else if String.eqb k "measured_location" then
    if (present inp "measured_longitude" || present inp "measured_latitude")%bool
    then Some (VList [pv inp "measured_longitude"; pv inp "measured_latitude"]) else None
  else if String.eqb k "production_ND" then
    if (present inp "production_D" && present inp "production_N")%bool
    then Some (VList [pv inp "production_D"; pv inp "production_N"; or_zero (inp "production_N_stdev")])
    else if (present inp "production_D" || (present inp "production_N" || present inp "production_N_stdev"))%bool
    then Some (VList [pv inp "production_D"; pv inp "production_N"; pv inp "production_N_stdev"]) else None
  else if String.eqb k "production_time" then
    if present inp "production_time" then Some (VList [pv inp "production_time"; or_zero (inp "production_time_stdev")])
    else if present inp "production_time_stdev" then Some (VList [VNone; pv inp "production_time_stdev"]) else None
  else drop_blank inp k.

Definition both (inp : dict) : bool := (present inp "production_D" && present inp "production_N")%bool.
Definition timed (inp : dict) : bool := present inp "production_time".
Lemma alias_spec inp : exists inp' new', alias_time (alias_ND (inp, drop_blank inp)) = (inp', new') /\
  (forall k, inp' k = if (both inp && existsb (String.eqb k) ["production_D"; "production_N"; "production_N_stdev"])%bool then None
                      else if (timed inp && existsb (String.eqb k) ["production_time"; "production_time_stdev"])%bool then None else inp k) /\
  (forall k, new' k = if (both inp && String.eqb k "production_ND")%bool
                      then Some (VList [pv inp "production_D"; pv inp "production_N"; or_zero (inp "production_N_stdev")])
                      else if (timed inp && String.eqb k "production_time")%bool
                      then Some (VList [pv inp "production_time"; or_zero (inp "production_time_stdev")])
                      else drop_blank inp k).
Proof.
  unfold alias_ND, both, timed, present, pv.
  destruct (inp "production_D") as [a|] eqn:A, (inp "production_N") as [b|] eqn:B; unfold alias_time; cbn [andb];
  try (match goal with |- context [set (set (set inp _ _) _ _) _ _ "production_time"] =>
         replace (set (set (set inp "production_D" None) "production_N" None) "production_N_stdev" None "production_time")
           with (inp "production_time") by reflexivity;
         replace (set (set (set inp "production_D" None) "production_N" None) "production_N_stdev" None "production_time_stdev")
           with (inp "production_time_stdev") by reflexivity end);
  destruct (inp "production_time") as [t|] eqn:T; cbn [andb]; (eexists _, _; split; [reflexivity|]);
  (split; intros k; [|unfold set;
    destruct (String.eqb k "production_ND") eqn:K1; [apply String.eqb_eq in K1; subst k; reflexivity|];
    destruct (String.eqb k "production_time") eqn:K2; reflexivity]);
  unfold set; cbn [existsb];
  destruct (String.eqb k "production_D"), (String.eqb k "production_N"), (String.eqb k "production_N_stdev"),
    (String.eqb k "production_time"), (String.eqb k "production_time_stdev"); reflexivity.
Qed.
Lemma tuples_ok inp : inp "location" = None -> inp "measured_location" = None -> inp "production_ND" = None ->
  exists d, tuples inp = Ok d /\ forall k, d k = pairs_of inp k.
Proof.
  intros L M N. unfold tuples. destruct (alias_spec inp) as (i & n & -> & I & W).
  unfold rebuild, tuple_map.
  assert (same : forall k, existsb (String.eqb k) ["production_D"; "production_N"; "production_N_stdev"; "production_time"; "production_time_stdev"] = false ->
    i k = inp k).
  { intros k K. rewrite I. cbn [existsb] in K. cbn [existsb].
    destruct (String.eqb k "production_D"), (String.eqb k "production_N"), (String.eqb k "production_N_stdev"),
      (String.eqb k "production_time"), (String.eqb k "production_time_stdev"); try discriminate K. cbn. rewrite !andb_false_r. reflexivity. }
  assert (T0 : i "production_time" = None).
  { rewrite I. cbn. rewrite andb_false_r. unfold timed, present. destruct (inp "production_time"); reflexivity. }
  destruct (pair_one i "location" "longitude" "latitude" n) as (d1 & -> & D1); [rewrite same by reflexivity; exact L | reflexivity | reflexivity |]. cbn [rbind].
  destruct (pair_one i "measured_location" "measured_longitude" "measured_latitude" d1) as (d2 & -> & D2); [rewrite same by reflexivity; exact M | reflexivity | reflexivity |]. cbn [rbind].
  destruct (triple_one i "production_ND" "production_D" "production_N" "production_N_stdev" d2) as (d3 & -> & D3); [rewrite same by reflexivity; exact N | reflexivity | reflexivity | reflexivity |]. cbn [rbind].
  destruct (own_one i "production_time" "production_time_stdev" d3) as (d4 & -> & D4); [exact T0 | reflexivity |]. cbn [rbind].
  exists d4. split; [reflexivity|]. intros k. rewrite D4, D3, D2, D1, W. unfold pairs_of.
  assert (PR : forall c, existsb (String.eqb c) ["production_D"; "production_N"; "production_N_stdev"; "production_time"; "production_time_stdev"] = false ->
    present i c = present inp c /\ pv i c = pv inp c).
  { intros c C. unfold present, pv. rewrite same by exact C. split; reflexivity. }
  destruct (String.eqb k "location") eqn:K1.
  { apply String.eqb_eq in K1. subst k. cbn. rewrite !andb_false_r.
    destruct (PR "longitude" eq_refl) as [-> ->], (PR "latitude" eq_refl) as [-> ->].
    destruct (present inp "longitude" || present inp "latitude")%bool; [reflexivity|]. unfold drop_blank. rewrite L. reflexivity. }
  destruct (String.eqb k "measured_location") eqn:K2.
  { apply String.eqb_eq in K2. subst k. cbn. rewrite !andb_false_r.
    destruct (PR "measured_longitude" eq_refl) as [-> ->], (PR "measured_latitude" eq_refl) as [-> ->].
    destruct (present inp "measured_longitude" || present inp "measured_latitude")%bool; [reflexivity|]. unfold drop_blank. rewrite M. reflexivity. }
  destruct (String.eqb k "production_ND") eqn:K3.
  { apply String.eqb_eq in K3. subst k. cbn. rewrite ?andb_true_r, ?andb_false_r.
    assert (Q : forall c, In c ["production_D"; "production_N"; "production_N_stdev"] -> i c = if both inp then None else inp c).
    { intros c C. rewrite I. destruct C as [<- | [<- | [<- | []]]]; cbn; rewrite andb_true_r, andb_false_r; reflexivity. }
    unfold present at 1 2 3. unfold pv at 1 2 3.
    rewrite (Q "production_D"), (Q "production_N"), (Q "production_N_stdev") by (cbn; auto).
    fold (both inp). destruct (both inp) eqn:BO; [reflexivity|].
    fold (present inp "production_D"). fold (present inp "production_N"). fold (present inp "production_N_stdev").
    fold (pv inp "production_D"). fold (pv inp "production_N"). fold (pv inp "production_N_stdev").
    destruct (present inp "production_D" || (present inp "production_N" || present inp "production_N_stdev"))%bool; [reflexivity|].
    unfold drop_blank. rewrite N. reflexivity. }
  destruct (String.eqb k "production_time") eqn:K4.
  { apply String.eqb_eq in K4. subst k. rewrite andb_false_r, andb_true_r.
    assert (Q : i "production_time_stdev" = if timed inp then None else inp "production_time_stdev").
    { rewrite I. cbn. rewrite andb_false_r, andb_true_r. reflexivity. }
    unfold present at 1. unfold pv at 1. rewrite Q. fold (timed inp). unfold timed at 1.
    destruct (timed inp) eqn:TI; unfold timed in TI; rewrite TI; [reflexivity|].
    fold (present inp "production_time_stdev"). fold (pv inp "production_time_stdev").
    destruct (present inp "production_time_stdev"); [reflexivity|].
    unfold drop_blank. unfold present in TI. destruct (inp "production_time"); [discriminate|reflexivity]. }
  rewrite !andb_false_r. reflexivity.
Qed.

Section Read.
Variable number : string -> option R.
Variable integer : string -> option Z.
Variable inp : dict.
Variable text : string -> option string.
Hypothesis raw_inp : raw inp.
Hypothesis is_text : forall k, text k = match inp k with Some (VText s) => if String.eqb s "" then None else Some s | _ => None end.
Notation argument := (argument number integer text).
Notation fails := (fails number integer).
Notation converted := (converted number integer).
Definition bad (c : string) : Prop := exists s, text c = Some s /\ number s = None.

Lemma part_cases c :
  (text c = None /\ inp c = None) \/ (text c = None /\ inp c = Some VNone) \/ (text c = None /\ inp c = Some (VText "")) \/
  (exists s, text c = Some s /\ String.eqb s "" = false /\ inp c = Some (VText s) /\ number s = None /\ bad c) \/
  (exists s x, text c = Some s /\ String.eqb s "" = false /\ inp c = Some (VText s) /\ number s = Some x /\ ~ bad c).
Proof.
  destruct (raw_inp c) as [E | [E | [s E]]].
  - left. rewrite is_text, E. auto.
  - right. left. rewrite is_text, E. auto.
  - destruct (String.eqb s "") eqn:B.
    + right. right. left. rewrite is_text, E, B. apply String.eqb_eq in B. subst s. auto.
    + destruct (number s) as [x|] eqn:Nx.
      * do 4 right. exists s, x. assert (T : text c = Some s) by (rewrite is_text, E, B; reflexivity).
        repeat split; auto. intros (s' & T' & N'). rewrite T in T'. injection T' as <-. congruence.
      * do 3 right. left. exists s. assert (T : text c = Some s) by (rewrite is_text, E, B; reflexivity).
        repeat split; auto. exists s. auto.
Qed.
Lemma not_bad c : text c = None -> ~ bad c.
Proof. intros T (s & T' & _). congruence. Qed.

Ltac part c :=
  let T := fresh "T" in let E := fresh "E" in let B := fresh "B" in let N := fresh "N" in let G := fresh "G" in
  let s := fresh "s" in let x := fresh "x" in
  destruct (part_cases c) as [[T E] | [[T E] | [[T E] | [(s & T & B & E & N & G) | (s & x & T & B & E & N & G)]]]];
  [pose proof (not_bad c T) as G | pose proof (not_bad c T) as G | pose proof (not_bad c T) as G | | ].
Ltac rew := repeat match goal with
  | H : inp ?c = _ |- _ => rewrite ?H; revert H
  end; intros;
  repeat match goal with
  | H : text ?c = _ |- _ => rewrite ?H; revert H
  end; intros.
Ltac fin :=
  unfold Table_spec.argument, together, num, num_or_zero, Table_model.fails, Table_model.converted, bad_element, element, or_zero, present, pv, blank; cbn;
  repeat match goal with
  | H : inp ?c = _ |- context [inp ?c] => rewrite H
  | H : text ?c = _ |- context [text ?c] => rewrite H
  | H : String.eqb ?s "" = _ |- context [String.eqb ?s ""] => rewrite H
  | H : number ?s = _ |- context [number ?s] => rewrite H
  end; cbn;
  repeat match goal with
  | H : String.eqb ?s "" = _ |- context [String.eqb ?s ""] => rewrite H
  | H : number ?s = _ |- context [number ?s] => rewrite H
  end; cbn.

Definition tuple_fine (tup : string) (cols : list string) : Prop :=
  ((match pairs_of inp tup with Some v => fails tup v | None => false end = true <-> exists c, In c cols /\ bad c)) /\
  ((forall c, In c cols -> ~ bad c) -> match pairs_of inp tup with Some v => converted tup v | None => None end = argument tup).
Ltac close :=
  split; [split; [intros X; first [discriminate X | eexists; split; [|eassumption]; cbn; tauto]
                 | intros (c & I & X); cbn in I; repeat (destruct I as [<- | I]; [first [contradiction | reflexivity]|]); contradiction]
         | intros X; try reflexivity; exfalso; match goal with H : bad ?c |- _ => apply (X c); [cbn; tauto | exact H] end].
Lemma fine_location : tuple_fine "location" ["longitude"; "latitude"].
Proof. unfold tuple_fine, pairs_of. part "longitude"; part "latitude"; fin; close. Qed.
Lemma fine_measured : tuple_fine "measured_location" ["measured_longitude"; "measured_latitude"].
Proof. unfold tuple_fine, pairs_of. part "measured_longitude"; part "measured_latitude"; fin; close. Qed.
Lemma fine_ND : tuple_fine "production_ND" ["production_D"; "production_N"; "production_N_stdev"].
Proof. unfold tuple_fine, pairs_of. part "production_D"; part "production_N"; part "production_N_stdev"; fin; close. Qed.
Lemma fine_time : tuple_fine "production_time" ["production_time"; "production_time_stdev"].
Proof. unfold tuple_fine, pairs_of. part "production_time"; part "production_time_stdev"; fin; close. Qed.
End Read.

Definition simple (k : string) : Prop :=
  String.eqb k "location" = false /\ String.eqb k "measured_location" = false /\ String.eqb k "production_ND" = false /\
  String.eqb k "production_time" = false.
Lemma simple_or k : simple k \/ In k (map fst tuple_map).
Proof.
  unfold simple. cbn.
  destruct (String.eqb k "location") eqn:A; [apply String.eqb_eq in A; auto|].
  destruct (String.eqb k "measured_location") eqn:B; [apply String.eqb_eq in B; auto|].
  destruct (String.eqb k "production_ND") eqn:C; [apply String.eqb_eq in C; auto|].
  destruct (String.eqb k "production_time") eqn:D; [apply String.eqb_eq in D; auto 6|]. left. auto.
Qed.
Lemma pairs_simple inp k : simple k -> pairs_of inp k = drop_blank inp k.
Proof. intros (A & B & C & D). unfold pairs_of. rewrite A, B, C, D. reflexivity. Qed.
Lemma pairs_kept inp k v : In k (map fst tuple_map) -> pairs_of inp k = Some v -> blank v = false.
Proof.
  intros I. cbn in I. destruct I as [<- | [<- | [<- | [<- | []]]]]; unfold pairs_of; cbn;
  repeat match goal with |- context [if ?b then _ else _] => destruct b end; intros E; try discriminate; injection E as <-; reflexivity.
Qed.
Lemma drop_pairs inp k : match pairs_of inp k with Some v => if blank v then None else Some v | None => None end = pairs_of inp k.
Proof.
  destruct (simple_or k) as [A|A].
  - rewrite (pairs_simple _ _ A). unfold drop_blank. destruct (inp k) as [v|]; [|reflexivity]. destruct (blank v) eqn:B; [reflexivity|]. rewrite B. reflexivity.
  - destruct (pairs_of inp k) as [v|] eqn:E; [|reflexivity]. rewrite (pairs_kept _ _ _ A E). reflexivity.
Qed.

Section Rows.
Variable number : string -> option R.
Variable integer : string -> option Z.
Notation arguments := (arguments number integer).

Lemma field_raw header fields : raw (field header fields).
Proof.
  intros k. unfold field. destruct (find _ _) as [[a s]|]; [right; right; exists s; reflexivity|].
  destruct (in_dec _ _ _); auto.
Qed.
Lemma field_text header fields k : cell header fields k =
  match field header fields k with Some (VText s) => if String.eqb s "" then None else Some s | _ => None end.
Proof. unfold cell, field. destruct (find _ _) as [[a s]|]; [reflexivity|]. destruct (in_dec _ _ _); reflexivity. Qed.
Lemma field_in header fields k : field header fields k <> None -> In k header.
Proof.
  unfold field. destruct (find _ _) as [[a s]|] eqn:F.
  - intros _. apply find_some in F as [F G]. cbn in G. apply String.eqb_eq in G. subst a. apply in_combine_l in F. exact F.
  - destruct (in_dec _ _ _); [auto | contradiction].
Qed.
(** The reader's dictionary and [field] agree everywhere, which is all that is read of them. *)
Lemma pairs_ext i j : (forall k, i k = j k) -> forall k, pairs_of i k = pairs_of j k.
Proof. intros E k. unfold pairs_of, present, pv, drop_blank. rewrite !E. reflexivity. Qed.
Lemma pairs_only header fields k v : pairs_of (field header fields) k = Some v -> In k (header ++ map fst tuple_map)%list.
Proof.
  intros E. apply in_or_app. destruct (simple_or k) as [A|A]; [left | right; exact A].
  rewrite (pairs_simple _ _ A) in E. unfold drop_blank in E. apply (field_in header fields). intros X. rewrite X in E. discriminate.
Qed.

Lemma row header fields : NoDup header -> (List.length fields <= List.length header)%nat -> plain (cell header fields) header ->
  (readable number integer (cell header fields) /\
   exists args, arguments header fields = Ok args /\ forall k, args k = argument number integer (cell header fields) k) \/
  (~ readable number integer (cell header fields) /\ arguments header fields = Err ValueError).
Proof.
  intros ND LE (P1 & P2 & P3 & P4).
  assert (BC : forall k, by_column header fields nothing k = field header fields k).
  { intros k. rewrite by_column_at by exact ND. destruct (field header fields k); reflexivity. }
  assert (NI : forall k, ~ In k header -> by_column header fields nothing k = None).
  { intros k N. rewrite BC. destruct (field header fields k) eqn:F; [|reflexivity]. exfalso. apply N. apply (field_in header fields). congruence. }
  unfold Table_model.arguments.
  destruct (tuples_ok (by_column header fields nothing) (NI _ P1) (NI _ P2) (NI _ P3)) as (d & -> & D). cbn [rbind].
  assert (DD : forall k, drop_blank d k = pairs_of (field header fields) k).
  { intros k. unfold drop_blank at 1. rewrite D, (pairs_ext _ _ BC). apply drop_pairs. }
  assert (EX : extra header fields = []) by (apply skipn_all2; exact LE). rewrite EX. cbn [map existsb].
  set (inp := field header fields) in *. set (text := cell header fields) in *.
  pose proof (field_raw header fields : raw inp) as RI.
  pose proof (field_text header fields : forall k, text k = _) as IT. fold inp in IT.
  destruct (fine_location number integer inp text RI IT) as [F1 V1].
  destruct (fine_measured number integer inp text RI IT) as [F2 V2].
  destruct (fine_ND number integer inp text RI IT) as [F3 V3].
  destruct (fine_time number integer inp text RI IT) as [F4 V4].
  assert (SI : forall k, simple k -> pairs_of inp k = option_map VText (text k)).
  { intros k S1. rewrite (pairs_simple _ _ S1), IT. unfold drop_blank. destruct (RI k) as [-> | [-> | [s ->]]]; try reflexivity.
    cbn. destruct (String.eqb s ""); reflexivity. }
  assert (SIK : forall k, is_integer_key k = true -> simple k).
  { intros k K. unfold is_integer_key in K. apply orb_true_iff in K as [K|K]; apply String.eqb_eq in K; subst k; repeat split. }
  set (keys := (header ++ map fst tuple_map)%list).
  destruct (existsb _ keys) eqn:E.
  - right. split; [|reflexivity]. intros [RP RK].
    apply existsb_exists in E as (k & _ & E). rewrite DD in E.
    destruct (simple_or k) as [A|A].
    + rewrite (SI k A) in E. destruct (text k) as [s|] eqn:T; [|discriminate]. cbn in E. unfold fails in E.
      destruct (is_integer_key k) eqn:K; [|discriminate]. pose proof (RK k s K T) as X. destruct (integer s); [discriminate | contradiction].
    + assert (B : exists c, In c parts /\ bad number text c).
      { cbn in A. destruct A as [<- | [<- | [<- | [<- | []]]]];
        [apply F1 in E | apply F2 in E | apply F3 in E | apply F4 in E]; destruct E as (c & I & B); exists c;
        (split; [cbn in I |- *; tauto | exact B]). }
      destruct B as (c & I & s & T & N). exact (RP c s I T N).
  - assert (NF : forall k, match pairs_of inp k with Some v => fails number integer k v | None => false end = false).
    { intros k. destruct (pairs_of inp k) as [v|] eqn:P; [|reflexivity].
      destruct (fails number integer k v) eqn:X; [|reflexivity]. exfalso.
      assert (Y : existsb (fun k => match drop_blank d k with Some v => fails number integer k v | None => false end) keys = true).
      { apply existsb_exists. exists k. split; [exact (pairs_only header fields k v P)|]. rewrite DD, P. exact X. }
      rewrite E in Y. discriminate. }
    assert (NB : forall c, In c parts -> ~ bad number text c).
    { intros c I B. cbn in I.
      destruct I as [<- | [<- | [<- | [<- | [<- | [<- | [<- | [<- | [<- | []]]]]]]]]];
      [ pose proof (proj2 F1 (ex_intro _ "longitude" (conj (or_introl eq_refl) B))) as X
      | pose proof (proj2 F1 (ex_intro _ "latitude" (conj (or_intror (or_introl eq_refl)) B))) as X
      | pose proof (proj2 F2 (ex_intro _ "measured_longitude" (conj (or_introl eq_refl) B))) as X
      | pose proof (proj2 F2 (ex_intro _ "measured_latitude" (conj (or_intror (or_introl eq_refl)) B))) as X
      | pose proof (proj2 F3 (ex_intro _ "production_D" (conj (or_introl eq_refl) B))) as X
      | pose proof (proj2 F3 (ex_intro _ "production_N" (conj (or_intror (or_introl eq_refl)) B))) as X
      | pose proof (proj2 F3 (ex_intro _ "production_N_stdev" (conj (or_intror (or_intror (or_introl eq_refl))) B))) as X
      | pose proof (proj2 F4 (ex_intro _ "production_time" (conj (or_introl eq_refl) B))) as X
      | pose proof (proj2 F4 (ex_intro _ "production_time_stdev" (conj (or_intror (or_introl eq_refl)) B))) as X ];
      rewrite NF in X; discriminate X. }
    left. split.
    { split.
      - intros k s I T X. apply (NB k I). exists s. auto.
      - intros k s K T X. specialize (NF k). rewrite (SI k (SIK k K)), T in NF. cbn in NF. unfold fails in NF. rewrite K, X in NF. discriminate. }
    set (args := fun k => match drop_blank d k with Some v => converted number integer k v | None => None end).
    assert (AR : forall k, args k = argument number integer text k).
    { intros k. unfold args. rewrite DD. destruct (simple_or k) as [A|A].
      - rewrite (SI k A). unfold argument. destruct A as (A1 & A2 & A3 & A4). rewrite A1, A2, A3, A4.
        destruct (text k) as [s|]; cbn; unfold converted; destruct (is_integer_key k); reflexivity.
      - cbn in A. destruct A as [<- | [<- | [<- | [<- | []]]]];
        [apply V1 | apply V2 | apply V3 | apply V4]; intros c I; apply NB; cbn in I |- *; tauto. }
    exists args. split; [|exact AR].
    replace (present args "check_redundant_inputs") with false; [reflexivity|].
    unfold present. rewrite AR. unfold argument. cbn. rewrite P4. reflexivity.
Qed.
End Rows.

Section Uses.
Variable number : string -> option R.
Variable integer : string -> option Z.
Notation arguments := (arguments number integer).
Notation argument := (argument number integer).
Notation readable := (readable number integer).

(** Only the cells that are not blank matter. *)
Lemma argument_ext t u : (forall k, t k = u k) -> forall k, argument t k = argument u k.
Proof. intros E k. unfold Table_spec.argument, num, num_or_zero. rewrite !E. reflexivity. Qed.
Lemma readable_ext t u : (forall k, t k = u k) -> readable t -> readable u.
Proof. intros E [A B]. split; intros k s; rewrite <- E; [apply A | apply B]. Qed.
Lemma blank_absent h f h' f' : NoDup h -> NoDup h' -> (List.length f <= List.length h)%nat -> (List.length f' <= List.length h')%nat ->
  plain (cell h f) h -> plain (cell h' f') h' -> (forall k, cell h f k = cell h' f' k) ->
  (exists a a', arguments h f = Ok a /\ arguments h' f' = Ok a' /\ forall k, a k = a' k) \/
  (arguments h f = Err ValueError /\ arguments h' f' = Err ValueError).
Proof.
  intros N N' L L' P P' E.
  destruct (row number integer h f N L P) as [(A & a & -> & V) | (A & ->)],
           (row number integer h' f' N' L' P') as [(A' & a' & -> & V') | (A' & ->)].
  - left. exists a, a'. repeat split. intros k. rewrite V, V'. apply argument_ext. exact E.
  - exfalso. apply A'. exact (readable_ext _ _ E A).
  - exfalso. apply A. apply (readable_ext (cell h' f')); [intros k; symmetry; apply E | exact A'].
  - right. auto.
Qed.
Lemma half_location h f a : NoDup h -> (List.length f <= List.length h)%nat -> plain (cell h f) h -> arguments h f = Ok a ->
  cell h f "longitude" = None \/ cell h f "latitude" = None -> a "location" = None.
Proof.
  intros N L P E H. destruct (row number integer h f N L P) as [(_ & a' & E' & V) | (_ & E')]; rewrite E in E'; [|discriminate].
  injection E' as ->. rewrite V. unfold Table_spec.argument. cbn. unfold num.
  destruct H as [-> | ->]; [reflexivity|]. destruct (cell h f "longitude"); [destruct (number _)|]; reflexivity.
Qed.
Lemma number_name h f a s x : NoDup h -> (List.length f <= List.length h)%nat -> plain (cell h f) h -> arguments h f = Ok a ->
  cell h f "name" = Some s -> number s = Some x -> a "name" = Some (VNum x).
Proof.
  intros N L P E T X. destruct (row number integer h f N L P) as [(_ & a' & E' & V) | (_ & E')]; rewrite E in E'; [|discriminate].
  injection E' as ->. rewrite V. unfold Table_spec.argument. cbn. rewrite T, X. reflexivity.
Qed.
(** A column named location beside those of the coordinates. *)
Lemma location_column h f lon : NoDup h -> In "location" h -> cell h f "longitude" = Some lon ->
  exists e, arguments h f = Err e /\ (e = TypeError \/ e = KeyError).
Proof.
  intros ND I C.
  assert (BC : forall k, by_column h f nothing k = field h f k).
  { intros k. rewrite by_column_at by exact ND. destruct (field h f k); reflexivity. }
  unfold Table_model.arguments, tuples.
  destruct (alias_spec (by_column h f nothing)) as (i & n & -> & A & W).
  assert (EL : i "longitude" = Some (VText lon)).
  { rewrite A. cbn. rewrite !andb_false_r. rewrite BC. rewrite field_text in C.
    destruct (field h f "longitude") as [[]|]; try discriminate. destruct (String.eqb s ""); [discriminate|]. injection C as ->. reflexivity. }
  assert (EP : present i "location" = true).
  { unfold present. rewrite A. cbn. rewrite !andb_false_r, BC. unfold field. destruct (find _ _) as [[a s]|]; [reflexivity|].
    destruct (in_dec _ _ _); [reflexivity | contradiction]. }
  assert (NL : n "location" = None \/ exists s, n "location" = Some (VText s)).
  { rewrite W. cbn. rewrite !andb_false_r. unfold drop_blank. rewrite BC. unfold field. destruct (find _ _) as [[a s]|].
    - destruct (blank (VText s)); [left; reflexivity | right; exists s; reflexivity].
    - destruct (in_dec _ _ _); left; reflexivity. }
  cbn [rebuild tuple_map]. unfold rebuild_one. cbn [fst snd existsb]. unfold present at 1. rewrite EL. cbn [orb].
  rewrite EP. cbn [fill]. rewrite EL. cbn.
  destruct NL as [-> | [s ->]]; cbn; [exists KeyError | exists TypeError]; auto.
Qed.

Variable crater : Type.
Variable maker : dict -> result crater.
Notation rows := (rows number integer crater maker).
Notation from_csv := (from_csv number integer crater maker).
Notation one := (one number integer crater maker).
Lemma rows_ok h lines cs : rows h lines = Ok cs <-> Forall2 (fun f c => one h f = Ok c) (filter nonempty lines) cs.
Proof.
  unfold Table_spec.one. revert cs. induction lines as [|f more IH]; intros cs; cbn.
  - split; [intros E; injection E as <-; constructor | intros E; inversion E; reflexivity].
  - destruct f as [|x f]; [apply IH|]. cbn [nonempty].
    destruct (rbind (arguments h (x :: f)) maker) as [c|e] eqn:E; cbn.
    + destruct (rows h more) as [cs'|e'] eqn:M; cbn.
      * split; [intros X; injection X as <-; constructor; [exact E | apply IH; reflexivity]|].
        intros X. inversion X as [|? c0 ? l X1 X2]; subst. rewrite E in X1. injection X1 as <-. apply IH in X2. injection X2 as <-. reflexivity.
      * split; [discriminate|]. intros X. inversion X as [|? c0 ? l X1 X2]; subst. apply IH in X2. discriminate.
    + split; [discriminate|]. intros X. inversion X as [|? c0 ? l X1 X2]; subst. congruence.
Qed.
Lemma rows_err h lines e : rows h lines = Err e <->
  exists a f b cs, filter nonempty lines = (a ++ f :: b)%list /\ Forall2 (fun f c => one h f = Ok c) a cs /\ one h f = Err e.
Proof.
  unfold Table_spec.one. induction lines as [|f more IH]; cbn.
  - split; [discriminate|]. intros (a & f & b & cs & X & _). destruct a; discriminate.
  - destruct f as [|x f]; [exact IH|]. cbn [nonempty].
    destruct (rbind (arguments h (x :: f)) maker) as [c|e'] eqn:E; cbn.
    + destruct (rows h more) as [cs'|e'] eqn:M; cbn.
      * split; [discriminate|]. intros (a & g & b & cs & X & F & G). destruct a as [|a0 a].
        -- injection X as Y _; rewrite <- Y in G; congruence.
        -- injection X as <- X. inversion F as [|? c0 ? l F1 F2]; subst.
           assert (Y : Ok cs' = Err e) by (apply IH; exists a, g, b, l; auto). discriminate.
      * split.
        -- intros X. injection X as ->. destruct (proj1 IH eq_refl) as (a & g & b & cs & X & F & G).
           exists ((x :: f) :: a), g, b, (c :: cs). rewrite X. split; [reflexivity|]. split; [constructor; assumption | exact G].
        -- intros (a & g & b & cs & X & F & G). destruct a as [|a0 a].
           ++ injection X as Y _; rewrite <- Y in G; congruence.
           ++ injection X as <- X. inversion F as [|? c0 ? l F1 F2]; subst. apply IH. exists a, g, b, l. auto.
    + split.
      * intros X. injection X as ->. exists [], (x :: f), (filter nonempty more), []. split; [reflexivity|]. split; [constructor | exact E].
      * intros (a & g & b & cs & X & F & G). destruct a as [|a0 a].
        -- injection X as Y _; rewrite <- Y in G; congruence.
        -- injection X as <- X. inversion F; subst. congruence.
Qed.
Lemma filter_twice lines : filter nonempty (filter nonempty lines) = filter nonempty lines.
Proof. induction lines as [|[|x f] r IH]; cbn; [reflexivity | exact IH | f_equal; exact IH]. Qed.
Lemma csv_ok lines h more cs : filter nonempty lines = h :: more ->
  (from_csv lines = Ok cs <-> Forall2 (fun f c => one h f = Ok c) more cs).
Proof.
  intros E. unfold Table_model.from_csv. fold nonempty. rewrite E. rewrite rows_ok.
  pose proof (filter_twice lines) as T. rewrite E in T. cbn in T.
  assert (X : filter nonempty more = more).
  { destruct h as [|y h]; [|injection T as T; exact T].
    exfalso. clear -E. assert (In [] (filter nonempty lines)) as I by (rewrite E; left; reflexivity).
    apply filter_In in I as [_ I]. discriminate. }
  rewrite X. reflexivity.
Qed.
Lemma csv_err lines h more e : filter nonempty lines = h :: more ->
  (from_csv lines = Err e <-> exists a f b cs, more = (a ++ f :: b)%list /\ Forall2 (fun f c => one h f = Ok c) a cs /\ one h f = Err e).
Proof.
  intros E. unfold Table_model.from_csv. fold nonempty. rewrite E. rewrite rows_err.
  pose proof (filter_twice lines) as T. rewrite E in T. cbn in T.
  assert (X : filter nonempty more = more).
  { destruct h as [|y h]; [|injection T as T; exact T].
    exfalso. clear -E. assert (In [] (filter nonempty lines)) as I by (rewrite E; left; reflexivity).
    apply filter_In in I as [_ I]. discriminate. }
  rewrite X. reflexivity.
Qed.
End Uses.

Section Extra.
Variable number : string -> option R.
Variable integer : string -> option Z.
Notation arguments := (arguments number integer).
Lemma by_column_first h : forall f d, by_column h (firstn (List.length h) f) d = by_column h f d.
Proof. induction h as [|a h IH]; intros [|b f] d; cbn; try reflexivity; apply IH. Qed.
Lemma extra_first h f : extra h (firstn (List.length h) f) = [].
Proof. unfold extra. apply skipn_all2. apply firstn_le_length. Qed.
Lemma too_long h f a : arguments h (firstn (List.length h) f) = Ok a -> extra h f <> [] ->
  (forall s, In s (extra h f) -> s = "" \/ number s <> None) ->
  (In "" (extra h f) -> arguments h f = Ok a) /\ (~ In "" (extra h f) -> arguments h f = Err TypeError).
Proof.
  unfold Table_model.arguments. rewrite by_column_first, extra_first. intros E NE G.
  destruct (tuples (by_column h f nothing)) as [d|]; cbn [rbind] in *; [|discriminate].
  destruct (existsb _ (h ++ map fst tuple_map)%list); [discriminate|]. cbn [map existsb] in E.
  assert (B : existsb (bad_element number) (map VText (extra h f)) = false).
  { destruct (existsb _ _) eqn:X; [|reflexivity]. exfalso. apply existsb_exists in X as (v & I & X).
    apply in_map_iff in I as (s & <- & I). cbn in X. destruct (String.eqb s "") eqn:S1; [discriminate|].
    destruct (G s I) as [-> | N]; [discriminate|]. destruct (number s); [discriminate | contradiction]. }
  rewrite B. destruct (map VText (extra h f)) as [|v l] eqn:M; [destruct (extra h f); [contradiction|discriminate]|]. rewrite <- M.
  assert (BL : existsb blank (map VText (extra h f)) = true <-> In "" (extra h f)).
  { rewrite existsb_exists. split.
    - intros (w & I & X). apply in_map_iff in I as (s & <- & I). cbn in X. apply String.eqb_eq in X. subst s. exact I.
    - intros I. exists (VText ""). split; [apply in_map; exact I | reflexivity]. }
  split.
  - intros I. apply BL in I. rewrite I. exact E.
  - intros N. destruct (existsb blank _) eqn:X; [exfalso; apply N; apply BL; reflexivity|]. reflexivity.
Qed.
End Extra.

(** Examples. *)
Definition ex_number (s : string) : option R :=
  if String.eqb s "10" then Some 10%R else if String.eqb s "20" then Some 20%R else if String.eqb s "1000" then Some 1000%R else None.
Definition ex_integer (s : string) : option Z := if String.eqb s "10" then Some 10%Z else None.
Lemma ex_readable h f : (forall k s, cell h f k = Some s -> is_integer_key k = false) ->
  (forall k s, In k parts -> cell h f k = Some s -> ex_number s <> None) -> readable ex_number ex_integer (cell h f).
Proof. intros A B. split; [exact B|]. intros k s K T. specialize (A k s T). congruence. Qed.
