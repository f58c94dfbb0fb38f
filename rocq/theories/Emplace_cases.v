(** Concrete cases for the emplacement calls.  The surface is a counter of
    excavations and a volume the crater's number; crater 0 digs nothing, crater 8 is
    not larger than a face, crater 9 is too small to be extracted; laying the ejecta
    of crater 5 fails the first time. *)
From Verif Require Import Common Queue_model Emplace_model Emplace_spec Emplace_proofs.
Import ListNotations.

Definition ge : geometry := {| emplaceable := fun c => negb (Nat.eqb c 9); nodes := fun c => [c];
  faces := fun c => [c]; time := fun _ => None |}.
Definition le_ (c : crater) : bool := negb (Nat.eqb c 8).
Definition dig (c : crater) (w : nat) : result (nat * nat) := Ok (Datatypes.S w, c).
Definition keep {A} (_ : A) (w : nat) : result nat := Ok w.
Definition lay (c v w : nat) : result nat := if Nat.eqb c 5 && Nat.eqb w 1 then Err ValueError else Ok w.
Definition conv (i : nat) (x : item) : result crater :=
  match x with Plain c | Morph c => Ok (100 + c)%nat | Moon c => Ok c | NotCrater => Err TypeError end.

Definition play (cadence : nat) := session nat nat (Nat.eqb 0) ge le_ dig keep lay keep keep (fun w => Ok w) keep
  false true cadence conv (Ok 50%nat).

(** A crater too small, one not larger than a face, and a plain crater. *)
Lemma ex_returned : exists s', play 2000 [Emplace (AList [Moon 1; Moon 8; Moon 9; Plain 3]) false] (new nat nat 0)
  = Some (s', [Ok [1; 8; 9; 103]]) /\ emplaced nat nat s' = [1; 103].
Proof. eexists. split; vm_compute; reflexivity. Qed.

Lemma ex_empty : exists s', play 2000 [Emplace (AList []) false] (new nat nat 0) = Some (s', [Err ValueError]).
Proof. eexists. vm_compute; reflexivity. Qed.

Lemma ex_twice : exists s', play 2000 [Emplace (One (Moon 5)) false; Emplace (One (Moon 1)) false] (new nat nat 0)
  = Some (s', [Err ValueError; Ok [1]]) /\ emplaced nat nat s' = [5; 5; 1].
Proof. eexists. split; vm_compute; reflexivity. Qed.

Lemma ex_stuck : exists s', play 2000 [Emplace (One (Moon 0)) false; Emplace (One (Moon 1)) false;
    Emplace (One (Moon 2)) false] (new nat nat 0)
  = Some (s', [Err TypeError; Err TypeError; Err TypeError]) /\ emplaced nat nat s' = [0; 0; 0].
Proof. eexists. split; vm_compute; reflexivity. Qed.

Lemma ex_stale : exists s', play 2000 [Emplace (One (Moon 7)) false; FormEjecta (Moon 1)] (new nat nat 0)
  = Some (s', [Ok [7]; Ok []]) /\ log nat nat s' = [Dug 7 7; Thrown 7 7; Tallied false; Thrown 1 7].
Proof. eexists. split; vm_compute; reflexivity. Qed.

Lemma ex_two : exists s', play 2000 [Emplace Nothing true; Emplace (ATuple [Moon 1; Morph 2]) false] (new nat nat 0)
  = Some (s', [Ok [50]; Ok [1; 102]]) /\ emplaced nat nat s' = [50; 1; 102] /\
  log nat nat s' = [Dug 50 50; Thrown 50 50; Tallied true; Dug 1 1; Thrown 1 1; Dug 102 102; Thrown 102 102; Tallied false].
Proof. eexists. split; [|split]; vm_compute; reflexivity. Qed.

(** Any number of craters, each digging something. *)
Definition fine (cadence : nat) := emplace nat nat (fun _ => false) ge (fun _ => true) dig keep (fun _ _ w => Ok w)
  keep keep (fun w => Ok w) keep false true cadence conv (Ok 50%nat).

Lemma ex_many n : (0 < n)%nat -> exists s', fine 2000 (AList (repeat (Moon 1) n)) true (new nat nat 0)
  = Some (s', Ok (repeat 1%nat n)).
Proof.
  intros H. unfold fine. apply emplace_ok.
  - assert (P : forall k i, prepare conv i (repeat (Moon 1) k) = Ok (repeat 1%nat k)).
    { induction k as [|k IH]; intros i; cbn; [reflexivity|]. now rewrite IH. }
    destruct n; [lia|]. exact (P (Datatypes.S n) 0%nat).
  - intros c w. exists (Datatypes.S w), c. split; reflexivity.
  - intros c w. exists w. reflexivity.
  - intros c v w. exists w. reflexivity.
  - intros c w. exists w. reflexivity.
  - intros b w. exists w. reflexivity.
  - intros w. exists w. reflexivity.
  - intros b w. exists w. reflexivity.
Qed.
Lemma filter_many n : List.length (filter (emplaceable ge) (repeat 1%nat n)) = n.
Proof.
  induction n as [|n IH]; [reflexivity|].
  change (Datatypes.S (List.length (filter (emplaceable ge) (repeat 1%nat n))) = Datatypes.S n). now rewrite IH.
Qed.

Lemma ex_rim n : (2000 <= n)%nat -> exists s' k,
  fine 2000 (AList (repeat (Moon 1) n)) true (new nat nat 0) = Some (s', Ok (repeat 1%nat n)) /\
  tallies (log nat nat s') = (true :: repeat false k ++ [false])%list.
Proof.
  intros H. destruct (ex_many n) as [s' E]; [lia|].
  pose proof E as E'. unfold fine in E'. apply measure_rim in E' as (k & T & Hk); [|reflexivity|lia].
  rewrite filter_many in Hk. change (tallies (log nat nat s') = true :: repeat false k) in T.
  cbn [Emplace_model.queue new List.length plus] in Hk. destruct k as [|k].
  - exfalso. assert (n < 2000)%nat by (apply Hk; reflexivity). lia.
  - exists s', k. split; [exact E|]. rewrite T. f_equal. clear. induction k as [|k IH]; [reflexivity|].
    cbn in *. now rewrite IH.
Qed.
