(** C118: values in the configuration file are read back as they were. *)
From Coq Require Import Reals ZArith List.
From Verif Require Import Common Yaml_model Yaml_spec Yaml_proofs.
Import ListNotations.
Open Scope string_scope.

(** A value without numpy texts, numpy truth values and objects of other kinds is written as data that show it, and no
    other data do: numbers stay the same numbers, whatever library they are from. *)
Theorem C118_value_partial : forall v, good v ->
  exists d, dump (convert v) = Some d /\ shows d v /\ forall d', shows d' v -> d' = d.
Proof.
  exact (fun v G => match kept v G with ex_intro _ d (conj D Q) =>
    ex_intro _ d (conj D (conj Q (fun d' Q' => shows_one v d' d Q' Q))) end).
Qed.
Print Assumptions C118_value_partial.
Example C118_value_partial_ex :
  dump (convert (Dict [("location", Tup [NpFloat 1; Int 2]); ("file", PathOf "a.nc"); ("n", Arr (DSeq [DInt 3; DInt 4])); ("x", None_)])) =
  Some (DMap [("location", DSeq [DFloat 1; DInt 2]); ("file", DStr "a.nc"); ("n", DSeq [DInt 3; DInt 4]); ("x", DNull)]).
Proof. reflexivity. Qed.

(** What was read from a file is written back as it was, whatever is in the file. *)
Theorem C118_stable : forall d, dump (convert (load d)) = Some d.
Proof. exact stable. Qed.
Print Assumptions C118_stable.
Example C118_stable_ex : load (DSeq [DMap [("a", DNull)]; DStr "b"]) = Lst [Dict [("a", None_)]; Str "b"].
Proof. reflexivity. Qed.

(** A plain value is read back as the same value; a tuple of plain values as the list of them. *)
Theorem C118_read_back : (forall v, plain v -> exists d, dump (convert v) = Some d /\ load d = v)
  /\ (forall l, Forall plain l -> exists d, dump (convert (Tup l)) = Some d /\ load d = Lst l).
Proof. exact (conj read_back read_tuple). Qed.
Print Assumptions C118_read_back.
Example C118_read_back_ex : plain (Dict [("a", Lst [Int 1; Float 2]); ("b", None_)]).
Proof. repeat constructor. Qed.

(** Saving fails for a value exactly if a numpy text is in it. *)
Theorem C118_numpy_text_refuted : forall v, dump (convert v) = None <-> part np_text v.
Proof. exact refused. Qed.
Print Assumptions C118_numpy_text_refuted.
Example C118_numpy_text_refuted_ex : dump (convert (Lst [Dict [("name", NpStr "Moon")]])) = None.
Proof. reflexivity. Qed.

(** A numpy truth value is written as the text True or False (which does not show it, and False is then a text that
    counts as true), and an object of another kind as its text, in place of being left out. *)
Theorem C118_text_refuted :
  (forall b, dump (convert (NpBool b)) = Some (DStr (if b then "True" else "False")) /\
             ~ shows (DStr (if b then "True" else "False")) (NpBool b)) /\
  (forall t, dump (convert (Other t)) = Some (DStr t)).
Proof. exact odd_text. Qed.
Print Assumptions C118_text_refuted.
Example C118_text_refuted_ex : dump (convert (Lst [NpBool false; Other "<function f>"])) = Some (DSeq [DStr "False"; DStr "<function f>"]).
Proof. reflexivity. Qed.

(** After any assignments that leave good values, the assignment of a value that is not None leaves a file that shows the
    present value of every attribute that is not None, and nothing else; no other attribute is changed. *)
Theorem C118_assigned : forall store l k v s, tidy s ->
  (forall j w, In (j, w) ((k, v) :: l) -> good (store j w) /\ store j w <> Arr DNull) -> v <> Arr DNull -> v <> None_ ->
  let s' := fst (assign store k v (assignments store l s)) in
  snd (assign store k v (assignments store l s)) = false /\ faithful s' /\ lookup k (attrs s') = Some (store k v) /\
  forall j, j <> k -> lookup j (attrs s') = lookup j (attrs (assignments store l s)).
Proof. exact assigned. Qed.
Print Assumptions C118_assigned.
Example C118_assigned_ex : tidy (mkSim [] Missing) /\
  conf (assignments ex_store [("time", Float 10); ("interval", Int 1); ("time", NpFloat 20)] (mkSim [] Missing)) =
  File [("time", DFloat 20); ("interval", DInt 1)].
Proof. split; [split; [constructor | intros k v []] | reflexivity]. Qed.

(** The assignment of None does not write the file, which goes on showing the value from before. *)
Theorem C118_none_refuted : forall store k s,
  conf (fst (assign store k None_ s)) = conf s /\ lookup k (attrs (fst (assign store k None_ s))) = Some (store k None_).
Proof. exact none_kept. Qed.
Print Assumptions C118_none_refuted.
Example C118_none_refuted_ex : let s := assignments ex_store [("ask_overwrite", Bool false); ("ask_overwrite", None_)] (mkSim [] Missing) in
  conf s = File [("ask_overwrite", DBool false)] /\ lookup "ask_overwrite" (attrs s) = Some (Bool true) /\ ~ faithful s.
Proof.
  split; [reflexivity|]. split; [reflexivity|]. intros (l & E & F). injection E as <-. specialize (F "ask_overwrite").
  destruct F as (d & D & Q). injection D as <-. inversion Q.
Qed.

(** The assignment of a value with a numpy text in it raises, after the value is assigned and the file is lost. *)
Theorem C118_lost_refuted : forall store k v s, v <> None_ -> v <> Arr DNull -> part np_text (store k v) ->
  assign store k v s = (mkSim (put k (store k v) (attrs s)) Broken, true).
Proof. exact broken. Qed.
Print Assumptions C118_lost_refuted.
Example C118_lost_refuted_ex :
  conf (assignments ex_store [("interval", Int 1); ("save_actions", Lst [Dict [("plot", Dict [("style", NpStr "map")])]])] (mkSim [] Missing)) = Broken.
Proof. reflexivity. Qed.
