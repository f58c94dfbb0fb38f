(** Stable insertion sort for Python's list.sort (library, not a model): ties keep
    their order.  [le] is the comparison of the sort keys. *)
From Coq Require Import List Permutation Sorted Bool.
Import ListNotations.

Section S.
Context {A : Type} (le : A -> A -> bool).

Fixpoint insert (x : A) (l : list A) : list A :=
  match l with
  | [] => [x]
  | y :: r => if le x y then x :: l else y :: insert x r
  end.
Definition sort (l : list A) : list A := fold_right insert [] l.

Lemma insert_perm x l : Permutation (insert x l) (x :: l).
Proof.
  induction l as [|y r IH]; simpl; [constructor; constructor|].
  destruct (le x y); [reflexivity|]. rewrite IH. apply perm_swap.
Qed.

Lemma sort_perm l : Permutation (sort l) l.
Proof.
  induction l as [|x l IH]; simpl; [constructor|].
  fold (sort l). rewrite insert_perm. constructor. exact IH.
Qed.

Context (total : forall x y, le x y = false -> le y x = true).
Context (trans : forall x y z, le x y = true -> le y z = true -> le x z = true).

Lemma insert_sorted x l : StronglySorted (fun a b => le a b = true) l ->
  StronglySorted (fun a b => le a b = true) (insert x l).
Proof.
  induction 1 as [|y r S IH F]; simpl; [constructor; constructor|].
  destruct (le x y) eqn:E.
  - constructor; [constructor; assumption|]. constructor; [exact E|].
    eapply Forall_impl; [|exact F]. intros z Hz. eapply trans; eauto.
  - constructor; [exact IH|]. apply Forall_forall. intros z Hz.
    apply (Permutation_in z (insert_perm x r)) in Hz. destruct Hz as [<-|Hz].
    + apply total. exact E.
    + rewrite Forall_forall in F. apply F. exact Hz.
Qed.

Lemma sort_sorted l : StronglySorted (fun a b => le a b = true) (sort l).
Proof. induction l; simpl; [constructor|]. apply insert_sorted. assumption. Qed.
End S.
