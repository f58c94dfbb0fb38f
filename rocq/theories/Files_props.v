(** Property theorems about the saved output files (C06). *)
From Verif Require Import Common Conf_model Files_model Files_spec Files_proofs.
From Coq Require Import NArith ZArith.
Open Scope string_scope.

(** C06 (intervals): after any sequence of saves into a directory without such files, the
    list of saved intervals is exactly the set saved, in increasing order, whatever the
    order in which the directory is listed. *)
Theorem C06_saved_intervals :
  forall content s, In s schemes -> forall (saves : list (N * content)) d listing,
  no_files s d -> lists s (after_saves s saves d) listing -> saves <> [] ->
  exists ns, exactly_saved ns saves /\ saved_numbers content s listing = Ok (Some ns).
Proof. exact (fun content s Hs saves d l => numbers_any s Hs saves d l). Qed.
Print Assumptions C06_saved_intervals.
Example C06_saved_intervals_ex : In srf schemes /\ no_files srf ([("grid.nc", "g")] : dir string) /\
  exists listing, lists srf (after_saves srf [(12, "a"); (3, "b"); (12, "c"); (1000000, "d")]%N [("grid.nc", "g")]) listing /\
    saved_numbers string srf listing = Ok (Some [3; 12; 1000000]%N).
Proof. split; [left; reflexivity | split; [reflexivity |]]. eexists. split; [apply Permutation.Permutation_refl | reflexivity]. Qed.

(** C06 (nothing saved): no interval is listed and nothing is read. *)
Theorem C06_nothing_saved :
  forall content s (d : dir content) l1 l2 interval, no_files s d -> lists s d l1 -> lists s d l2 ->
  saved_numbers content s l1 = Ok None /\ read_saved content s interval l1 l2 = Ok (NoFiles content).
Proof. exact (fun content s => @nothing_saved content s). Qed.
Print Assumptions C06_nothing_saved.
Example C06_nothing_saved_ex : no_files srf ([("grid.nc", "g"); ("surface.txt", "t")] : dir string).
Proof. reflexivity. Qed.

(** C06 (reading): if all intervals are below a million, reading interval n returns what
    was saved last for n, or the empty dataset if n was not saved; interval -k is the k-th
    from the end; and no interval returns everything in increasing order of interval.
    Missing for the full statement: intervals of a million and more
    (C06_million_refuted). *)
Theorem C06_read_partial :
  forall content s, In s schemes -> forall (saves : list (N * content)) d l1 l2,
  no_files s d -> lists s (after_saves s saves d) l1 -> lists s (after_saves s saves d) l2 ->
  (forall n, In n (map fst saves) -> (n < 10 ^ 6)%N) -> saves <> [] ->
  exists ns, exactly_saved ns saves /\ saved_numbers content s l1 = Ok (Some ns) /\
    (forall n, read_saved content s (Some (Z.of_N n)) l1 l2 =
       Ok (match last_saved n saves with Some c => OneFile content c | None => EmptyDataset content end)) /\
    (forall k, (0 < k)%nat -> read_saved content s (Some (- Z.of_nat k)%Z) l1 l2 =
       match nth_error (rev ns) (k - 1) with
       | Some n => match last_saved n saves with Some c => Ok (OneFile content c) | None => Err IndexError end
       | None => Err IndexError
       end) /\
    (exists cs, read_saved content s None l1 l2 = Ok (AllFiles content cs) /\ map Some cs = map (fun n => last_saved n saves) ns).
Proof. exact (fun content s Hs saves d l1 l2 D L1 L2 B NE => read_ok s Hs saves d l1 l2 D L1 L2 (below_million saves B) NE). Qed.
Print Assumptions C06_read_partial.
Example C06_read_ex :
  let d := after_saves srf [(12, "a"); (3, "b"); (12, "c"); (110, "d")]%N [("grid.nc", "g")] in
  (forall n, In n (map fst [(12, "a"); (3, "b"); (12, "c"); (110, "d")]%N) -> (n < 10 ^ 6)%N) /\
  read_saved string srf (Some 12%Z) (matching string srf d) (matching string srf d) = Ok (OneFile string "c") /\
  read_saved string srf (Some (-1)%Z) (matching string srf d) (matching string srf d) = Ok (OneFile string "d").
Proof. split; [intros n Hn; repeat (destruct Hn as [<- | Hn]; [reflexivity |]); destruct Hn | split; reflexivity]. Qed.

(** C06 (reading, other widths): the same for any intervals written with equally many
    digits, for instance all between one and ten million. *)
Theorem C06_read_same_width_partial :
  forall content s, In s schemes -> forall (saves : list (N * content)) d l1 l2,
  no_files s d -> lists s (after_saves s saves d) l1 -> lists s (after_saves s saves d) l2 ->
  same_width saves -> saves <> [] ->
  forall n, read_saved content s (Some (Z.of_N n)) l1 l2 =
    Ok (match last_saved n saves with Some c => OneFile content c | None => EmptyDataset content end).
Proof.
  exact (fun content s Hs saves d l1 l2 D L1 L2 W NE =>
    match read_ok s Hs saves d l1 l2 D L1 L2 W NE with ex_intro _ _ (conj _ (conj _ (conj H _))) => H end).
Qed.
Print Assumptions C06_read_same_width_partial.
Example C06_read_same_width_ex : same_width [(1000000, "a"); (2000000, "b")]%N.
Proof. intros n m Hn Hm; repeat (destruct Hn as [<- | Hn]); repeat (destruct Hm as [<- | Hm]); try reflexivity; try destruct Hn; destruct Hm. Qed.

(** C06 (refuted in general): files are sorted by name and intervals by number.  With
    intervals 999999 and 1000000 saved, reading interval 999999 returns the other file. *)
Theorem C06_million_refuted :
  ~ forall content s, In s schemes -> forall (saves : list (N * content)) d l1 l2,
    no_files s d -> lists s (after_saves s saves d) l1 -> lists s (after_saves s saves d) l2 -> saves <> [] ->
    forall n c, last_saved n saves = Some c -> read_saved content s (Some (Z.of_N n)) l1 l2 = Ok (OneFile content c).
Proof.
  exact (fun H => match eq_trans (eq_sym (proj2 million))
    (H string srf (or_introl eq_refl) [(999999, "old"); (1000000, "new")]%N [] _ _ eq_refl
       (Permutation.Permutation_refl _) (Permutation.Permutation_refl _) (fun E => match E with end) 999999%N "old" eq_refl)
    in (_ = r) return match r with Ok (OneFile _ c) => if String.eqb c "new" then True else False | _ => True end with eq_refl => I end).
Qed.
Print Assumptions C06_million_refuted.
