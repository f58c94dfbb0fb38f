(** C108: labels of plots, and stepping through the saved intervals in the 3D viewer. *)
From Coq Require Import Reals List ZArith Sorted Lra Lia.
From Verif Require Import Common Format_model Run_model Label_model Label_spec Label_proofs.
Import ListNotations.
Open Scope string_scope.
Open Scope R_scope.

(** C108.  The label of the current state has the parts that were asked for and that the state
    has (time variables exist once a run has started), each once, in the order interval, time,
    age, number, with times rounded to a whole million years; compact labels have one part per
    line. *)
Theorem C108_parts (csfd : R -> R) (Dconv Nconv : R) (w : wishes) (s : state) (d : files) :
  exists sep parts, labelmaker csfd Dconv Nconv w None s d = Ok (sep, parts) /\
    (sep = NewLine <-> w_compact w = true) /\
    StronglySorted (fun a b => (rank a < rank b)%nat) parts /\
    (forall j, In (Interval j) parts <-> w_interval w = true /\ j = Z.of_nat (s_interval s)) /\
    ((exists x, In (Time x) parts) <-> w_time w = true /\ s_times s <> None) /\
    ((exists x, In (Age x) parts) <-> w_age w = true /\ s_times s <> None) /\
    ((exists D N u, In (Number D N u) parts) <-> w_N w = true /\ s_times s <> None) /\
    (forall x, In (Time x) parts -> exists t, s_times s = Some t /\ nearly x (t_time t)) /\
    (forall x, In (Age x) parts -> exists t, s_times s = Some t /\ nearly x (t_elapsed t)).
Proof.
  exact (ex_intro _ _ (ex_intro _ _ (conj (f_equal Ok (surjective_pairing (label_of csfd Dconv Nconv w s (Z.of_nat (s_interval s)) (s_times s))))
    (conj (label_separator csfd Dconv Nconv w s _ _) (conj (label_order csfd Dconv Nconv w s _ _) (label_parts csfd Dconv Nconv w s _ _)))))).
Qed.
Print Assumptions C108_parts.
Example C108_parts_case : s_times two <> None /\ w_age (all_wishes 1) = true /\ s_interval two = 2%nat.
Proof. repeat split; discriminate. Qed.

(** C108.  The label of a saved interval is the label the simulation had when that interval was
    last saved, whatever happened since. *)
Theorem C108_saved (csfd : R -> R) (Dconv Nconv : R) (w : wishes) (ops : list op) (s s' : state) (i : nat) (d : files) :
  last_saved ops s i s' -> s_smallest (fst (session ops s)) = s_smallest s' \/ w_D w <> None ->
  labelmaker csfd Dconv Nconv w (Some (Z.of_nat i)) (fst (session ops s)) (snd (session ops s)) =
  labelmaker csfd Dconv Nconv w None s' d.
Proof. exact (label_saved csfd Dconv Nconv w ops s i s' d). Qed.
Print Assumptions C108_saved.
Example C108_saved_case : last_saved [Save; Change two; Save; Change (mkState 3 None 50); Save] (mkState 1 None 50) 2 two.
Proof.
  exists [Save; Change two], [Change (mkState 3 None 50); Save]. repeat split.
  intros [|b1 [|b2 [|b3 b]]] a H; injection H; intros; subst; discriminate.
Qed.

(** C108.  Of an interval that was never saved the label tells nothing but its number. *)
Theorem C108_unsaved (csfd : R -> R) (Dconv Nconv : R) (w : wishes) (ops : list op) (s : state) (i : nat) :
  never_saved ops s i ->
  labelmaker csfd Dconv Nconv w (Some (Z.of_nat i)) (fst (session ops s)) (snd (session ops s)) =
  Ok (if w_compact w then NewLine else ThreeSpaces, if w_interval w then [Interval (Z.of_nat i)] else []).
Proof. exact (label_unsaved csfd Dconv Nconv w ops s i). Qed.
Print Assumptions C108_unsaved.
Example C108_unsaved_case : never_saved [Change two; Save] (mkState 1 None 50) 1.
Proof. intros [|b1 [|b2 b]] a H; injection H; intros; subst; cbn; try discriminate. now destruct b. Qed.

(** C108, false: interval=-1 stands for the last saved interval when data are read, but its label
    is empty although the simulation has an age: the number -1 is looked up among the interval
    numbers of the file. *)
Theorem C108_from_the_end_refuted (csfd : R -> R) (Dconv Nconv : R) :
  exists ops s w, read (-1) (snd (session ops s)) = Ok (Some (s_interval s, s_times s)) /\
  (exists x, match labelmaker csfd Dconv Nconv w None s (snd (session ops s)) with Ok r => In (Age x) (snd r) | Err _ => False end) /\
  (exists sep, labelmaker csfd Dconv Nconv w (Some (-1)%Z) s (snd (session ops s)) = Ok (sep, [])).
Proof. exact (end_label csfd Dconv Nconv). Qed.
Print Assumptions C108_from_the_end_refuted.

(** C108.  Counted from the end, an interval never gets a time, an age or a number in its label. *)
Theorem C108_from_the_end (csfd : R -> R) (Dconv Nconv : R) (w : wishes) (i : Z) (s : state) (d : files) (r : separator * list part) :
  (i < 0)%Z -> labelmaker csfd Dconv Nconv w (Some i) s d = Ok r -> snd r = if w_interval w then [Interval i] else [].
Proof. exact (label_negative csfd Dconv Nconv w i s d r). Qed.
Print Assumptions C108_from_the_end.
Example C108_from_the_end_case : labelmaker one_over 1000 1 (all_wishes 1) (Some (-1)%Z) two (snd (session [Save] two)) = Ok (ThreeSpaces, [Interval (-1)]).
Proof. reflexivity. Qed.

(** C108.  Over any sequence of periods, the number of a label is, to four digits, the number of
    craters larger than D that the production function forms in these periods on the area its
    unit tells, D being given in units of D_conversion_factor metres; a whole D is printed as
    it is. *)
Theorem C108_number (csfd chron : R -> R) (Dconv Nconv : R) (w : wishes) (s : state) (t : times) (D : R) (periods : list (R * R)) (d : files) :
  w_N w = true -> w_D w = Some D -> csfd 1000 <> 0 ->
  Nconv = 1 \/ Nconv = 1000000 \/ Nconv = 1000000000000 ->
  s_times s = Some t -> t_n1 t = elapsed_n1 csfd chron Nconv periods ->
  exists r D' N u area, labelmaker csfd Dconv Nconv w None s d = Ok r /\ In (Number D' N u) (snd r) /\
    nearly D' D /\ ((exists n, D = IZR n) -> D' = D) /\ unit_area u = Some area /\
    Rabs (N - formed csfd chron (D * Dconv) periods * area) <= Rabs (formed csfd chron (D * Dconv) periods * area) * (5 / 10000).
Proof.
  exact (fun W WD C U S1 T => let '(ex_intro _ D' (ex_intro _ N (ex_intro _ u (ex_intro _ area H)))) :=
    label_number csfd chron Dconv Nconv w s (Z.of_nat (s_interval s)) t D periods W WD C U T in
    ex_intro _ _ (ex_intro _ D' (ex_intro _ N (ex_intro _ u (ex_intro _ area
      (conj (f_equal (fun tv => Ok (label_of csfd Dconv Nconv w s (Z.of_nat (s_interval s)) tv)) S1) H)))))).
Qed.
Print Assumptions C108_number.
Example C108_number_case : w_N (all_wishes 20) = true /\ w_D (all_wishes 20) = Some 20 /\ one_over 1000 <> 0 /\
  elapsed_n1 one_over (fun t => t) 1000000 [(2000, 1000); (1000, 500)] = 1500000.
Proof. repeat split; [unfold one_over; apply Rinv_neq_0_compat; lra|]. rewrite n1_formed. unfold formed, one_over, DSTD. cbn [fold_right fst snd]. field. Qed.

(** C108, false: the diameter of a number is printed without decimals, so that the numbers of
    craters larger than 1.5 km and larger than 2 km, which differ, carry the same heading N(2). *)
Theorem C108_heading_refuted : exists n m,
  match labelmaker one_over 1000 1000000000000 (all_wishes (3 / 2)) None two [] with Ok r => In (Number 2 n "per 10$^6$ km²") (snd r) | Err _ => False end /\
  match labelmaker one_over 1000 1000000000000 (all_wishes 2) None two [] with Ok r => In (Number 2 m "per 10$^6$ km²") (snd r) | Err _ => False end /\
  n <> m.
Proof. exact same_heading. Qed.
Print Assumptions C108_heading_refuted.

(** C108, false: N_diam_val is documented as kilometres, but with D_conversion_factor 1 it is
    metres: asked for N(20), the label shows more than a hundred times the number of craters
    larger than 20 km. *)
Theorem C108_metres_refuted : exists t periods D N, t_n1 t = elapsed_n1 one_over (fun t => t) 1000000000000 periods /\
  match labelmaker one_over 1 1000000000000 (all_wishes 20) None (mkState 1 (Some t) 50) [] with Ok r => In (Number D N "per 10$^6$ km²") (snd r) | Err _ => False end /\
  D = 20 /\ N > 100 * (formed one_over (fun t => t) (20 * 1000) periods * (1000000 * (1000 * 1000))).
Proof. exact metres_label. Qed.
Print Assumptions C108_metres_refuted.

(** C108.  With the default units, the summary of a simulation prints the number of craters larger
    than one kilometre formed per million square kilometres. *)
Theorem C108_summary_partial (csfd chron : R -> R) (periods : list (R * R)) (tm el : R) : forall v u,
  printed_n1 (mkTimes tm el (elapsed_n1 csfd chron 1000000000000 periods)) = (v, u) ->
  exists a, unit_area u = Some a /\ v = formed csfd chron 1000 periods * a.
Proof. exact (summary_right csfd chron periods tm el). Qed.
Print Assumptions C108_summary_partial.
Example C108_summary_partial_case : elapsed_n1 one_over (fun t => t) 1000000000000 [(2000, 1000); (1000, 500)] = 1500000000000.
Proof. rewrite n1_formed. unfold formed, one_over, DSTD. cbn [fold_right fst snd]. field. Qed.

(** C108, false: with other units the summary still says per million square kilometres, so that the
    number printed is a million times too small when N_conversion_factor is 1e6. *)
Theorem C108_summary_refuted : exists Nconv periods, (Nconv = 1 \/ Nconv = 1000000) /\ exists v u a,
  printed_n1 (mkTimes 0 1 (elapsed_n1 one_over (fun t => t) Nconv periods)) = (v, u) /\ unit_area u = Some a /\
  v * 1000000 = formed one_over (fun t => t) 1000 periods * a /\ v <> formed one_over (fun t => t) 1000 periods * a.
Proof. exact summary_wrong. Qed.
Print Assumptions C108_summary_refuted.

(** C108.  Whatever arrow keys are pressed, the place in the history moves by one interval at a time
    and stops at the first and at the last one. *)
Theorem C108_walk (cur : nat) (i : Z) (c : caption) (l : list bool) : (0 <= i <= Z.of_nat cur)%Z ->
  v_pos (keys cur l (open_viewer cur (Some i) c)) = position (Z.of_nat cur) i l /\
  (0 <= position (Z.of_nat cur) i l <= Z.of_nat cur)%Z.
Proof. exact (viewer_walk cur i c l). Qed.
Print Assumptions C108_walk.
Example C108_walk_case : position 5 3 [true; true; true; false; false] = 3%Z.
Proof. reflexivity. Qed.

(** C108.  After any keys the interval shown is the one at that place, exactly unless the last key
    was the left arrow at the first interval. *)
Theorem C108_shown_partial (cur : nat) (i : Z) (c : caption) (l : list bool) (k : bool) : (0 <= i <= Z.of_nat cur)%Z ->
  let v := keys cur (l ++ [k]) (open_viewer cur (Some i) c) in
  (v_shown v = position (Z.of_nat cur) i (l ++ [k]) <-> ~ (k = false /\ position (Z.of_nat cur) i l = 0 /\ cur <> 0%nat)%Z) /\
  (k = false -> position (Z.of_nat cur) i l = 0%Z -> v_shown v = Z.of_nat cur).
Proof. exact (viewer_shown cur i c l k). Qed.
Print Assumptions C108_shown_partial.
Example C108_shown_partial_case : (0 <= 1 <= Z.of_nat 2)%Z /\ v_shown (keys 2 [true; true; false] (open_viewer 2 (Some 0%Z) (Default true))) = 1%Z.
Proof. split; [lia|reflexivity]. Qed.

(** C108, false: the left arrow at the first interval shows the current, last, interval: nothing to
    move to is passed on as no interval, which means the current one. *)
Theorem C108_shown_refuted : exists l, v_pos (keys 2 l (open_viewer 2 (Some 1%Z) NoCaption)) = 0%Z /\
  v_shown (keys 2 l (open_viewer 2 (Some 1%Z) NoCaption)) = 2%Z.
Proof. exact viewer_first. Qed.
Print Assumptions C108_shown_refuted.

(** C108, false: opened at interval -1, the last one, the viewer goes to the first interval when
    asked for the next. *)
Theorem C108_open_at_end_refuted (cur : nat) (c : caption) :
  v_shown (keys cur [true] (open_viewer cur (Some (-1)%Z) c)) = 0%Z.
Proof. exact (viewer_end cur c). Qed.
Print Assumptions C108_open_at_end_refuted.

(** C108, false: the label given when the viewer was opened, or its absence, is lost with the first
    key: the default compact label takes its place. *)
Theorem C108_caption_refuted (cur : nat) (l : list bool) (k : bool) (v : viewer) :
  v_caption (keys cur (l ++ [k]) v) = Default true.
Proof. exact (viewer_caption cur l k v). Qed.
Print Assumptions C108_caption_refuted.

(** C108.  The files of a session have ascending numbers, each once: those of the intervals that
    were saved. *)
Theorem C108_files (ops : list op) (s : state) : StronglySorted lt (map fst (snd (session ops s))) /\
  forall i, In i (map fst (snd (session ops s))) <-> ~ never_saved ops s i.
Proof. exact (conj (session_ordered ops s) (session_numbers ops s)). Qed.
Print Assumptions C108_files.
Example C108_files_case : map fst (snd (session [Save; Change (mkState 1 None 50); Save; Save] two)) = [1; 2]%nat.
Proof. reflexivity. Qed.

(** C108.  Reading interval -k gives the k-th file from the end, and fails when there are not so many. *)
Theorem C108_from_the_end_read (ops : list op) (s : state) (k : nat) :
  (forall i t, nth_error (rev (snd (session ops s))) k = Some (i, t) ->
     read (- Z.of_nat k - 1) (snd (session ops s)) = Ok (Some (i, t))) /\
  ((List.length (snd (session ops s)) <= k)%nat -> snd (session ops s) <> [] ->
     read (- Z.of_nat k - 1) (snd (session ops s)) = Err IndexError).
Proof. exact (conj (read_back ops s k) (read_none ops s k)). Qed.
Print Assumptions C108_from_the_end_read.
Example C108_from_the_end_read_case :
  nth_error (rev (snd (session [Save; Change (mkState 1 None 50); Save] two))) 1 = Some (1%nat, None).
Proof. reflexivity. Qed.

(** C108.  When no diameter is asked for, the number of craters is that of craters larger than
    1, 20 or 64 km, by the size of the smallest craters. *)
Theorem C108_default_diameter (csfd : R -> R) (Dconv Nconv : R) (w : wishes) (s : state) t d :
  w_D w = None -> w_N w = true -> s_times s = Some t ->
  exists r N u, labelmaker csfd Dconv Nconv w None s d = Ok r /\
    In (Number (if Rlt_dec (s_smallest s) 100 then 1 else if Rlt_dec (s_smallest s) 10000 then 20 else 64) N u) (snd r).
Proof. exact (default_diameter csfd Dconv Nconv w s t d). Qed.
Print Assumptions C108_default_diameter.
Example C108_default_diameter_case : exists t, w_N (all_wishes 1) = true /\ s_times two = Some t /\
  w_D (mkWishes true true true true None false) = None.
Proof. destruct (s_times two) as [t|] eqn:E; [exists t; repeat split | discriminate E]. Qed.

(** C108.  The viewer opens at the interval asked for, or at the current one, with the label given. *)
Theorem C108_open (cur : nat) (i : Z) (c : caption) :
  (v_shown (open_viewer cur (Some i) c) = i /\ v_pos (open_viewer cur (Some i) c) = i) /\
  (v_shown (open_viewer cur None c) = Z.of_nat cur /\ v_pos (open_viewer cur None c) = Z.of_nat cur) /\
  v_caption (open_viewer cur (Some i) c) = c /\ v_caption (open_viewer cur None c) = c.
Proof. exact (viewer_open cur i c). Qed.
Print Assumptions C108_open.
Example C108_open_case : v_shown (open_viewer 5 (Some 3%Z) NoCaption) = 3%Z. Proof. reflexivity. Qed.
