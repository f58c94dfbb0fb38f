(** C113: a plot shows the interval it is asked for, and its file tells which. *)
From Coq Require Import Reals ZArith List Lia Lra.
From Verif Require Import Common Plot_model Plot_spec Plot_proofs.
Import ListNotations.
Open Scope R_scope.

(** Plotting a simulation without an interval saves the state in memory under the current number, and shows it,
    whatever was saved before. *)
Theorem C113_current : forall data crater six has prefix ext now (w : world data crater) st variable bar m width saved d,
  drawn has st variable bar m width = Ok d ->
  simulation_plot data crater six has prefix ext now w st variable None bar m width saved =
  (save _ _ now w,
   Ok (mkPicture data (w_surf _ _ w) d
         (if saved then Some (surface_file six prefix ext st (d_variable d) (Some (Z.of_nat now))) else None))) /\
  file now (f_surf _ _ (save _ _ now w)) = Some (now, w_surf _ _ w).
Proof. exact plot_now. Qed.
Print Assumptions C113_current.
Example C113_current_ex :
  drawn (fun _ => true) Hillshade None true (Some 800) 100 = Ok (mkDrawing None true false (Rmax 800 100)).
Proof. reflexivity. Qed.

(** After every history of changes and saves, the plot of an interval that was saved, other than the last, shows
    the state that was in memory when that interval was last saved, and so does the plot of interval -1 for
    the last. *)
Theorem C113_saved_partial : forall data crater (w : world data crater) s0 l n d, fresh _ _ w s0 ->
  state_saved _ _ s0 l n d ->
  (~ last_interval _ _ l n ->
   surface_shown _ _ (history _ _ w l) (Some (Z.of_nat n)) = Ok (d, Some (Z.of_nat n))) /\
  (last_interval _ _ l n ->
   surface_shown _ _ (history _ _ w l) (Some (-1)%Z) = Ok (d, Some (Z.of_nat n))).
Proof.
  exact (fun data crater w s0 l n d F S => conj (fun N => shown_earlier data crater w s0 l n d F S N)
           (fun L => shown_end data crater w s0 l n d F L S)).
Qed.
Print Assumptions C113_saved_partial.
Example C113_saved_ex :
  fresh nat nat (mkWorld nat nat 0%nat [] [] [] [] []) 0%nat /\
  state_saved nat nat 0%nat [Change _ _ 1%nat [] []; Save _ _ 1%nat; Change _ _ 2%nat [] []; Save _ _ 2%nat] 1 1%nat /\
  ~ last_interval nat nat [Change _ _ 1%nat [] []; Save _ _ 1%nat; Change _ _ 2%nat [] []; Save _ _ 2%nat] 1.
Proof.
  split; [repeat split|split].
  - exists [Change _ _ 1%nat [] []], [Change _ _ 2%nat [] []; Save _ _ 2%nat]. repeat split.
    unfold was_saved. cbn. intros [H|[H|[]]]; discriminate.
  - intros (_ & H). specialize (H 2%nat). unfold was_saved in H. cbn in H.
    assert (2 <= 1)%nat by (apply H; auto 6). lia.
Qed.

(** Under its own number, the last interval is shown as it is in memory now, also when it has changed since it
    was saved. *)
Theorem C113_last_refuted : forall data crater (w : world data crater) s0 l n, fresh _ _ w s0 ->
  last_interval _ _ l n ->
  surface_shown _ _ (history _ _ w l) (Some (Z.of_nat n)) = Ok (surface_after _ _ s0 l, Some (Z.of_nat n)).
Proof. exact shown_last. Qed.
Print Assumptions C113_last_refuted.
Example C113_last_ex :
  let w := history nat nat (mkWorld nat nat 0%nat [] [] [] [] [])
             [Change _ _ 1%nat [] []; Save _ _ 1%nat; Change _ _ 2%nat [] []] in
  surface_shown nat nat w (Some 1%Z) = Ok (2%nat, Some 1%Z) /\ surface_shown nat nat w (Some (-1)%Z) = Ok (1%nat, Some 1%Z).
Proof. split; reflexivity. Qed.

(** Each save writes the crater lists that are not empty, each under its own kind, and no file of another number. *)
Theorem C113_save : forall data crater n (w : world data crater),
  (w_obs _ _ w <> [] -> file n (f_obs _ _ (save _ _ n w)) = Some (n, w_obs _ _ w)) /\
  (w_emp _ _ w <> [] -> file n (f_emp _ _ (save _ _ n w)) = Some (n, w_emp _ _ w)) /\
  (w_obs _ _ w = [] -> f_obs _ _ (save _ _ n w) = f_obs _ _ w) /\
  (w_emp _ _ w = [] -> f_emp _ _ (save _ _ n w) = f_emp _ _ w) /\
  (forall m, m <> n -> file m (f_surf _ _ (save _ _ n w)) = file m (f_surf _ _ w) /\
     file m (f_obs _ _ (save _ _ n w)) = file m (f_obs _ _ w) /\ file m (f_emp _ _ (save _ _ n w)) = file m (f_emp _ _ w)).
Proof. exact saved_lists. Qed.
Print Assumptions C113_save.
Example C113_save_ex : f_obs _ _ (save nat nat 2 (mkWorld nat nat 0%nat [5%nat] [] [] [] [])) = [(2, [5])]%nat.
Proof. reflexivity. Qed.

(** The image of a saved interval shows the state saved and has its number in its name, also when the interval is
    counted from the end. *)
Theorem C113_saved_files_partial : forall data crater six has prefix ext (w : world data crater) s0 l st variable bar mn width n d dr f,
  fresh _ _ w s0 -> state_saved _ _ s0 l n d -> drawn has st variable bar mn width = Ok dr ->
  (~ last_interval _ _ l n ->
   surface_plot _ _ six has prefix ext (history _ _ w l) st variable (Some (Z.of_nat n)) bar mn width true f =
   Ok (mkPicture _ d dr (Some (surface_file six prefix ext st (d_variable dr) (Some (Z.of_nat n)))))) /\
  (last_interval _ _ l n ->
   surface_plot _ _ six has prefix ext (history _ _ w l) st variable (Some (-1)%Z) bar mn width true f =
   Ok (mkPicture _ d dr (Some (surface_file six prefix ext st (d_variable dr) (Some (Z.of_nat n)))))).
Proof. exact plot_saved. Qed.
Print Assumptions C113_saved_files_partial.
Example C113_saved_files_ex :
  surface_plot nat nat (fun i => if Z.eqb i 2 then "000002" else "")%string (fun _ => true) "surface" "png"
    (history _ _ (mkWorld nat nat 0%nat [] [] [] [] []) [Change _ _ 7%nat [] []; Save _ _ 2%nat; Change _ _ 8%nat [] []])
    Hillshade None (Some (-1)%Z) false (Some 800) 100 true None =
  Ok (mkPicture nat 7%nat (mkDrawing None true false (Rmax 800 100)) (Some "surface_hillshade000002.png"%string)).
Proof. reflexivity. Qed.

(** An interval that was not saved is never drawn. *)
Theorem C113_unsaved : forall data crater (w : world data crater) s0 l, fresh _ _ w s0 ->
  (forall i, (forall m, ~ was_saved _ _ l m) -> surface_shown _ _ (history _ _ w l) (Some i) = Err TypeError) /\
  (forall n m, ~ was_saved _ _ l n -> was_saved _ _ l m ->
     surface_shown _ _ (history _ _ w l) (Some (Z.of_nat n)) = Err AttributeError) /\
  (forall i m, was_saved _ _ l m -> (i < - Z.of_nat (List.length l))%Z ->
     surface_shown _ _ (history _ _ w l) (Some i) = Err IndexError).
Proof.
  exact (fun data crater w s0 l F => conj (proj1 (shown_unsaved data crater w s0 l F))
    (conj (proj2 (shown_unsaved data crater w s0 l F)) (fun i m => shown_too_early data crater w s0 l i m F))).
Qed.
Print Assumptions C113_unsaved.
Example C113_unsaved_ex : was_saved nat nat [Save _ _ 3%nat] 3 /\ ~ was_saved nat nat [Save _ _ 3%nat] 2.
Proof. unfold was_saved. cbn. split; [auto|]. intros [H|[]]. discriminate. Qed.

(** What is drawn in the two styles: a map colours the variable, elevation by default; a hillshade shows relief,
    and colours the variable only when one is given; a variable that does not exist is refused; the image has at
    least the width asked for. *)
Theorem C113_styles : forall has variable bar m width,
  (match variable with Some v => has v = true | None => True end ->
   drawn has Map variable bar (Some m) width =
     Ok (mkDrawing (Some match variable with Some v => v | None => "face_elevation"%string end) false bar (Rmax m width)) /\
   drawn has Hillshade variable bar (Some m) width =
     Ok (mkDrawing variable true (match variable with Some _ => bar | None => false end) (Rmax m width))) /\
  (forall st v mm, has v = false -> drawn has st (Some v) bar mm width = Err ValueError).
Proof.
  exact (fun has variable bar m width => conj (drawn_ok has variable bar m width)
           (fun st v mm => drawn_missing has st v bar mm width)).
Qed.
Print Assumptions C113_styles.
Example C113_styles_ex :
  drawn (String.eqb "ejecta_thickness") Map (Some "ejecta_thickness"%string) true (Some 800) 2000 =
  Ok (mkDrawing (Some "ejecta_thickness"%string) false true (Rmax 800 2000)).
Proof. reflexivity. Qed.

(** Any other style is refused, but with UnboundLocalError in place of the ValueError of the code, unless
    the colour bar is switched off. *)
Theorem C113_other_style_refuted : forall has s variable bar m width,
  (forall v, variable = Some v -> has v = true) ->
  drawn has (Other s) variable bar m width = Err (if bar then UnboundLocalError else ValueError).
Proof. exact drawn_other. Qed.
Print Assumptions C113_other_style_refuted.
Example C113_other_style_ex : drawn (fun _ => true) (Other "relief") None true (Some 800) 100 = Err UnboundLocalError.
Proof. reflexivity. Qed.

(** Switching the least width off (None), as the documentation says one can, makes every plot fail. *)
Theorem C113_no_minimum_refuted : forall has st variable bar width, exists e,
  drawn has st variable bar None width = Err e.
Proof. exact drawn_minimum. Qed.
Print Assumptions C113_no_minimum_refuted.
Example C113_no_minimum_ex : drawn (fun _ => true) Map None true None 2000 = Err UnboundLocalError.
Proof. reflexivity. Qed.

(** Files of surface plots: for one interval, different styles or variables have different names; for one style
    and variable, different intervals do. *)
Theorem C113_files_partial : forall six prefix ext,
  (forall st st' v v' i, (st = Map \/ st = Hillshade) -> (st' = Map \/ st' = Hillshade) ->
     surface_file six prefix ext st v i = surface_file six prefix ext st' v' i -> st = st' /\ v = v') /\
  ((forall a b, six a = six b -> a = b) -> forall st v i j,
     surface_file six prefix ext st v (Some i) = surface_file six prefix ext st v (Some j) -> i = j).
Proof.
  exact (fun six prefix ext => conj (files_same_interval six prefix ext)
           (fun Inj st v i j => files_intervals six prefix ext st v i j Inj)).
Qed.
Print Assumptions C113_files_partial.
Example C113_files_ex :
  surface_file (fun _ => "000007"%string) "surface" "png" Hillshade None (Some 7%Z) = "surface_hillshade000007.png"%string.
Proof. reflexivity. Qed.

(** The file of a plot with craters does not tell the style: the map and the hillshade of one interval overwrite
    each other. *)
Theorem C113_counting_files_refuted : forall data crater six has prefix own ext (w : world data crater) st st'
    variable i bar m width saved c1 c2 c3 lw a b,
  counting_plot data crater six has prefix own ext w st variable i bar m width saved c1 c2 c3 lw = Ok a ->
  counting_plot data crater six has prefix own ext w st' variable i bar m width saved c1 c2 c3 lw = Ok b ->
  c_file _ _ a = c_file _ _ b /\ c_layers _ _ a = c_layers _ _ b.
Proof. exact counting_same_file. Qed.
Print Assumptions C113_counting_files_refuted.
Example C113_counting_files_ex : forall st, st = Map \/ st = Hillshade ->
  match counting_plot nat nat (fun _ => "000007"%string) (fun _ => true) "surface" "craters" "png"
    (mkWorld nat nat 0%nat [5%nat] [5%nat] [(7, 0)]%nat [(7, [5])]%nat [(7, [5])]%nat)
    st None (Some 7%Z) true (Some 800) 800 true None None (Some "white"%string) None with
  | Ok c => c_file _ _ c = Some "surface_craters000007.png"%string
  | Err _ => False
  end.
Proof. intros st [-> | ->]; reflexivity. Qed.

(** The argument filename has no effect: the name is always made from the interval. *)
Theorem C113_filename_refuted : forall data crater six has prefix ext (w : world data crater) st variable i bar m width saved f g,
  surface_plot data crater six has prefix ext w st variable i bar m width saved f =
  surface_plot data crater six has prefix ext w st variable i bar m width saved g.
Proof. exact (fun data crater six has prefix ext w st variable i bar m width saved f g => eq_refl). Qed.
Print Assumptions C113_filename_refuted.
Example C113_filename_ex :
  surface_plot nat nat (fun _ => ""%string) (fun _ => true) "surface" "png" (mkWorld nat nat 0%nat [] [] [] [] [])
    Map None None true (Some 800) 100 true (Some "mine.png"%string) =
  Ok (mkPicture nat 0%nat (mkDrawing (Some "face_elevation"%string) false true (Rmax 800 100)) (Some "surface_map_face_elevation.png"%string)).
Proof. reflexivity. Qed.

(** Craters on a plot: without an interval, or for the last interval of both lists, those in memory; for an
    earlier interval without emplaced craters, the observed ones that were saved; none if there are no files. *)
Theorem C113_craters_partial : forall data crater (w : world data crater) n,
  (counting_shown _ _ w None = Ok (Some (w_obs _ _ w), Some (w_emp _ _ w), None)) /\
  (last_number (f_obs _ _ w) = Some n -> last_number (f_emp _ _ w) = Some n ->
   counting_shown _ _ w (Some (Z.of_nat n)) = Ok (Some (w_obs _ _ w), Some (w_emp _ _ w), Some (Z.of_nat n))) /\
  (forall c, file n (f_obs _ _ w) = Some (n, c) -> last_number (f_obs _ _ w) <> Some n ->
   file n (f_emp _ _ w) = None -> last_number (f_emp _ _ w) <> Some n ->
   counting_shown _ _ w (Some (Z.of_nat n)) = Ok (Some c, None, Some (Z.of_nat n))) /\
  (file n (f_obs _ _ w) = None -> file n (f_emp _ _ w) = None ->
   last_number (f_obs _ _ w) <> Some n -> last_number (f_emp _ _ w) <> Some n ->
   counting_shown _ _ w (Some (Z.of_nat n)) = Ok (None, None, Some (Z.of_nat n))).
Proof.
  exact (fun data crater w n => conj (proj1 (counting_current data crater w n))
           (conj (proj2 (counting_current data crater w n)) (conj (counting_observed data crater w n) (counting_none data crater w n)))).
Qed.
Print Assumptions C113_craters_partial.
Example C113_craters_ex :
  counting_shown nat nat (mkWorld nat nat 0%nat [9%nat] [] [(1, 1); (2, 2)]%nat [(1, [7]); (2, [8])]%nat []) (Some 1%Z) =
  Ok (Some [7%nat], None, Some 1%Z).
Proof. reflexivity. Qed.

(** The plot of now has the surface and the craters in memory; where no emplaced craters were saved, that of interval -1
    has the last saved observed craters, the surface of their interval and its number. *)
Theorem C113_crater_plot_partial : forall data crater six has prefix own ext (w : world data crater) st variable bar mn width saved ec oc bc lw dr,
  drawn has st variable bar mn width = Ok dr ->
  (exists p, counting_plot _ _ six has prefix own ext w st variable None bar mn width saved ec oc bc lw = Ok p /\
    c_data _ _ p = w_surf _ _ w /\
    map (look crater) (c_layers _ _ p) = (wanted crater ec (Some (w_emp _ _ w)) false ++ wanted crater oc (Some (w_obs _ _ w)) false
                                  ++ wanted crater bc (Some (w_obs _ _ w)) true)%list /\
    c_file _ _ p = (if saved then Some (counting_file six prefix own ext st variable None) else None)) /\
  (forall n c d k, ordered (f_obs _ _ w) -> f_emp _ _ w = [] -> last_number (f_obs _ _ w) = Some n ->
    file n (f_obs _ _ w) = Some (n, c) -> last_number (f_surf _ _ w) = Some k -> k <> n -> file n (f_surf _ _ w) = Some (n, d) ->
    exists p, counting_plot _ _ six has prefix own ext w st variable (Some (-1)%Z) bar mn width saved ec oc bc lw = Ok p /\
    c_data _ _ p = d /\
    map (look crater) (c_layers _ _ p) = (wanted crater oc (Some c) false ++ wanted crater bc (Some c) true)%list /\
    c_file _ _ p = (if saved then Some (counting_file six prefix own ext st variable (Some (Z.of_nat n))) else None)).
Proof.
  exact (fun data crater six has prefix own ext w st variable bar mn width saved ec oc bc lw dr D =>
    conj (counting_plot_now data crater six has prefix own ext w st variable bar mn width saved ec oc bc lw dr D)
         (fun n c d k O => counting_plot_end data crater six has prefix own ext w st variable bar mn width saved ec oc bc lw dr n c d k O D)).
Qed.
Print Assumptions C113_crater_plot_partial.
Example C113_crater_plot_ex :
  counting_plot nat nat (fun _ => "000001"%string) (fun _ => true) "surface" "craters" "png"
    (mkWorld nat nat 9%nat [9%nat] [] [(1, 1); (2, 2)]%nat [(1, [7])]%nat []) Hillshade None (Some (-1)%Z) false (Some 800) 100 true
    (Some "red"%string) None (Some "white"%string) None =
  Ok (mkCounted nat nat 1%nat [mkLayer nat [7%nat] true "white" 0.1] (Some "surface_craters000001.png"%string)).
Proof. reflexivity. Qed.

(** Every earlier interval for which emplaced craters were saved cannot be plotted with craters at all, even if
    the emplaced ones are not asked for; nor can interval -1. *)
Theorem C113_earlier_craters_refuted : forall data crater (w : world data crater),
  (forall n c, file n (f_emp _ _ w) = Some (n, c) -> last_number (f_emp _ _ w) <> Some n ->
     counting_shown _ _ w (Some (Z.of_nat n)) = Err AttributeError) /\
  (f_emp _ _ w <> [] ->
     counting_shown _ _ w (Some (-1)%Z) = Err AttributeError \/ counting_shown _ _ w (Some (-1)%Z) = Err IndexError).
Proof. exact (fun data crater w => conj (counting_earlier_number data crater w) (counting_end data crater w)). Qed.
Print Assumptions C113_earlier_craters_refuted.
Example C113_earlier_craters_ex :
  counting_shown nat nat (mkWorld nat nat 0%nat [9%nat] [9%nat] [(1, 1); (2, 2)]%nat [(1, [7]); (2, [8])]%nat [(1, [7]); (2, [8])]%nat)
    (Some 1%Z) = Err AttributeError.
Proof. reflexivity. Qed.

(** The last interval that had craters is drawn with the craters of now, when later intervals have none: the
    surface of interval 3 without the crater that was saved with it. *)
Theorem C113_stale_craters_refuted : exists (w : world nat nat) l,
  fresh _ _ w 0%nat /\
  file 3 (f_surf _ _ (history _ _ w l)) = Some (3, 1)%nat /\
  file 3 (f_obs _ _ (history _ _ w l)) = Some (3%nat, [42%nat]) /\
  counting_plot nat nat (fun _ => ""%string) (fun _ => true) "surface" "craters" "png" (history _ _ w l)
    Hillshade None (Some 3%Z) false (Some 800) 800 false (Some "red"%string) None (Some "white"%string) None =
  Ok (mkCounted nat nat 1%nat [] None).
Proof.
  exact (ex_intro _ (mkWorld nat nat 0%nat [] [] [] [] [])
    (ex_intro _ [Change _ _ 1%nat [42%nat] [42%nat]; Save _ _ 3%nat; Change _ _ 2%nat [] []; Save _ _ 5%nat]
      (conj (conj eq_refl (conj eq_refl (conj eq_refl eq_refl))) (conj eq_refl (conj eq_refl eq_refl))))).
Qed.
Print Assumptions C113_stale_craters_refuted.

(** The outlines drawn: the emplaced craters, the observed ones as they were made and as they were measured, in
    this order, each when a colour is given and there are any. *)
Theorem C113_layers : forall crater ec oc bc obs emp lw,
  map (look crater) (layers crater ec oc bc obs emp lw) =
  (wanted crater ec emp false ++ wanted crater oc obs false ++ wanted crater bc obs true)%list.
Proof. exact layers_look. Qed.
Print Assumptions C113_layers.
Example C113_layers_ex :
  map (look nat) (layers nat None None (Some "white"%string) (Some [5%nat]) (Some [6%nat]) None) = [([5%nat], true, "white"%string)].
Proof. reflexivity. Qed.

(** A line width that the user gives applies to the first of these layers only. *)
Theorem C113_linewidth_refuted : forall crater ec oc bc obs emp lw,
  match layers crater ec oc bc obs emp (Some lw) with
  | [] => True
  | a :: r => l_width _ a = lw /\ forall b, In b r -> l_width _ b = 0.1
  end.
Proof. exact layers_width. Qed.
Print Assumptions C113_linewidth_refuted.
Example C113_linewidth_ex :
  map (l_width nat) (layers nat (Some "red"%string) None (Some "white"%string) (Some [5%nat]) (Some [6%nat]) (Some 2)) = [2; 0.1].
Proof. reflexivity. Qed.

(** The scale bar is as long as it says, the longest of the round lengths that is at most xmax/(2√2), and
    on an image with the origin at its centre it lies in the lower right quarter. *)
Theorem C113_scale : forall s v, scale_length s = Ok v ->
  In v round_lengths /\ IZR v <= s / 2 / sqrt 2 /\
  (forall u, In u round_lengths -> IZR u <= s / 2 / sqrt 2 -> (u <= v)%Z) /\
  (snd (scale_text v) = Kilometres <-> (1000 <= v)%Z) /\
  (match scale_text v with (k, Metres) => k = v | (k, Kilometres) => (k * 1000)%Z = v end) /\
  (0 < s -> let '(x, y, wd, h) := scale_rectangle (- s) s (- s) s v in
     wd = IZR v /\ 0 < h /\ 0 <= x /\ x + wd < s /\ - s < y /\ y + h < 0).
Proof.
  exact (fun s v H => match scale_spec s v H with
    conj In0 (conj L B) => conj In0 (conj L (conj B (conj (scale_unit v) (conj (scale_told v In0) (fun P => scale_inside s v P H))))) end).
Qed.
Print Assumptions C113_scale.
Example C113_scale_ex : In 5000%Z round_lengths /\ scale_text 5000 = (5%Z, Kilometres).
Proof. split; [vm_compute; tauto|reflexivity]. Qed.

(** A region too small for a bar of one metre cannot be plotted with a scale bar, which local surfaces have by
    default. *)
Theorem C113_scale_refuted : forall s, scale_length s = Err ValueError <-> s / 2 / sqrt 2 < 1.
Proof. exact scale_fails. Qed.
Print Assumptions C113_scale_refuted.
Example C113_scale_refuted_ex : 1 / 2 / sqrt 2 < 1.
Proof.
  assert (1 < sqrt 2). { rewrite <- sqrt_1. apply sqrt_lt_1; lra. }
  apply (Rmult_lt_reg_r (sqrt 2)); [lra|]. unfold Rdiv. rewrite Rmult_assoc, Rinv_l by lra. lra.
Qed.

(** close_when_done is honoured on local surfaces and ignored on the others: a figure that is shown stays open
    although it should be closed, and one that is only saved is closed although it should stay open. *)
Theorem C113_close_refuted : forall c saved show,
  surface_closes true (Some c) saved show = andb c (orb saved show) /\
  surface_closes false (Some c) saved show = andb saved (negb show).
Proof. exact (fun c saved show => match c, saved, show with
  | true, true, true => conj eq_refl eq_refl | true, true, false => conj eq_refl eq_refl
  | true, false, true => conj eq_refl eq_refl | true, false, false => conj eq_refl eq_refl
  | false, true, true => conj eq_refl eq_refl | false, true, false => conj eq_refl eq_refl
  | false, false, true => conj eq_refl eq_refl | false, false, false => conj eq_refl eq_refl end). Qed.
Print Assumptions C113_close_refuted.
Example C113_close_ex : surface_closes false (Some true) true true = false /\ surface_closes false (Some false) true false = true.
Proof. split; reflexivity. Qed.
