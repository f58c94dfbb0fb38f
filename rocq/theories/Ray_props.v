(** Property theorems about the rays of ejecta (C81). *)
From Coq Require Import Reals ZArith List.
From Verif Require Import Common Profile_model Ray_model Ray_spec Ray_proofs Ray_cases.
Open Scope R_scope.

(** C81: points inside the crater get zero.  Unless every point outside gets not-a-number, all
    values are numbers from zero to one, and some point outside gets exactly one. *)
Theorem C81_range_partial erf d rs ts diameter vs : positive_erf erf -> drawn d -> sized diameter -> ray_intensity erf d rs ts diameter = Ok vs ->
  List.length vs = List.length rs /\
  (forall i r t v, at_point rs ts vs i r t v -> r < diameter / 2 -> v = Num 0) /\
  ((forall i r t v, at_point rs ts vs i r t v -> diameter / 2 <= r -> v = NaN) \/
   (forall i r t v, at_point rs ts vs i r t v -> exists x, v = Num x /\ 0 <= x <= 1) /\
   exists i r t, at_point rs ts vs i r t (Num 1) /\ diameter / 2 <= r).
Proof. exact (range erf d rs ts diameter vs). Qed.
Print Assumptions C81_range_partial.
(** C81: all values are numbers when one of the points lies outside the crater but within
    one plus any of the random numbers times its radius. *)
Theorem C81_near_rim erf d rs ts diameter vs i r t v x : positive_erf erf -> drawn d -> sized diameter -> ray_intensity erf d rs ts diameter = Ok vs ->
  at_point rs ts vs i r t v -> In x (numbers d) -> diameter / 2 <= r < (1 + x) * (diameter / 2) -> ~ In NaN vs.
Proof. exact (near erf d rs ts diameter vs i r t v x). Qed.
Print Assumptions C81_near_rim.
Example C81_case erf : positive_erf erf -> drawn e_draws /\ sized 2000 /\
  exists vs, ray_intensity erf e_draws [500; 1200; 150000] [0; 1; 2] 2000 = Ok vs /\ ~ In NaN vs /\
  nth_error vs 0 = Some (Num 0) /\ nth_error vs 1 = Some (Num 1) /\ nth_error vs 2 = Some (Num 0).
Proof. exact (fun E => conj e_drawn (conj e_sized (e_near erf E))). Qed.
Example C81_erf_case : positive_erf (fun x => x / (1 + x)).
Proof. exact e_erf. Qed.
(** C81: rays end before 101 crater radii. *)
Theorem C81_far erf d rs ts diameter vs i r t v : positive_erf erf -> drawn d -> sized diameter -> ray_intensity erf d rs ts diameter = Ok vs ->
  at_point rs ts vs i r t v -> 101 * (diameter / 2) < r -> v = Num 0 \/ v = NaN.
Proof. exact (far erf d rs ts diameter vs i r t v). Qed.
Print Assumptions C81_far.
(** C81 fails when every given point outside the crater is farther than the rays reach: the
    intensities are normalised by a maximum of zero and all become not-a-number. *)
Theorem C81_all_far_refuted erf d rs ts diameter vs : positive_erf erf -> drawn d -> sized diameter -> ray_intensity erf d rs ts diameter = Ok vs ->
  (forall r, In r rs -> r < diameter / 2 \/ 101 * (diameter / 2) < r) ->
  forall i r t v, at_point rs ts vs i r t v -> diameter / 2 <= r -> v = NaN.
Proof. exact (all_far erf d rs ts diameter vs). Qed.
Print Assumptions C81_all_far_refuted.
(** C81: with the same draws two points keep the same proportion whatever other points are asked
    for. *)
Theorem C81_proportions erf d rs1 ts1 vs1 rs2 ts2 vs2 diameter i1 i2 j1 j2 r t r' t' x1 x2 y1 y2 :
  positive_erf erf -> drawn d -> sized diameter ->
  ray_intensity erf d rs1 ts1 diameter = Ok vs1 -> ray_intensity erf d rs2 ts2 diameter = Ok vs2 ->
  at_point rs1 ts1 vs1 i1 r t (Num x1) -> at_point rs2 ts2 vs2 i2 r t (Num x2) ->
  at_point rs1 ts1 vs1 j1 r' t' (Num y1) -> at_point rs2 ts2 vs2 j2 r' t' (Num y2) ->
  x1 * y2 = x2 * y1.
Proof. exact (ratios erf d rs1 ts1 vs1 rs2 ts2 vs2 diameter i1 i2 j1 j2 r t r' t' x1 x2 y1 y2). Qed.
Print Assumptions C81_proportions.
(** C81 fails for the values themselves: a point asked for alone gets one (or not-a-number)
    wherever it lies, on a ray or between rays. *)
Theorem C81_alone_refuted erf d r t diameter vs : positive_erf erf -> drawn d -> sized diameter -> ray_intensity erf d [r] [t] diameter = Ok vs ->
  diameter / 2 <= r -> vs = [Num 1] \/ vs = [NaN].
Proof. exact (single erf d r t diameter vs). Qed.
Print Assumptions C81_alone_refuted.
(** C81: whole turns added to bearings from -180 degrees on change nothing. *)
Theorem C81_turns erf d diameter rs s ts ts' : drawn d ->
  Forall2 (fun a b => -180 <= a /\ exists k : nat, b = a + 360 * INR k) ts ts' ->
  py_ray_intensity erf d diameter (Arr s rs) (Arr s ts') = py_ray_intensity erf d diameter (Arr s rs) (Arr s ts).
Proof. exact (turns erf d diameter rs s ts ts'). Qed.
Print Assumptions C81_turns.
(** C81 fails for the number of rays: at least three of the five rays extend to the limit of a
    hundred crater radii, and at the limit their intensity is divided by one, the number of rays
    the code computes there. *)
Theorem C81_ray_count_refuted diameter : sized diameter ->
  (forall r, r <= 100 -> (3 <= rays_reaching r (minray_of (diameter / 2)))%nat) /\
  rays_reaching 100 (minray_of (diameter / 2)) = 3%nat /\ rays_counted 100 (minray_of (diameter / 2)) = 1%Z.
Proof. exact (counts diameter). Qed.
Print Assumptions C81_ray_count_refuted.
(** C81: the five rays have different lengths, all longer than the shortest length, and a ray does
    not contribute beyond its length. *)
Theorem C81_lengths erf diameter azimuths : sized diameter -> let shortest := minray_of (diameter / 2) in
  (forall i j, (i < j < 5)%nat -> shortest < ray_length shortest j < ray_length shortest i) /\
  ray_length shortest 2 = 100 /\
  forall i r t, ray_length shortest i < r -> one_ray erf r t shortest azimuths i = 0.
Proof. exact (lengths erf diameter azimuths). Qed.
Print Assumptions C81_lengths.
(** C81: the contribution of a ray is not negative and does not increase with the angle from its
    azimuth, on either side of it. *)
Theorem C81_across erf azimuth r n w x y : positive_erf erf -> 0 < r -> 0 < w -> (1 <= n)%Z -> Rabs x <= Rabs y <= PI ->
  0 <= ejecta_ray_func erf (azimuth + y) azimuth r n w <= ejecta_ray_func erf (azimuth + x) azimuth r n w.
Proof. exact (across erf azimuth r n w x y). Qed.
Print Assumptions C81_across.
(** C81: distances and bearings of different numbers are refused; for an array the result has the
    shape of the distances. *)
Theorem C81_shapes erf d diameter ej r theta :
  (List.length (ravel r) <> List.length (ravel theta) ->
     py_ray_intensity erf d diameter r theta = Err ValueError /\ py_ejecta_distribution erf d diameter ej r theta = Err ValueError) /\
  (List.length (ravel r) = List.length (ravel theta) -> forall s l, r = Arr s l ->
     exists v, py_ray_intensity erf d diameter r theta = Ok (mk_fa s v) /\ List.length v = List.length l).
Proof. exact (shapes erf d diameter ej r theta). Qed.
Print Assumptions C81_shapes.
(** C81: the thickness with rays is the thickness without rays times the intensity, and is never
    larger. *)
Theorem C81_thickness erf d diameter ej rs theta th int : positive_erf erf -> drawn d -> sized diameter -> 0 <= ej ->
  py_ejecta_distribution erf d diameter ej (Arr [List.length rs] rs) theta = Ok (th, int) ->
  py_ray_intensity erf d diameter (Arr [List.length rs] rs) theta = Ok int /\ fa_shape th = [List.length rs] /\
  forall i y, nth_error (fa_data th) i = Some (Num y) -> exists r p x, nth_error rs i = Some r /\
    nth_error (snd (py_ejecta_profile diameter ej (Arr [List.length rs] rs))) i = Some p /\
    nth_error (fa_data int) i = Some (Num x) /\ y = p * x /\ 0 <= y <= p.
Proof. exact (thinned erf d diameter ej rs theta th int). Qed.
Print Assumptions C81_thickness.
(** C81 fails for numbers and lists, which the plain profile accepts: both functions with rays raise
    an AttributeError. *)
Theorem C81_lists_refuted erf d diameter ej r theta : List.length (ravel r) = List.length (ravel theta) -> (forall s l, r <> Arr s l) ->
  py_ray_intensity erf d diameter r theta = Err AttributeError /\ py_ejecta_distribution erf d diameter ej r theta = Err AttributeError /\
  snd (py_ejecta_profile diameter ej r) = map (fun x => ejecta_profile_function x (diameter / 2) ej) (ravel r).
Proof. exact (plain erf d diameter ej r theta). Qed.
Print Assumptions C81_lists_refuted.
(** C81 fails for grids: for every array of two or more rows the thickness cannot be multiplied by
    the flat intensities and a ValueError is raised, although the intensity alone is returned. *)
Theorem C81_grids_refuted erf d diameter ej a b l theta : List.length l = (a * b)%nat -> List.length (ravel theta) = List.length l -> (2 <= a)%nat -> (1 <= b)%nat ->
  (exists v, py_ray_intensity erf d diameter (Arr [a; b] l) theta = Ok (mk_fa [a; b] v)) /\
  py_ejecta_distribution erf d diameter ej (Arr [a; b] l) theta = Err ValueError.
Proof. exact (grid erf d diameter ej a b l theta). Qed.
Print Assumptions C81_grids_refuted.
