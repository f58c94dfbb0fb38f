(** Property theorems about the data composer (C82). *)
From Coq Require Import Reals.
From Verif Require Import Common Compose_model Compose_spec Compose_proofs.
Open Scope R_scope.

(** C82: over any calls in any order, each dataset handed over is still waiting or closed.  Once
    finished or cancelled all are closed, nothing changes any more, and finishing or adding data
    raises a ValueError.  The elevations are those at the start, or were changed once, by one call
    of finish with data. *)
Theorem C82_once pts is_local open l elev : let c := calls pts is_local open l (fresh elev) in
  accounted c /\ (c_finished c = true -> all_closed c /\
     forall o, let (c', e) := step pts is_local open o c in c_elev c' = c_elev c /\ all_closed c' /\
       (o = Finish \/ (exists its, o = Add its) -> c' = c /\ e = Some ValueError)) /\
  (c_elev c = elev \/ c_finished c = true /\ exists before after, l = (before ++ Finish :: after)%list /\
     let b := calls pts is_local open before (fresh elev) in c_finished b = false /\ c_list b <> [] /\
     c_elev c = map (fun q => fst q + composed (c_list b) (snd q)) (combine elev pts)).
Proof. exact (once pts is_local open l elev). Qed.
Print Assumptions C82_once.
(** C82: what is added at a point is nothing where no dataset has a usable pixel, a pixel value in
    metres of one of the datasets otherwise, and that of the only one if there is only one. *)
Theorem C82_values l p :
  ((forall r m, In r l -> ~ gives r p m) -> composed l p = 0) /\
  ((exists r m, In r l /\ gives r p m) -> exists r, In r l /\ gives r p (composed l p)) /\
  (forall r m, In r l -> gives r p m -> (forall s k, In s l -> gives s p k -> s = r) -> composed l p = m).
Proof. exact (values l p). Qed.
Print Assumptions C82_values.
(** C82: a with statement whose program raises passes that exception on, closes all datasets and
    leaves the elevations as the program left them. *)
Theorem C82_with_raises pts is_local open l elev c e : body pts is_local open l (fresh elev) = (c, Some e) ->
  exists c', with_block pts is_local open l (fresh elev) = (c', Some e) /\
    c_finished c' = true /\ all_closed c' /\ c_elev c' = c_elev c.
Proof. exact (with_raises pts is_local open l elev c e). Qed.
Print Assumptions C82_with_raises.
(** C82: a with statement that ends without an exception is finished and has closed all datasets. *)
Theorem C82_with_returns pts is_local open l elev c : with_block pts is_local open l (fresh elev) = (c, None) ->
  c_finished c = true /\ all_closed c.
Proof. exact (with_returns pts is_local open l elev c). Qed.
Print Assumptions C82_with_returns.
(** C82: leaving the with statement applies the data, when there are data and each dataset meets
    the surface if it is a local one. *)
Theorem C82_with_applies pts is_local open l elev c : body pts is_local open l (fresh elev) = (c, None) -> c_finished c = false -> c_list c <> [] ->
  (is_local = true -> forall r, In r (c_list c) -> exists p, In p pts /\ ra_inside r p = true) ->
  exists c', with_block pts is_local open l (fresh elev) = (c', None) /\
    c_elev c' = map (fun q => fst q + composed (c_list c) (snd q)) (combine elev pts).
Proof. exact (with_applies pts is_local open l elev c). Qed.
Print Assumptions C82_with_applies.
(** For any datasets a program that only adds them meets the hypotheses. *)
Example C82_with_case pts is_local open rs elev : exists c, body pts is_local open [Add (map Reader rs)] (fresh elev) = (c, None) /\
  c_finished c = false /\ c_list c = rs /\ c_elev c = elev /\ c_closed c = [] /\ c_added c = map ra_handle rs.
Proof. exact (adds_waiting pts is_local open rs (fresh elev) eq_refl). Qed.
(** C82 fails on leaving the with statement when no data were added, or one dataset does not meet a
    local surface: a ValueError is raised, nothing is applied and the datasets stay open. *)
Theorem C82_with_leaks_refuted pts is_local open l elev c : body pts is_local open l (fresh elev) = (c, None) -> c_finished c = false ->
  (c_list c = [] \/ is_local = true /\ exists r, In r (c_list c) /\ forall p, In p pts -> ra_inside r p = false) ->
  with_block pts is_local open l (fresh elev) = (c, Some ValueError).
Proof. exact (with_leaks pts is_local open l elev c). Qed.
Print Assumptions C82_with_leaks_refuted.
(** C82 fails where datasets overlap: of two pixels on the equator the elevation at the
    intersection of the equator with the prime meridian is taken from the farther one, in either
    order of the datasets. *)
Theorem C82_farthest_refuted r1 r2 a b x y : -180 < a < 180 -> -180 < b < 180 -> chord (0, 0) (a, 0) < chord (0, 0) (b, 0) ->
  ra_centre r1 (0, 0) = (a, 0) -> ra_centre r2 (0, 0) = (b, 0) -> gives r1 (0, 0) x -> gives r2 (0, 0) y ->
  composed [r1; r2] (0, 0) = y /\ composed [r2; r1] (0, 0) = y.
Proof. exact (farthest r1 r2 a b x y). Qed.
Print Assumptions C82_farthest_refuted.
Example C82_farthest_case :
  (-180 < 1 < 180 /\ -180 < 90 < 180 /\ chord (0, 0) (1, 0) < chord (0, 0) (90, 0)) /\
  gives (e_raster 0 1 5) (0, 0) 5 /\ gives (e_raster 1 90 7) (0, 0) 7 /\
  composed [e_raster 0 1 5; e_raster 1 90 7] (0, 0) = 7.
Proof. exact e_case. Qed.
(** C82 fails for the list given to add_data: whatever it held, it holds only open datasets
    afterwards. *)
Theorem C82_argument_refuted open its c : c_finished c = false -> snd (snd (add_data open its c)) = None ->
  exists rs, fst (add_data open its c) = map Reader rs /\ c_list (fst (snd (add_data open its c))) = (c_list c ++ rs)%list.
Proof. exact (list_replaced open its c). Qed.
Print Assumptions C82_argument_refuted.
