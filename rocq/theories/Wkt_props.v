(** C125: the coordinate reference systems of surfaces and regions describe their body and place. *)
From Coq Require Import String Ascii List.
From Verif Require Import Wkt_model Wkt_spec Wkt_proofs.
Import ListNotations.
Open Scope string_scope.

(** For every name without quotes and every radius, the description of a whole body is read as an
    expression that gives the ellipsoid with the name and the radius of the body.
    Missing: the axes are not part of it (C125_global_refuted). *)
Theorem C125_global_partial : forall b, a_name (b_name b) -> a_number (b_radius b) ->
  exists root rest, expression (get_crs b None) = Some (root, rest) /\ get_crs b None = root ++ rest
    /\ says root (ellipsoid (b_name b) (b_radius b)).
Proof. exact global_partial. Qed.
Print Assumptions C125_global_partial.
Example C125_global_partial_ex : a_name (b_name moon) /\ a_number (b_radius moon)
  /\ says (get_crs moon None) "ELLIPSOID[""Moon"",1737400.000000,0,".
Proof. exact moon_global. Qed.

(** The description of a whole body has one closing bracket too many: its expression ends after the
    prime meridian, and the coordinate system with its two axes is written after the end. *)
Theorem C125_global_refuted : forall b, a_name (b_name b) -> a_number (b_radius b) ->
  ~ whole (get_crs b None)
  /\ exists root rest, expression (get_crs b None) = Some (root, rest) /\ (forall t, In t global_axes -> says rest t).
Proof. exact global_refuted. Qed.
Print Assumptions C125_global_refuted.
Example C125_global_refuted_ex : a_name (b_name mars) /\ a_number (b_radius mars).
Proof. exact mars_ok. Qed.

(** The description of a region about a place is read as an expression that gives the ellipsoid of the
    body, the longitude and the latitude of the place in their parameters, and both axes.  What is left
    out is the remark alone. *)
Theorem C125_local_partial : forall b lon lat, a_name (b_name b) -> a_number (b_radius b) -> a_number lon -> a_number lat ->
  exists root, expression (get_crs b (Some (lon, lat))) = Some (root, ",REMARK[""Created by Cratermaker""]")
    /\ get_crs b (Some (lon, lat)) = root ++ ",REMARK[""Created by Cratermaker""]"
    /\ says root (ellipsoid (b_name b) (b_radius b)) /\ says root (latitude_is lat) /\ says root (longitude_is lon)
    /\ (forall t, In t local_axes -> says root t).
Proof. exact local_partial. Qed.
Print Assumptions C125_local_partial.
Example C125_local_partial_ex : a_name (b_name mars) /\ a_number (b_radius mars) /\ a_number "43.5" /\ a_number "-12.25".
Proof. exact mars_place. Qed.

(** The description of a region is not one whole expression either: the remark is written after the end. *)
Theorem C125_local_refuted : forall b lon lat, a_name (b_name b) -> a_number (b_radius b) -> a_number lon -> a_number lat ->
  ~ whole (get_crs b (Some (lon, lat))).
Proof. exact local_refuted. Qed.
Print Assumptions C125_local_refuted.
Example C125_local_refuted_ex : a_name (b_name mars) /\ a_number (b_radius mars) /\ a_number "43.5" /\ a_number "-12.25".
Proof. exact mars_place. Qed.

(** However often it was asked before, a surface or region gives the system of its body and place. *)
Theorem C125_kept : forall b p es, Forall looks es ->
  fst (crs (fold_left happens es (new_holder b p))) = get_crs b p.
Proof. exact kept_system. Qed.
Print Assumptions C125_kept.
Example C125_kept_ex : Forall looks [Looked; Looked].
Proof. exact two_looks. Qed.

(** Before the first question, the system is that of the last target assigned. *)
Theorem C125_assigned_before : forall b b' p es, Forall looks es ->
  fst (crs (fold_left happens es (set_target (new_holder b p) b'))) = get_crs b' p.
Proof. exact assigned_before. Qed.
Print Assumptions C125_assigned_before.
Example C125_assigned_before_ex : fst (crs (set_target (new_holder moon None) mars)) = get_crs mars None.
Proof. exact eq_refl. Qed.

(** After the first question, the system stays that of the earlier body whatever target is assigned. *)
Theorem C125_target_refuted : (forall es h, fst (crs (fold_left happens es (snd (crs h)))) = fst (crs h))
  /\ (exists b b', fst (crs (fold_left happens [Looked; Targeted b'] (new_holder b None))) = get_crs b None
        /\ get_crs b None <> get_crs b' None).
Proof. exact target_refuted. Qed.
Print Assumptions C125_target_refuted.
Example C125_target_refuted_ex : fst (crs (fold_left happens [Looked; Targeted mars] (new_holder moon None))) = get_crs moon None.
Proof. exact eq_refl. Qed.
