(** Properties of the tuple columns of crater files (C27). *)
From Coq Require Import Reals.
From Verif Require Import Common Columns_model Columns_spec Columns_proofs.

(** Flattening a crater record and rebuilding it gives every tuple attribute back; the
    flat record holds plain numbers only and the other attributes pass through. *)
Theorem C27_tuple_columns_round_trip_partial : forall d, crater_record d ->
  exists e d', flatten d = Ok e /\ rebuild e = Ok d' /\
   (forall k, In k tuple_keys -> d' k = d k) /\
   (forall k, In k tuple_keys -> k <> "production_time"%string -> e k = None) /\
   (forall k v, In k column_keys -> e k = Some v -> exists x, v = CNum x) /\
   (forall k, ~ In k tuple_keys -> ~ In k column_keys -> e k = drop_blank d k /\ d' k = drop_blank d k).
Proof. exact round_trip. Qed.
Print Assumptions C27_tuple_columns_round_trip_partial.

Definition sample : dict := fun k =>
  if String.eqb k "location" then Some (CTup [CNum 1; CNum 2])
  else if String.eqb k "production_ND" then Some (CTup [CNum 3; CNum 4; CNum 5])
  else if String.eqb k "diameter" then Some (CNum 7) else None.
Example sample_record : crater_record sample.
Proof.
  split; [right; do 2 eexists; reflexivity|]. split; [left; reflexivity|].
  split; [right; do 3 eexists; reflexivity|]. split; [left; reflexivity|].
  intros k H _. repeat (destruct H as [<-|H]; [reflexivity|]). destruct H.
Qed.

(** A record whose measured location is None cannot be flattened at all. *)
Theorem C27_missing_measured_location_refuted : forall d a b,
  d "location"%string = Some (CTup [CNum a; CNum b]) ->
  d "measured_location"%string = Some CNone -> flatten d = Err TypeError.
Proof. exact none_fails. Qed.
Print Assumptions C27_missing_measured_location_refuted.

Example missing_met : flatten (upd sample "measured_location" (Some CNone)) = Err TypeError.
Proof. apply (C27_missing_measured_location_refuted _ 1 2); reflexivity. Qed.
