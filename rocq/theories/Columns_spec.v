(** Specification vocabulary for the tuple columns of crater files. *)
From Coq Require Import Reals.
From Verif Require Import Common Columns_model.

Definition tuple_keys : list string := ["location"; "measured_location"; "production_ND"; "production_time"]%string.
Definition column_keys : list string :=
  ["longitude"; "latitude"; "measured_longitude"; "measured_latitude"; "production_D"; "production_N";
   "production_N_stdev"; "production_time"; "production_time_stdev"]%string.

(** The tuple attributes of a crater record: absent or full tuples of numbers. *)
Definition pair_or_absent (o : option cell) : Prop := o = None \/ exists a b, o = Some (CTup [CNum a; CNum b]).
Definition triple_or_absent (o : option cell) : Prop := o = None \/ exists a b c, o = Some (CTup [CNum a; CNum b; CNum c]).
Definition crater_record (d : dict) : Prop :=
  pair_or_absent (d "location"%string) /\ pair_or_absent (d "measured_location"%string) /\
  triple_or_absent (d "production_ND"%string) /\ pair_or_absent (d "production_time"%string) /\
  forall k, In k column_keys -> ~ In k tuple_keys -> d k = None.
