(** Vocabulary for C125: the first expression of a description in WKT, `KEYWORD[...]`. *)
From Coq Require Import String Ascii List.
From Verif Require Import Wkt_model.
Import ListNotations.
Open Scope string_scope.

Definition quote : ascii := """"%char.
Definition opening : ascii := "["%char.
Definition closing : ascii := "]"%char.

(** The text up to the bracket that closes the first one opened, and what follows it; brackets
    between quotes do not count. *)
Fixpoint scan (depth : nat) (quoted : bool) (s : string) : option (string * string) :=
  match s with
  | EmptyString => None
  | String c r =>
      let next d q := match scan d q r with Some (a, b) => Some (String c a, b) | None => None end in
      if Ascii.eqb c quote then next depth (negb quoted)
      else if quoted then next depth quoted
      else if Ascii.eqb c opening then next (S depth) false
      else if Ascii.eqb c closing then
        match depth with O => None | S O => Some (String c EmptyString, r) | S d => next d false end
      else next depth false
  end.
Definition expression (s : string) : option (string * string) := scan 0 false s.
(** The text is one expression and nothing else. *)
Definition whole (s : string) : Prop := expression s = Some (s, "").
(** A text holds another. *)
Definition says (s t : string) : Prop := exists a b, s = a ++ t ++ b.
Definition without (cs : list ascii) (s : string) : Prop := forall c, In c cs -> ~ In c (list_ascii_of_string s).
(** Names without quotes, numbers without quotes and brackets. *)
Definition a_name := without [quote].
Definition a_number := without [quote; opening; closing].
Definition ellipsoid (name radius : string) : string := "ELLIPSOID[""" ++ name ++ """," ++ radius ++ ",0,".
Definition latitude_is (lat : string) : string := "PARAMETER[""Latitude of natural origin""," ++ lat ++ ",".
Definition longitude_is (lon : string) : string := "PARAMETER[""Longitude of natural origin""," ++ lon ++ ",".
Definition global_axes : list string :=
  ["CS[ellipsoidal,2],"; "AXIS[""geodetic latitude (Lat)"",north,"; "AXIS[""geodetic longitude (Lon)"",east,"].
Definition local_axes : list string := ["CS[Cartesian,2],"; "AXIS[""(E)"",east,"; "AXIS[""(N)"",north,"].

(** What can happen to a surface or a region. *)
Inductive event := Looked | Targeted (b : body).
Definition happens (h : holder) (e : event) : holder :=
  match e with Looked => snd (crs h) | Targeted b => set_target h b end.
Definition looks (e : event) : Prop := e = Looked.

Definition moon := mk_body "Moon" "1737400.000000".
Definition mars := mk_body "Mars" "3389500.000000".
