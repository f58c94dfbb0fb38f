(** Vocabulary for C04, C05, C19, C20 and C59. *)
From Coq Require Import QArith.
From Verif Require Import Common Conf_model.
Open Scope string_scope.

(** Objects whose setters either reject the value, changing no attribute, or change only
    their own attribute.  [acc]: the value is accepted. *)
Record well_behaved {V obj} (settable : string -> bool) (setter : string -> V -> obj -> obj * option exn)
    (attr : obj -> string -> option V) (acc : string -> V -> bool) : Prop := {
  wb_ok : forall k v o, settable k = true -> acc k v = true ->
    exists o', setter k v o = (o', None) /\ forall a, attr o' a = if String.eqb a k then Some v else attr o a;
  wb_err : forall k v o, settable k = true -> acc k v = false ->
    exists o' e, setter k v o = (o', Some e) /\ forall a, attr o' a = attr o a }.

Definition orelse {A} (x y : option A) : option A := match x with Some _ => x | None => y end.

(** Dictionaries have distinct keys. *)
Definition is_dict {A} (d : pairs A) : Prop := NoDup (map fst d).

(** The value a keyword gives (None is not a value). *)
Definition given {V} (kw : kwargs V) (a : string) : option V :=
  match pget a kw with Some v => v | None => None end.
(** The catalogue entry selected by the keywords, with its key. *)
Definition selected {V} (as_key : V -> option string) (ck : string) (cat : catalogue V) (kw : kwargs V)
  : option (string * pairs V) :=
  match given kw ck with
  | Some v => match as_key v with
              | Some k => match pget k cat with Some e => Some (k, e) | None => None end
              | None => None
              end
  | None => None
  end.
Definition from_entry {V} (e : option (string * pairs V)) (a : string) : option V :=
  match e with Some (_, d) => pget a d | None => None end.
Definition in_file {V} (f : option (option (pairs V))) (a : string) : option V :=
  match f with Some (Some d) => pget a d | _ => None end.

(** The attributes of a target made from a name and keyword arguments. *)
Definition entry_num (n k : string) : option Q :=
  match pget n target_catalogue with Some e => num_in e k | None => None end.
Definition entry_str (n k : string) : option string :=
  match pget n target_catalogue with
  | Some e => match pget k e with Some (VStr s) => Some s | _ => None end
  | None => None
  end.
Definition size_arg (a : target_args) : option Q :=
  match a_diameter a with Some d => Some (d / 2)%Q | None => a_radius a end.
Definition pos_or_none (o : option Q) : Prop := match o with Some q => (0 < q)%Q | None => True end.
Definition valid_args (a : target_args) : Prop :=
  (a_radius a = None \/ a_diameter a = None) /\
  pos_or_none (size_arg a) /\ pos_or_none (a_mass a) /\ pos_or_none (a_density a) /\
  (a_scale a = None \/ a_scale a = Some "silicate" \/ a_scale a = Some "ice").

(** [made n a t]: each attribute of [t] is the keyword if given and otherwise the
    catalogue value of [n], and radius, mass and scale type are known. *)
Definition made (n : string) (a : target_args) (t : target) : Prop :=
  t_name t = Some n /\
  t_radius t = orelse (size_arg a) (entry_num n "radius") /\ t_radius t <> None /\
  t_mass t = orelse (a_mass a) (entry_num n "mass") /\ t_mass t <> None /\
  t_scale t = orelse (a_scale a) (entry_str n "transition_scale_type") /\ t_scale t <> None /\
  t_material t = orelse (a_material a) (entry_str n "material") /\
  t_density t = orelse (a_density a)
    (match t_material t with Some m => pget m density_catalogue | None => None end).

(** Assignments by the user after construction. *)
Definition assign_all (l : list (string * option val)) (t : target) : target :=
  fold_left (fun t p => fst (target_assign (fst p) (snd p) t)) l t.
(** What an assignment must be to be accepted. *)
Definition acceptable (k : string) (v : option val) : Prop :=
  match v with
  | Some (VNum q) => In k ["radius"; "mass"; "density"] /\ (0 < q)%Q
  | Some (VStr s) => In k ["name"; "material"] \/ (k = "transition_scale_type" /\ (s = "silicate" \/ s = "ice"))
  | None => In k ["name"; "material"; "density"; "transition_scale_type"]
  end.
(** The six attributes by name. *)
Definition attribute (t : target) (k : string) : option val :=
  if String.eqb k "radius" then vnum (t_radius t)
  else if String.eqb k "mass" then vnum (t_mass t)
  else if String.eqb k "name" then vstr (t_name t)
  else if String.eqb k "material" then vstr (t_material t)
  else if String.eqb k "density" then vnum (t_density t)
  else if String.eqb k "transition_scale_type" then vstr (t_scale t)
  else None.
(** Well-formed targets. *)
Definition sound (t : target) : Prop :=
  (exists r, t_radius t = Some r /\ 0 < r)%Q /\ (exists m, t_mass t = Some m /\ 0 < m)%Q /\
  pos_or_none (t_density t) /\
  (t_scale t = None \/ t_scale t = Some "silicate" \/ t_scale t = Some "ice").

(** Known materials. *)
Definition known_density (m : string) : option Q := pget m density_catalogue.
(** A parameter of a known material. *)
Definition mat_num (m k : string) : option Q := match pget m material_catalogue with Some e => num_in e k | None => None end.

(** The attributes of a target that are declared as parameters. *)
Definition params : list string := ["radius"; "material"; "density"].
