(** Model of property assignment (utils/general_utils.py), of Target
    (components/target/__init__.py), of the construction of the scaling model
    (components/scaling/__init__.py and montecarlo.py), and of the saved configuration of
    a target (core/base.py, core/simulation.py). *)
From Coq Require Import QArith Ascii.
From Verif Require Import Common.
Open Scope string_scope.

(** Python dictionaries with string keys, in insertion order. *)
Definition pairs (V : Type) : Type := list (string * V).
Fixpoint pget {V} (k : string) (d : pairs V) : option V :=
  match d with [] => None | (k', v) :: r => if String.eqb k k' then Some v else pget k r end.
(** d[k] = v *)
Fixpoint pset {V} (k : string) (v : V) (d : pairs V) : pairs V :=
  match d with
  | [] => [(k, v)]
  | (k', w) :: r => if String.eqb k k' then (k', v) :: r else (k', w) :: pset k v r
  end.
Definition pdel {V} (k : string) (d : pairs V) : pairs V :=
  filter (fun p => negb (String.eqb k (fst p))) d.
Definition pmem {V} (k : string) (d : pairs V) : bool :=
  match pget k d with Some _ => true | None => false end.
(** d.update(e) *)
Definition pupdate {V} (d e : pairs V) : pairs V := fold_left (fun a p => pset (fst p) (snd p) a) e d.

(** Keyword arguments: a value may be None. *)
Definition kwargs (V : Type) : Type := pairs (option V).

Section SetProperties.
Variables V obj : Type.
(** [settable k]: the class has a property called [k] with a setter. *)
Variable settable : string -> bool.
(** The setters: the new state of the object and the exception raised, if any. *)
Variable setter : string -> V -> obj -> obj * option exn.
(** A value used as a dictionary key. *)
Variable as_key : V -> option string.
Variable of_key : string -> V.

(** _set_properties_from_arguments: general_utils.py:89-102; returns the object and
    (matched, unmatched). *)
Fixpoint from_args (kw : kwargs V) (o : obj) : obj * result (pairs V * pairs V) :=
  match kw with
  | [] => (o, Ok ([], []))
  | (k, None) :: r => from_args r o
  | (k, Some v) :: r =>
      if settable k then
        match setter k v o with
        | (o', Some e) => (o', Err e)
        | (o', None) =>
            match from_args r o' with
            | (o'', Ok (m, u)) => (o'', Ok ((k, v) :: m, u))
            | (o'', Err e) => (o'', Err e)
            end
        end
      else
        match from_args r o with
        | (o'', Ok (m, u)) => (o'', Ok (m, (k, v) :: u))
        | (o'', Err e) => (o'', Err e)
        end
  end.

Definition catalogue : Type := pairs (pairs V).

(** _set_properties_from_catalogue: general_utils.py:104-134.  [ck] is obj.catalogue_key;
    catalogues whose values are not dictionaries are not modelled.  Returns also the
    catalogue, whose entry is changed in place (126 and 133). *)
Definition from_catalogue (ck : string) (cat : catalogue) (key : option string) (kw : kwargs V) (o : obj)
  : (obj * catalogue) * result (pairs V * pairs V) :=
  let key := match pget ck kw with
             | Some (Some v) => as_key v
             | Some None => None
             | None => key
             end in
  let kw := pdel ck kw in
  match key with
  | None => ((o, cat), Ok ([], []))
  | Some k =>
      match pget k cat with
      | None => ((o, cat), Ok ([], []))
      | Some entry =>
          let properties := pset ck (of_key k) entry in
          let kw' := filter (fun p => negb (pmem (fst p) properties)) kw in
          match from_args (map (fun p => (fst p, Some (snd p))) properties ++ kw')%list o with
          | (o', Ok mu) => ((o', pset k (pdel ck properties) cat), Ok mu)
          | (o', Err e) => ((o', pset k properties cat), Err e)
          end
      end
  end.

(** _set_properties_from_file with key=None: general_utils.py:136-150.  [None] is a file
    that cannot be read.  (No caller gives a key together with a file.) *)
Definition from_file (file : option (pairs V)) (kw : kwargs V) (o : obj) : obj * result (pairs V * pairs V) :=
  match file with
  | None => (o, Ok ([], []))
  | Some properties =>
      let given := filter (fun p => match snd p with Some _ => true | None => false end) kw in
      from_args (pupdate (map (fun p => (fst p, Some (snd p))) properties) given) o
  end.

(** _set_properties: general_utils.py:49-174. *)
Definition set_properties (ck : string) (cat : catalogue) (file : option (option (pairs V)))
    (kw : kwargs V) (o : obj) : (obj * catalogue) * result (pairs V * pairs V) :=
  match (match file with None => (o, Ok ([], [])) | Some f => from_file f kw o end) with
  | (o1, Err e) => ((o1, cat), Err e)
  | (o1, Ok (m1, u1)) =>
      match (match cat with [] => ((o1, cat), Ok ([], [])) | _ => from_catalogue ck cat None kw o1 end) with
      | ((o2, cat2), Err e) => ((o2, cat2), Err e)
      | ((o2, cat2), Ok (m2, u2)) =>
          match from_args kw o2 with
          | (o3, Err e) => ((o3, cat2), Err e)
          | (o3, Ok (m3, u3)) =>
              let m := pupdate (pupdate m1 m2) m3 in
              let u := pupdate (pupdate u1 u2) u3 in
              ((o3, cat2), Ok (m, filter (fun p => negb (pmem (fst p) m)) u))
          end
      end
  end.
End SetProperties.

(* ------------------------------ Target ------------------------------ *)

(** Attribute values. *)
Inductive val : Type := VNum (q : Q) | VStr (s : string).
Definition val_key (v : val) : option string := match v with VStr s => Some s | VNum _ => None end.

(** target/__init__.py:115-120 and _user_defined (core/base.py:76). *)
Record target := {
  t_name : option string; t_radius : option Q; t_mass : option Q;
  t_scale : option string; t_material : option string; t_density : option Q;
  t_user : list string }.
Definition target0 : target :=
  {| t_name := None; t_radius := None; t_mass := None; t_scale := None; t_material := None;
     t_density := None; t_user := [] |}.

Definition set_name v t := {| t_name := v; t_radius := t_radius t; t_mass := t_mass t; t_scale := t_scale t;
  t_material := t_material t; t_density := t_density t; t_user := t_user t |}.
Definition set_radius v t := {| t_name := t_name t; t_radius := v; t_mass := t_mass t; t_scale := t_scale t;
  t_material := t_material t; t_density := t_density t; t_user := t_user t |}.
Definition set_mass v t := {| t_name := t_name t; t_radius := t_radius t; t_mass := v; t_scale := t_scale t;
  t_material := t_material t; t_density := t_density t; t_user := t_user t |}.
Definition set_scale v t := {| t_name := t_name t; t_radius := t_radius t; t_mass := t_mass t; t_scale := v;
  t_material := t_material t; t_density := t_density t; t_user := t_user t |}.
Definition set_material v t := {| t_name := t_name t; t_radius := t_radius t; t_mass := t_mass t; t_scale := t_scale t;
  t_material := v; t_density := t_density t; t_user := t_user t |}.
Definition set_density v t := {| t_name := t_name t; t_radius := t_radius t; t_mass := t_mass t; t_scale := t_scale t;
  t_material := t_material t; t_density := v; t_user := t_user t |}.
(** _user_defined.add(name), a set: Parameter.setter, general_utils.py:23-30. *)
Definition mark (n : string) (t : target) : target :=
  {| t_name := t_name t; t_radius := t_radius t; t_mass := t_mass t; t_scale := t_scale t;
     t_material := t_material t; t_density := t_density t;
     t_user := if existsb (String.eqb n) (t_user t) then t_user t else (t_user t ++ [n])%list |}.

(** Positive numbers. *)
Definition qpos (q : Q) : bool := negb (Qle_bool q 0).

(** Setters, with None as a possible value (an assignment by the user): target/__init__.py
    243-247 (radius), 278-282 (mass), 289-293 (name), 300-304 (material), 311-321 (density),
    358-363 (transition_scale_type).  A Parameter marks its name before it validates
    (radius, material, density); text given for a number fails in the comparison (TypeError). *)
Definition target_assign (k : string) (v : option val) (t : target) : target * option exn :=
  if String.eqb k "radius" then
    let t := mark "radius" t in
    match v with
    | None => (t, Some TypeError)
    | Some (VStr _) => (t, Some TypeError)
    | Some (VNum q) => if qpos q then (set_radius (Some q) t, None) else (t, Some ValueError)
    end
  else if String.eqb k "mass" then
    match v with
    | None => (t, Some TypeError)
    | Some (VStr _) => (t, Some TypeError)
    | Some (VNum q) => if qpos q then (set_mass (Some q) t, None) else (t, Some ValueError)
    end
  else if String.eqb k "name" then
    match v with
    | None => (set_name None t, None)
    | Some (VStr s) => (set_name (Some s) t, None)
    | Some (VNum _) => (t, Some TypeError)
    end
  else if String.eqb k "material" then
    let t := mark "material" t in
    match v with
    | None => (set_material None t, None)
    | Some (VStr s) => (set_material (Some s) t, None)
    | Some (VNum _) => (t, Some TypeError)
    end
  else if String.eqb k "density" then
    let t := mark "density" t in
    match v with
    | None => (set_density None t, None)
    | Some (VStr _) => (t, Some TypeError)
    | Some (VNum q) => if qpos q then (set_density (Some q) t, None) else (t, Some ValueError)
    end
  else if String.eqb k "transition_scale_type" then
    match v with
    | None => (set_scale None t, None)
    | Some (VStr s) => if String.eqb s "silicate" || String.eqb s "ice" then (set_scale (Some s) t, None)
                       else (t, Some ValueError)
    | Some (VNum _) => (t, Some ValueError)
    end
  else (t, Some AttributeError).
Definition target_setter (k : string) (v : val) (t : target) : target * option exn := target_assign k (Some v) t.

(** Names of Target that can be assigned.  (The properties inherited from CratermakerBase,
    such as simdir and rng, are not modelled.) *)
Definition target_settable (k : string) : bool :=
  existsb (String.eqb k) ["radius"; "mass"; "name"; "material"; "density"; "transition_scale_type"].

(** Target._catalogue: target/__init__.py:26-61. *)
Definition target_catalogue : catalogue val :=
  ([
   ("Mercury", [("radius", VNum 2439400); ("mass", VNum 330100100000000000000000);
     ("material", VStr "Soft Rock"); ("transition_scale_type", VStr "silicate")]);
   ("Venus", [("radius", VNum 6051840); ("mass", VNum 4867306000000000000000000);
     ("material", VStr "Hard Rock"); ("transition_scale_type", VStr "silicate")]);
   ("Earth", [("radius", VNum 6371010); ("mass", VNum 5972168000000000000000000);
     ("material", VStr "Wet Soil"); ("transition_scale_type", VStr "silicate")]);
   ("Moon", [("radius", VNum 1737530); ("mass", VNum 73457890000000000000000);
     ("material", VStr "Soft Rock"); ("transition_scale_type", VStr "silicate")]);
   ("Mars", [("radius", VNum 3389920); ("mass", VNum 641690900000000000000000);
     ("material", VStr "Soft Rock"); ("transition_scale_type", VStr "silicate")]);
   ("Phobos", [("radius", VNum 11170); ("mass", VNum 10800000000000000);
     ("material", VStr "Soft Rock"); ("transition_scale_type", VStr "silicate")]);
   ("Deimos", [("radius", VNum 6300); ("mass", VNum 1800000000000000);
     ("material", VStr "Soft Rock"); ("transition_scale_type", VStr "silicate")]);
   ("Ceres", [("radius", VNum 469700); ("mass", VNum 938351600000000000000);
     ("material", VStr "Soft Rock"); ("transition_scale_type", VStr "ice")]);
   ("Vesta", [("radius", VNum 262700); ("mass", VNum 259027000000000000000);
     ("material", VStr "Soft Rock"); ("transition_scale_type", VStr "silicate")]);
   ("Io", [("radius", VNum 1821490); ("mass", VNum 89296490000000000000000);
     ("material", VStr "Hard Rock"); ("transition_scale_type", VStr "silicate")]);
   ("Europa", [("radius", VNum 1560800); ("mass", VNum 47985740000000000000000);
     ("material", VStr "Ice"); ("transition_scale_type", VStr "ice")]);
   ("Ganymede", [("radius", VNum 2631200); ("mass", VNum 148147900000000000000000);
     ("material", VStr "Ice"); ("transition_scale_type", VStr "ice")]);
   ("Callisto", [("radius", VNum 2410300); ("mass", VNum 107566100000000000000000);
     ("material", VStr "Ice"); ("transition_scale_type", VStr "ice")]);
   ("Titan", [("radius", VNum 2575500); ("mass", VNum 134518100000000000000000);
     ("material", VStr "Ice"); ("transition_scale_type", VStr "ice")]);
   ("Rhea", [("radius", VNum 764500); ("mass", VNum 2306459000000000000000);
     ("material", VStr "Ice"); ("transition_scale_type", VStr "ice")]);
   ("Dione", [("radius", VNum 562500); ("mass", VNum 1095486000000000000000);
     ("material", VStr "Ice"); ("transition_scale_type", VStr "ice")]);
   ("Tethys", [("radius", VNum 536300); ("mass", VNum 617443000000000000000);
     ("material", VStr "Ice"); ("transition_scale_type", VStr "ice")]);
   ("Enceladus", [("radius", VNum 252300); ("mass", VNum 108031800000000000000);
     ("material", VStr "Ice"); ("transition_scale_type", VStr "ice")]);
   ("Mimas", [("radius", VNum 198800); ("mass", VNum 37509390000000000000);
     ("material", VStr "Ice"); ("transition_scale_type", VStr "ice")]);
   ("Ariel", [("radius", VNum 578900); ("mass", VNum 1250019000000000000000);
     ("material", VStr "Ice"); ("transition_scale_type", VStr "ice")]);
   ("Umbriel", [("radius", VNum 584700); ("mass", VNum 1279535000000000000000);
     ("material", VStr "Ice"); ("transition_scale_type", VStr "ice")]);
   ("Titania", [("radius", VNum 788900); ("mass", VNum 3338178000000000000000);
     ("material", VStr "Ice"); ("transition_scale_type", VStr "ice")]);
   ("Oberon", [("radius", VNum 761400); ("mass", VNum 3076577000000000000000);
     ("material", VStr "Ice"); ("transition_scale_type", VStr "ice")]);
   ("Miranda", [("radius", VNum 235700); ("mass", VNum 64426230000000000000);
     ("material", VStr "Ice"); ("transition_scale_type", VStr "ice")]);
   ("Triton", [("radius", VNum 1352600); ("mass", VNum 21402920000000000000000);
     ("material", VStr "Ice"); ("transition_scale_type", VStr "ice")]);
   ("Charon", [("radius", VNum 606000); ("mass", VNum 1589680000000000000000);
     ("material", VStr "Ice"); ("transition_scale_type", VStr "ice")]);
   ("Pluto", [("radius", VNum 1188300); ("mass", VNum 13024980000000000000000);
     ("material", VStr "Ice"); ("transition_scale_type", VStr "ice")]);
   ("Arrokoth", [("radius", VNum 9130); ("mass", VNum 748500000000000);
     ("material", VStr "Ice"); ("transition_scale_type", VStr "ice")])
  ])%Q.

(** Target._density_catalogue: target/__init__.py:63-71; the material catalogue of the
    scaling models has the same densities (montecarlo.py:405-417). *)
Definition density_catalogue : pairs Q :=
  ([("Water", 1000); ("Sand", 1750); ("Dry Soil", 1500); ("Wet Soil", 2000); ("Soft Rock", 2250);
    ("Hard Rock", 2500); ("Ice", 900)])%Q.

(** The keyword arguments of Target: name is separate. *)
Record target_args := {
  a_radius : option Q; a_diameter : option Q; a_mass : option Q; a_scale : option string;
  a_material : option string; a_density : option Q }.
Definition no_args : target_args :=
  {| a_radius := None; a_diameter := None; a_mass := None; a_scale := None; a_material := None; a_density := None |}.

Definition vnum (o : option Q) : option val := match o with Some q => Some (VNum q) | None => None end.
Definition vstr (o : option string) : option val := match o with Some s => Some (VStr s) | None => None end.

(** Target.__init__: target/__init__.py:75-148, with the catalogue as state (the class
    attribute that _set_properties changes in place). *)
Definition target_init (cat : catalogue val) (name : string) (a : target_args) : catalogue val * result target :=
  match a_radius a, a_diameter a with
  | Some _, Some _ => (cat, Err ValueError)
  | _, _ =>
      let radius := match a_diameter a with Some d => Some (d / 2)%Q | None => a_radius a end in
      let kw := [("name", Some (VStr name)); ("radius", vnum radius); ("mass", vnum (a_mass a));
                 ("material", vstr (a_material a)); ("density", vnum (a_density a));
                 ("transition_scale_type", vstr (a_scale a))] in
      match set_properties val target target_settable target_setter val_key VStr "name" cat None kw target0 with
      | ((t, cat'), Err e) => (cat', Err e)
      | ((t, cat'), Ok _) =>
          (cat',
           match t_name t, t_radius t, t_mass t, t_scale t with
           | Some _, Some _, Some _, Some _ =>
               Ok (match t_density t, t_material t with
                   | None, Some m => match pget m density_catalogue with
                                     | Some d => set_density (Some d) t
                                     | None => t
                                     end
                   | _, _ => t
                   end)
           | _, _, _, _ => Err ValueError
           end)
      end
  end.

(** The first argument of Target.maker. *)
Inductive target_spec : Type := TNone | TName (s : string) | TObj (t : target) | TOther.

(** Target.maker: target/__init__.py:166-235. *)
Definition target_maker (cat : catalogue val) (s : target_spec) (a : target_args) : catalogue val * result target :=
  match s with
  | TNone => match target_init cat "Moon" a with
             | (c, Ok t) => (c, Ok t)
             | (c, Err _) => (c, Err RuntimeError)
             end
  | TName n => match target_init cat n a with
               | (c, Err KeyError) => (c, Err ValueError)
               | r => r
               end
  | TObj t => (cat, Ok t)
  | TOther => (cat, Err TypeError)
  end.

(** The configuration of a target, as saved in the configuration file: _to_config with
    remove_common_args, core/base.py:1016-1020, called from Simulation.to_config,
    core/simulation.py:1302-1310.  Only Parameters are recorded in _user_defined. *)
Definition target_attr (t : target) (k : string) : option val :=
  if String.eqb k "radius" then vnum (t_radius t)
  else if String.eqb k "material" then vstr (t_material t)
  else if String.eqb k "density" then vnum (t_density t)
  else None.
Definition target_config (t : target) : pairs val :=
  flat_map (fun k => match target_attr t k with Some v => [(k, v)] | None => [] end) (t_user t).

(** Keyword arguments read back from a configuration. *)
Definition config_args (c : pairs val) : target_args :=
  let num k := match pget k c with Some (VNum q) => Some q | _ => None end in
  let str k := match pget k c with Some (VStr s) => Some s | _ => None end in
  {| a_radius := num "radius"; a_diameter := num "diameter"; a_mass := num "mass";
     a_scale := str "transition_scale_type"; a_material := str "material"; a_density := num "density" |}.

(** The target of a Simulation created in a directory that holds the configuration of an
    earlier one (resumed, not reset): core/simulation.py:137-171.  [saved] is the saved
    target name and target configuration; [given] the target argument of Simulation.
    config_override (132-135) is computed before any component is set, so that it is False
    for every component and the saved configuration is always applied. *)
Definition resume_target (cat : catalogue val) (saved : string * pairs val) (given : option string)
  : catalogue val * result target :=
  let name := match given with Some n => n | None => fst saved end in
  target_maker cat (TName name) (config_args (snd saved)).

(* ------------------------------ Scaling ------------------------------ *)

(** The attributes of MonteCarloScaling set at construction, and its target. *)
Record scal := {
  s_material : option string; s_K1 : option Q; s_mu : option Q; s_Ybar : option Q; s_target : target }.
Definition scal0 (t : target) : scal :=
  {| s_material := None; s_K1 := None; s_mu := None; s_Ybar := None; s_target := t |}.

(** material_catalogue: montecarlo.py:405-424. *)
Definition material_catalogue : catalogue val :=
  ([("Water", [("K1", VNum 2.30); ("mu", VNum 0.55); ("Ybar", VNum 0); ("density", VNum 1000)]);
    ("Sand", [("K1", VNum 0.24); ("mu", VNum 0.41); ("Ybar", VNum 0); ("density", VNum 1750)]);
    ("Dry Soil", [("K1", VNum 0.24); ("mu", VNum 0.41); ("Ybar", VNum 180000); ("density", VNum 1500)]);
    ("Wet Soil", [("K1", VNum 0.20); ("mu", VNum 0.55); ("Ybar", VNum 1140000); ("density", VNum 2000)]);
    ("Soft Rock", [("K1", VNum 0.20); ("mu", VNum 0.55); ("Ybar", VNum 7600000); ("density", VNum 2250)]);
    ("Hard Rock", [("K1", VNum 0.20); ("mu", VNum 0.55); ("Ybar", VNum 18000000); ("density", VNum 2500)]);
    ("Ice", [("K1", VNum 15.625); ("mu", VNum 0.48); ("Ybar", VNum 0); ("density", VNum 900)])])%Q.

(** str.title() on ASCII text. *)
Definition is_lower (c : ascii) : bool := (97 <=? nat_of_ascii c)%nat && (nat_of_ascii c <=? 122)%nat.
Definition is_upper (c : ascii) : bool := (65 <=? nat_of_ascii c)%nat && (nat_of_ascii c <=? 90)%nat.
Fixpoint title_from (prev : bool) (s : string) : string :=
  match s with
  | EmptyString => EmptyString
  | String c r =>
      let c' := if prev then (if is_upper c then ascii_of_nat (nat_of_ascii c + 32) else c)
                else (if is_lower c then ascii_of_nat (nat_of_ascii c - 32) else c) in
      String c' (title_from (is_lower c || is_upper c) r)
  end.
Definition title (s : string) : string := title_from false s.

(** Setters of K1, mu and Ybar: montecarlo.py:520-550 (negative values are rejected). *)
Definition qneg (q : Q) : bool := negb (Qle_bool 0 q).
Definition upd_K1 v s := {| s_material := s_material s; s_K1 := v; s_mu := s_mu s; s_Ybar := s_Ybar s; s_target := s_target s |}.
Definition upd_mu v s := {| s_material := s_material s; s_K1 := s_K1 s; s_mu := v; s_Ybar := s_Ybar s; s_target := s_target s |}.
Definition upd_Ybar v s := {| s_material := s_material s; s_K1 := s_K1 s; s_mu := s_mu s; s_Ybar := v; s_target := s_target s |}.
Definition upd_material v s := {| s_material := v; s_K1 := s_K1 s; s_mu := s_mu s; s_Ybar := s_Ybar s; s_target := s_target s |}.
Definition upd_target v s := {| s_material := s_material s; s_K1 := s_K1 s; s_mu := s_mu s; s_Ybar := s_Ybar s; s_target := v |}.

Definition num_in (e : pairs val) (k : string) : option Q :=
  match pget k e with Some (VNum q) => Some q | _ => None end.

(** The material setter: montecarlo.py:559-572.  The catalogue values are valid, so that
    the inner assignments succeed. *)
Definition set_scal_material (v : string) (s : scal) : scal :=
  let m := title v in
  let s := upd_material (Some m) s in
  match pget m material_catalogue with
  | None => s
  | Some e =>
      let s := upd_Ybar (num_in e "Ybar") (upd_mu (num_in e "mu") (upd_K1 (num_in e "K1") s)) in
      match num_in e "density" with
      | Some d => upd_target (set_density (Some d) (mark "density" (s_target s))) s
      | None => s
      end
  end.
Definition scal_settable (k : string) : bool := existsb (String.eqb k) ["material"; "K1"; "mu"; "Ybar"].
Definition scal_setter (k : string) (v : val) (s : scal) : scal * option exn :=
  if String.eqb k "material" then
    match v with VStr m => (set_scal_material m s, None) | VNum _ => (s, Some TypeError) end
  else
    match v with
    | VStr _ => (s, Some TypeError)
    | VNum q =>
        if qneg q then (s, Some ValueError)
        else if String.eqb k "K1" then (upd_K1 (Some q) s, None)
        else if String.eqb k "mu" then (upd_mu (Some q) s, None)
        else if String.eqb k "Ybar" then (upd_Ybar (Some q) s, None)
        else (s, Some AttributeError)
    end.

(** The keyword arguments of the scaling constructor. *)
Record scal_args := { sa_material : option string; sa_K1 : option Q; sa_mu : option Q; sa_Ybar : option Q; sa_density : option Q }.

(** MonteCarloScaling.__init__ for a target object: montecarlo.py:74-136, without the
    random quantities of recompute (see Scaling_model).  The projectile is given. *)
Definition scal_init (t : target) (a : scal_args) : result scal :=
  let s := match sa_material a with
           | Some m => set_scal_material m (scal0 t)
           | None => match t_material t with Some m => set_scal_material m (scal0 t) | None => scal0 t end
           end in
  match s_material s with
  | None => Err AttributeError
  | Some m =>
      let kw := [("material", Some (VStr m)); ("K1", vnum (sa_K1 a)); ("mu", vnum (sa_mu a)); ("Ybar", vnum (sa_Ybar a))] in
      match set_properties val scal scal_settable scal_setter val_key VStr "material" material_catalogue None kw s with
      | ((_, _), Err e) => Err e
      | ((s, _), Ok _) =>
          let r := match sa_density a with
                   | Some d => if qpos d then Ok (upd_target (set_density (Some d) (mark "density" (s_target s))) s)
                               else Err ValueError
                   | None => match t_density (s_target s) with
                             | Some _ => Ok s
                             | None => match s_material s with
                                       | Some m => match pget m material_catalogue with
                                                   | Some e => Ok (upd_target (set_density (num_in e "density") (mark "density" (s_target s))) s)
                                                   | None => Err KeyError
                                                   end
                                       | None => Err AttributeError
                                       end
                             end
                   end in
          rbind r (fun s =>
            match t_density (s_target s), s_K1 s, s_mu s, s_Ybar s with
            | Some _, Some _, Some _, Some _ => Ok s
            | _, _, _, _ => Err ValueError
            end)
      end
  end.

(** Scaling.maker("montecarlo", target=...): scaling/__init__.py:64-122 and 48-62.  The
    target keyword arguments [ta] reach Target.maker in the constructor; a target argument
    that is not None is then assigned again (119-120, 146-150), this time without them. *)
Definition scal_maker (cat : catalogue val) (s : target_spec) (ta : target_args) (a : scal_args) : result scal :=
  let ta := {| a_radius := a_radius ta; a_diameter := a_diameter ta; a_mass := a_mass ta; a_scale := a_scale ta;
               a_material := None; a_density := None |} in
  match target_maker cat s ta with
  | (_, Err e) => Err e
  | (cat, Ok t) =>
      match scal_init t a with
      | Err e => Err e
      | Ok sc =>
          match s with
          | TNone => Ok sc
          | TObj _ => Ok sc    (** the same object, changed by the constructor *)
          | _ => match target_maker cat s no_args with
                 | (_, Err e) => Err e
                 | (_, Ok t') => Ok (upd_target t' sc)
                 end
          end
      end
  end.

(* --------------------------- derived quantities --------------------------- *)
From Coq Require Import Reals Qreals.
Open Scope R_scope.
(** astropy.constants.G.value (CODATA 2018). *)
Definition G_value : R := 66743 / 10 ^ 15.
(** diameter (249-253), surface_area (255-259), volume (261-265), circumference (267-271),
    gravity (370-373) and escape_velocity (365-368) for a body with radius [r] and mass [m]. *)
Definition t_diameter (r : R) : R := 2 * r.
Definition t_surface_area (r : R) : R := 4 * PI * r ^ 2.
Definition t_volume (r : R) : R := 4 / 3 * PI * r ^ 3.
Definition t_circumference (r : R) : R := 2 * PI * r.
Definition t_gravity (r m : R) : R := G_value * m / r ^ 2.
Definition t_escape (r m : R) : R := sqrt (2 * r * t_gravity r m).
