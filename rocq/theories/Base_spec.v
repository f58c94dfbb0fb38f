(** Vocabulary for the theorems about Base_model. *)
From Verif Require Import Common Conf_model Base_model.
Open Scope string_scope.

(* ------------------------ random number generators ------------------------ *)
Section Rng.
Variables S seed dict : Type.

(** Generators that existed before are untouched, and [i] is a new one in state [s]. *)
Definition new_generator (h h' : heap S) (i : nat) (s : S) : Prop :=
  i = h_size S h /\ h_size S h' = Datatypes.S (h_size S h) /\ h_state S h' i = s /\
  (forall j, (j < h_size S h)%nat -> h_state S h' j = h_state S h j).

(** Assignments a user can make to an object after creating it. *)
Inductive assignment := AssignSeed (v : option seed) | AssignState (v : state_arg dict).
Definition assign (to_dict : S -> dict) (seeded : seed -> option S) (of_dict : dict -> option S) (entropy : S)
    (a : assignment) (x : heap S * base seed dict) : heap S * base seed dict :=
  match a with
  | AssignSeed v => (fst x, set_seed seed dict v (snd x))
  | AssignState v =>
      match set_state S seed seeded dict of_dict to_dict v entropy (snd x) (fst x) with
      | (h, Ok b) => (h, b)
      | (h, Err _) => (h, snd x)
      end
  end.
Fixpoint assign_all to_dict seeded of_dict entropy (l : list assignment) x :=
  match l with [] => x | a :: r => assign_all to_dict seeded of_dict entropy r (assign to_dict seeded of_dict entropy a x) end.

(** [made_from b h c]: [c] is a component made from [b], or from a component made from [b],
    and so on, each with the common arguments of the one before, the heap being [h]. *)
Inductive made_from seeded of_dict to_dict (h : heap S) (b : base seed dict) : base seed dict -> Prop :=
| mf_self : made_from seeded of_dict to_dict h b b
| mf_step c d entropy h' : made_from seeded of_dict to_dict h b c ->
    make_component S seed seeded dict of_dict to_dict c entropy h = (h', Ok d) ->
    made_from seeded of_dict to_dict h b d.
End Rng.

(* ------------------------------ components ------------------------------ *)
Section Registry.
Variables cls inst fam : Type.
(** The registry after registering the given classes in order. *)
Fixpoint after (regs : list (string * cls)) (r : registry cls) : registry cls :=
  match regs with [] => r | (n, c) :: l => after l (register cls n c r) end.
(** The class most recently registered under a name. *)
Fixpoint latest (n : string) (regs : list (string * cls)) : option cls :=
  match regs with
  | [] => None
  | (m, c) :: r => match latest n r with
                   | Some d => Some d
                   | None => if String.eqb n m then Some c else None
                   end
  end.
(** All families after registering the given classes, each into the family of its class. *)
Fixpoint after_all fam_eqb (family : cls -> fam) (regs : list (string * cls)) (t : tables cls fam) : tables cls fam :=
  match regs with [] => t | (n, c) :: l => after_all fam_eqb family l (register_in cls fam fam_eqb family n c t) end.
End Registry.

(* --------------------------- overwrite prompts --------------------------- *)
Section Overwrite.
Variable path : Type.
(** What is left when all the listed files are removed. *)
Definition without (under : path -> path -> bool) (files fs : list path) : list path :=
  filter (fun p => negb (existsb (under p) files)) fs.
(** The answers accept up to [n] prompts: n are yes, or all comes after fewer yeses. *)
Fixpoint accepts (n : nat) (a : list answer) : Prop :=
  match n with
  | O => True
  | Datatypes.S m => match a with Yes :: r => accepts m r | All :: _ => True | _ => False end
  end.
(** After some yeses, no further answer is given or the next one is a refusal. *)
Fixpoint refused (a : list answer) : Prop :=
  match a with [] => True | Yes :: r => refused r | No :: _ => True | All :: _ => False end.
End Overwrite.

(* ----------------------------- save actions ----------------------------- *)
Section Actions.
Variable value : Type.
(** A valid entry: a dictionary whose keys are callable attributes and whose values are
    dictionaries. *)
Definition valid_entry (kind : string -> attr_kind) (e : entry value) : Prop :=
  match e with
  | NotDict _ => False
  | Entry _ d => forall n a, In (n, a) d -> kind n = Callable /\ a <> None
  end.
(** The actions of a valid list with their stored arguments, in order. *)
Definition listed (l : list (entry value)) : list (string * args value) :=
  flat_map (fun e => match e with
                     | NotDict _ => []
                     | Entry _ d => flat_map (fun p => match snd p with Some a => [(fst p, a)] | None => [] end) d
                     end) l.
(** [c] calls the listed action [p]: its arguments are the interval, those given to save and
    the stored ones, in that order of precedence. *)
Definition calls_action (kw : args value) (iv : value) (p c : string * args value) : Prop :=
  fst c = fst p /\ forall k, pget k (snd c) =
    if String.eqb k "interval" then Some iv else match pget k kw with Some v => Some v | None => pget k (snd p) end.
(** Operations on one object: a list as a value rather than as an object. *)
Inductive action_op := SetNone | SetList (l : list (entry value)) | SetOther | Add (e : entry value).
(** What the list of actions should become. *)
Definition intended (op : action_op) (old : list (entry value)) : list (entry value) :=
  match op with SetNone => [] | SetList l => l | SetOther => old | Add e => (old ++ [e])%list end.
Definition op_valid (kind : string -> attr_kind) (op : action_op) : Prop :=
  match op with
  | SetNone => True | SetList l => Forall (valid_entry kind) l | SetOther => False | Add e => valid_entry kind e
  end.
(** Running an operation on object [o], whose list argument is a list object that nobody
    else holds. *)
Definition perform (kind : string -> attr_kind) (has_name : bool) (o : nat) (op : action_op) (w : world value) : world value * option exn :=
  match op with
  | SetNone => set_actions value kind has_name o (ANone) w
  | SetOther => set_actions value kind has_name o (AOther) w
  | SetList l => set_actions value kind has_name o (AList (w_next value w))
                   {| w_lists := upd (w_lists value w) (w_next value w) l; w_next := Datatypes.S (w_next value w); w_obj := w_obj value w |}
  | Add e => add_action value kind has_name o e w
  end.
(** Worlds in which no two of the objects [objs] share a list, and each list is allocated. *)
Definition unshared (objs : list nat) (w : world value) : Prop :=
  (forall a b, In a objs -> In b objs -> w_obj value w a = w_obj value w b -> a = b) /\
  (forall a, In a objs -> (w_obj value w a < w_next value w)%nat).
(** Any number of operations on any of several objects, and the lists they should have: an
    operation on another object changes nothing, an invalid one changes nothing. *)
Fixpoint perform_all kind has_name (l : list (nat * action_op)) (w : world value) : world value :=
  match l with [] => w | (o, op) :: r => perform_all kind has_name r (fst (perform kind has_name o op w)) end.
Inductive should_be (kind : string -> attr_kind) (o : nat) : list (nat * action_op) -> list (entry value) -> list (entry value) -> Prop :=
| sb_nil l : should_be kind o [] l l
| sb_other p op r l l' : p <> o -> should_be kind o r l l' -> should_be kind o ((p, op) :: r) l l'
| sb_valid op r l l' : op_valid kind op -> should_be kind o r (intended op l) l' -> should_be kind o ((o, op) :: r) l l'
| sb_invalid op r l l' : ~ op_valid kind op -> should_be kind o r l l' -> should_be kind o ((o, op) :: r) l l'.
End Actions.
