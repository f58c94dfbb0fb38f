(** Model of core/base.py: random number generators, the component registry, the
    overwrite prompt and save actions. *)
From Verif Require Import Common Conf_model.
Open Scope string_scope.

(* ------------------------ random number generators ------------------------ *)
Section Rng.
(** The state of a bit generator; seeds; default_rng(seed), which may reject the seed. *)
Variables S seed : Type.
Variable seeded : seed -> option S.
(** Whether a dictionary is a valid state, and the state it describes. *)
Variable dict : Type.
Variable of_dict : dict -> option S.
Variable to_dict : S -> dict.

(** Generators are mutable objects: [heap i] is the state of generator [i], for i < size. *)
Record heap := { h_size : nat; h_state : nat -> S }.
Definition alloc (s : S) (h : heap) : heap * nat :=
  ({| h_size := Datatypes.S (h_size h); h_state := fun i => if Nat.eqb i (h_size h) then s else h_state h i |}, h_size h).

Inductive rng_arg := RNone | RGen (i : nat) | ROther.
Inductive state_arg := SNone | SDict (d : dict) | SOther.

(** _rng_init: core/base.py:909-960.  [entropy] is the state that default_rng() draws from
    the operating system.  Returns the generator and its state.  With both a seed and a
    state, [rng] is still None at line 948, whose AttributeError becomes a ValueError. *)
Definition rng_init (rng : rng_arg) (sd : option seed) (st : state_arg) (entropy : S) (h : heap)
  : heap * result (nat * dict) :=
  match rng with
  | ROther => (h, Err ValueError)
  | RGen i => (h, Ok (i, to_dict (h_state h i)))
  | RNone =>
      match st with
      | SOther => (h, Err ValueError)
      | SDict d =>
          match sd with
          | Some _ => (h, Err ValueError)
          | None => match of_dict d with
                    | None => (h, Err ValueError)
                    | Some s => let '(h, i) := alloc s h in (h, Ok (i, to_dict s))
                    end
          end
      | SNone =>
          match sd with
          | None => let '(h, i) := alloc entropy h in (h, Ok (i, to_dict entropy))
          | Some x => match seeded x with
                      | None => (h, Err ValueError)
                      | Some s => let '(h, i) := alloc s h in (h, Ok (i, to_dict s))
                      end
          end
      end
  end.

(** The generator-related attributes of a CratermakerBase: _rng, _rng_seed, _rng_state. *)
Record base := { b_rng : option nat; b_seed : option seed; b_state : option dict }.

(** rng_state getter: 761-769. *)
Definition get_state (b : base) (h : heap) : state_arg :=
  match b_rng b with Some i => SDict (to_dict (h_state h i)) | None => SNone end.
(** rng setter: 755-757. *)
Definition set_rng (v : rng_arg) (entropy : S) (b : base) (h : heap) : heap * result base :=
  match rng_init v (b_seed b) (get_state b h) entropy h with
  | (h, Err e) => (h, Err e)
  | (h, Ok (i, _)) => (h, Ok {| b_rng := Some i; b_seed := b_seed b; b_state := b_state b |})
  end.
(** rng_state setter: 771-773. *)
Definition set_state (v : state_arg) (entropy : S) (b : base) (h : heap) : heap * result base :=
  match rng_init (match b_rng b with Some i => RGen i | None => RNone end) (b_seed b) v entropy h with
  | (h, Err e) => (h, Err e)
  | (h, Ok (_, d)) => (h, Ok {| b_rng := b_rng b; b_seed := b_seed b; b_state := Some d |})
  end.
(** rng_seed setter: 734-741, for a value that it accepts (others raise and change nothing). *)
Definition set_seed (v : option seed) (b : base) : base := {| b_rng := b_rng b; b_seed := v; b_state := b_state b |}.

(** CratermakerBase.__init__: 62-92, the generator part. *)
Definition base_init (rng : rng_arg) (sd : option seed) (st : state_arg) (entropy : S) (h : heap) : heap * result base :=
  let b := {| b_rng := None; b_seed := sd; b_state := None |} in
  match rng_init rng sd st entropy h with
  | (h, Err e) => (h, Err e)
  | (h, Ok (i, d)) =>
      match set_rng (RGen i) entropy b h with
      | (h, Err e) => (h, Err e)
      | (h, Ok b) => set_state (SDict d) entropy b h
      end
  end.

(** A component made with the common arguments of another object: common_args 776-783. *)
Definition make_component (b : base) (entropy : S) (h : heap) : heap * result base :=
  base_init (match b_rng b with Some i => RGen i | None => RNone end) (b_seed b) (get_state b h) entropy h.
End Rng.

(* ------------------------------ components ------------------------------ *)
Section Registry.
(** Classes and instances.  [build c] is the result of calling the class [c] with the
    keyword arguments at hand. *)
Variables cls inst : Type.
Variable build : cls -> result inst.
(** Families (Morphology, Surface, Counting, ...): each has a _registry of its own, and
    [family c] is the family whose _registry the class [c] inherits. *)
Variable fam : Type.
Variable fam_eqb : fam -> fam -> bool.
Variable family : cls -> fam.

(** A registry maps names to classes, in order of registration. *)
Definition registry : Type := pairs cls.
(** ComponentBase.register: core/base.py:875-887. *)
Definition register (name : string) (c : cls) (r : registry) : registry := pset name c r.
(** ComponentBase.available: 889-892. *)
Definition available (r : registry) : list string := map fst r.

(** The registries of all families. *)
Definition tables : Type := fam -> registry.
(** The decorator of 881-885 writes to the registry that the class inherits. *)
Definition register_in (name : string) (c : cls) (t : tables) : tables :=
  fun f => if fam_eqb f (family c) then register name c (t f) else t f.

Inductive component_arg := CNone | CName (n : string) | CClass (c : cls) | CInst (i : inst) | COther.
(** ComponentBase.maker: 827-866. *)
Definition maker (r : registry) (a : component_arg) : result inst :=
  let by_name n := if existsb (String.eqb n) (available r)
                   then match pget n r with Some c => build c | None => Err KeyError end
                   else Err KeyError in
  match a with
  | CNone => match available r with [] => Err IndexError | n :: _ => by_name n end
  | CName n => by_name n
  | CClass c => build c
  | CInst i => Ok i
  | COther => Err TypeError
  end.
End Registry.

(* --------------------------- overwrite prompts --------------------------- *)
Section Overwrite.
Variable path : Type.
(** [under p f]: the path [p] is [f] or, if f is a directory, inside it. *)
Variable under : path -> path -> bool.
(** [rm_ok f]: the removal of [f] raises no exception. *)
Variable rm_ok : path -> bool.
(** The answers to prompts, lower-cased: "y", "a" or anything else. *)
Inductive answer := Yes | All | No.

(** The paths that exist. *)
Definition exists_ (fs : list path) (f : path) : bool := existsb (fun p => under p f) fs.
Definition remove (f : path) (fs : list path) : list path := filter (fun p => negb (under p f)) fs.

(** _overwrite_check: core/base.py:447-485; [ask] is the local copy of ask_overwrite.
    Removing a path that does not exist does nothing (missing_ok).  A failed removal is
    taken to remove nothing.  When the answers run out, input() raises (EOFError); this is
    modelled as a refusal. *)
Fixpoint overwrite_check (ask : bool) (files : list path) (answers : list answer) (fs : list path) : bool * list path :=
  match files with
  | [] => (true, fs)
  | f :: r =>
      let proceed ask answers :=
        if rm_ok f then overwrite_check ask r answers (remove f fs) else (false, fs) in
      if exists_ fs f && ask then
        match answers with
        | All :: a => proceed false a
        | Yes :: a => proceed ask a
        | _ => (false, fs)
        end
      else proceed ask answers
  end.
End Overwrite.

(** The stored preference across an export that takes an [override] for its duration:
    components/counting/__init__.py:528-531, 590, components/surface/__init__.py:2797-2819,
    core/simulation.py:912-938.  [outcome] is what the body does with the preference in
    force; the restoring assignment is not reached when the body raises. *)
Definition export_pref (override : option bool) (outcome : bool -> option exn) (pref : bool) : bool * option exn :=
  let inside := match override with Some b => b | None => pref end in
  match outcome inside with
  | Some e => (inside, Some e)
  | None => (pref, None)
  end.

(* ----------------------------- save actions ----------------------------- *)
Section Actions.
(** Keyword arguments of actions. *)
Variable value : Type.
Definition args : Type := pairs value.

(** What getattr finds under a name. *)
Inductive attr_kind := Missing | NotCallable | Callable.
Variable kind : string -> attr_kind.
(** Whether the object has the attribute "name", which every error message uses. *)
Variable has_name : bool.

(** Entries of the list, which may have the wrong type. *)
Inductive entry := NotDict | Entry (d : pairs (option args)).   (** None: not a dictionary *)

Definition fail (e : exn) : exn := if has_name then e else AttributeError.
(** One entry: core/base.py:537-548 and 567-582. *)
Fixpoint check_dict (d : pairs (option args)) : option exn :=
  match d with
  | [] => None
  | (action, a) :: r =>
      match kind action with
      | Missing => Some (fail ValueError)
      | NotCallable => Some (fail ValueError)
      | Callable => match a with None => Some (fail TypeError) | Some _ => check_dict r end
      end
  end.
Definition check_entry (e : entry) : option exn :=
  match e with NotDict => Some TypeError | Entry d => check_dict d end.
Fixpoint check_list (l : list entry) : option exn :=
  match l with
  | [] => None
  | e :: r => match check_entry e with Some x => Some x | None => check_list r end
  end.

(** Lists are objects: an object holds a reference to its list of actions. *)
Record world := { w_lists : nat -> list entry; w_next : nat; w_obj : nat -> nat }.
Definition upd {A} (f : nat -> A) (i : nat) (v : A) : nat -> A := fun j => if Nat.eqb j i then v else f j.
(** The list of object [o]. *)
Definition actions (w : world) (o : nat) : list entry := w_lists w (w_obj w o).

Inductive list_arg := ANone | AList (ref : nat) | AOther.
(** save_actions setter: 558-583. *)
Definition set_actions (o : nat) (v : list_arg) (w : world) : world * option exn :=
  let fresh := {| w_lists := upd (w_lists w) (w_next w) []; w_next := Datatypes.S (w_next w); w_obj := upd (w_obj w) o (w_next w) |} in
  match v with
  | ANone => (fresh, None)
  | AOther => (w, Some TypeError)
  | AList r =>
      match w_lists w r with
      | [] => (fresh, None)
      | l => match check_list l with
             | Some e => (w, Some e)
             | None => ({| w_lists := w_lists w; w_next := w_next w; w_obj := upd (w_obj w) o r |}, None)
             end
      end
  end.
(** add_save_action: 524-549. *)
Definition add_action (o : nat) (e : entry) (w : world) : world * option exn :=
  match check_entry e with
  | Some x => (w, Some x)
  | None => ({| w_lists := upd (w_lists w) (w_obj w o) (actions w o ++ [e])%list; w_next := w_next w; w_obj := w_obj w |}, None)
  end.

(** save: 140-182.  [kw] are the keyword arguments of save, [iv] the interval; [call] is
    the effect of an action, which may raise.  Returns the calls made.  [has_prefix]:
    output_filename can build a name. *)
Variable has_prefix : bool.
Variable call : string -> args -> option exn.
Definition call_args (a kw : args) (iv : value) : args := pset "interval" iv (pupdate a kw).
Fixpoint run_dict (kw : args) (iv : value) (d : pairs (option args)) : list (string * args) * option exn :=
  match d with
  | [] => ([], None)
  | (action, a) :: r =>
      match kind action with
      | Missing => ([], Some (fail ValueError))
      | NotCallable => ([], Some (fail ValueError))
      | Callable =>
          match a with
          | None => ([], Some TypeError)
          | Some a =>
              let x := call_args a kw iv in
              match call action x with
              | Some e => ([(action, x)], Some e)
              | None => let '(l, e) := run_dict kw iv r in ((action, x) :: l, e)
              end
          end
      end
  end.
Fixpoint run_list (kw : args) (iv : value) (l : list entry) : list (string * args) * option exn :=
  match l with
  | [] => ([], None)
  | NotDict :: r => ([], Some AttributeError)
  | Entry d :: r =>
      match run_dict kw iv d with
      | (c, Some e) => (c, Some e)
      | (c, None) => let '(c', e) := run_list kw iv r in ((c ++ c')%list, e)
      end
  end.
Definition save (o : nat) (skip : bool) (filename : bool) (kw : args) (iv : value) (w : world)
  : list (string * args) * option exn :=
  if skip then ([], None)
  else if negb filename && negb has_prefix then ([], Some ValueError)
  else run_list kw iv (actions w o).
End Actions.
