(** Property theorems about core/base.py (C02, C03, C07, C08). *)
From Verif Require Import Common Conf_model Base_model Base_spec Base_proofs.
From Coq Require Import Lia.
Open Scope string_scope.

(* ---------------------------------- C02 ---------------------------------- *)
(** C02 (generator): a generator passed by the user is used as is, whatever seed and state
    come with it: the object holds that very generator, whose state is untouched. *)
Theorem C02_generator_as_is :
  forall S seed dict seeded of_dict to_dict i sd st entropy h,
  exists b, base_init S seed seeded dict of_dict to_dict (RGen i) sd st entropy h = (h, Ok b) /\ b_rng _ _ b = Some i.
Proof. exact (fun S seed dict seeded of_dict to_dict i sd st entropy h => ex_intro _ _ (conj (init_rng S seed dict seeded of_dict to_dict i sd st entropy h) eq_refl)). Qed.
Print Assumptions C02_generator_as_is.
Example C02_generator_as_is_ex : exists b,
  base_init nat nat nseed nat Some (fun s => s) (RGen 0) (Some 5) (SDict nat 9) 123 h0 = (h0, Ok b) /\ b_rng _ _ b = Some 0%nat /\ h_state nat h0 0 = 7%nat.
Proof. eexists. repeat split. Qed.

(** C02 (seed): a seed alone gives a new generator in the state that belongs to the seed,
    independent of entropy and of what happened before; other generators are untouched. *)
Theorem C02_seed_reproducible :
  forall S seed dict seeded of_dict to_dict x s entropy h, seeded x = Some s ->
  exists h' b, base_init S seed seeded dict of_dict to_dict RNone (Some x) (SNone dict) entropy h = (h', Ok b) /\
    b_rng _ _ b = Some (h_size S h) /\ new_generator S h h' (h_size S h) s.
Proof.
  exact (fun S seed dict seeded of_dict to_dict x s entropy h E =>
    match init_seed S seed dict seeded of_dict to_dict x s entropy h E with
    | ex_intro _ h' (conj A B) => ex_intro _ h' (ex_intro _ _ (conj A (conj eq_refl B))) end).
Qed.
Print Assumptions C02_seed_reproducible.
Example C02_seed_reproducible_ex : nseed 5 = Some 25%nat.
Proof. reflexivity. Qed.

(** C02 (state): a saved state alone gives a new generator that continues from that state. *)
Theorem C02_state_alone_partial :
  forall S seed dict seeded of_dict to_dict d s entropy h, of_dict d = Some s ->
  exists h' b, base_init S seed seeded dict of_dict to_dict RNone None (SDict dict d) entropy h = (h', Ok b) /\
    b_rng _ _ b = Some (h_size S h) /\ new_generator S h h' (h_size S h) s.
Proof.
  exact (fun S seed dict seeded of_dict to_dict d s entropy h E =>
    match init_state S seed dict seeded of_dict to_dict d s entropy h E with
    | ex_intro _ h' (conj A B) => ex_intro _ h' (ex_intro _ _ (conj A (conj eq_refl B))) end).
Qed.
Print Assumptions C02_state_alone_partial.
Example C02_state_alone_ex : exists h' b, base_init nat nat nseed nat Some (fun s => s) RNone None (SDict nat 9) 123 h0 = (h', Ok b) /\
  b_rng _ _ b = Some 1%nat /\ h_state nat h' 1 = 9%nat /\ h_state nat h' 0 = 7%nat.
Proof. eexists. eexists. repeat split. Qed.

(** C02 (invalid arguments): anything that is not a generator, a bad seed or a bad state is
    a ValueError and creates nothing. *)
Theorem C02_invalid_rejected :
  forall S seed dict seeded of_dict to_dict sd st x d entropy h,
  base_init S seed seeded dict of_dict to_dict ROther sd st entropy h = (h, Err ValueError) /\
  base_init S seed seeded dict of_dict to_dict RNone sd (SOther dict) entropy h = (h, Err ValueError) /\
  (seeded x = None -> base_init S seed seeded dict of_dict to_dict RNone (Some x) (SNone dict) entropy h = (h, Err ValueError)) /\
  (of_dict d = None -> base_init S seed seeded dict of_dict to_dict RNone None (SDict dict d) entropy h = (h, Err ValueError)).
Proof.
  exact (fun S seed dict seeded of_dict to_dict sd st x d entropy h =>
    conj (init_other S seed dict seeded of_dict to_dict sd st entropy h)
   (conj (init_state_other S seed dict seeded of_dict to_dict sd entropy h)
   (conj (init_seed_bad S seed dict seeded of_dict to_dict x entropy h)
         (init_state_bad S seed dict seeded of_dict to_dict d entropy h)))).
Qed.
Print Assumptions C02_invalid_rejected.
Example C02_invalid_rejected_ex : nseed 100 = None.
Proof. reflexivity. Qed.

(** C02 (refuted, precedence of the state): with both a seed and a state, however valid,
    initialisation always raises a ValueError, although the state is documented to take
    precedence. *)
Theorem C02_seed_and_state_refuted :
  forall S seed dict seeded of_dict to_dict x d entropy h,
  base_init S seed seeded dict of_dict to_dict RNone (Some x) (SDict dict d) entropy h = (h, Err ValueError).
Proof. exact init_both. Qed.
Print Assumptions C02_seed_and_state_refuted.
Example C02_seed_and_state_ex : nseed 5 = Some 25%nat /\ (Some : nat -> option nat) 9%nat = Some 9%nat.
Proof. split; reflexivity. Qed.

(** C02 (refuted, assigning a state): no sequence of assignments to rng_state and rng_seed
    ever changes the generator of an object or the state of any generator, so an object
    does not continue from a state assigned to it. *)
Theorem C02_assigning_state_refuted :
  forall S seed dict seeded of_dict to_dict assignments entropy h b i, b_rng _ _ b = Some i ->
  let r := assign_all S seed dict to_dict seeded of_dict entropy assignments (h, b) in
  fst r = h /\ b_rng _ _ (snd r) = Some i.
Proof. exact (fun S seed dict seeded of_dict to_dict l entropy h b i => assign_keeps S seed dict seeded of_dict to_dict l entropy h b i). Qed.
Print Assumptions C02_assigning_state_refuted.
Example C02_assigning_state_ex :
  let b := {| b_rng := Some 0%nat; b_seed := None; b_state := None |} in
  let r := assign_all nat nat nat (fun s => s) nseed Some 123%nat [AssignState nat nat (SDict nat 9%nat)] (h0, b) in
  get_state nat nat nat (fun s => s) (snd r) (fst r) = SDict nat 7%nat.
Proof. reflexivity. Qed.

(** C02 (sharing): components made from an object with its common arguments, components
    made from those, and so on, all hold the same generator and seed. *)
Theorem C02_components_share_generator :
  forall S seed dict seeded of_dict to_dict h b i c, b_rng _ _ b = Some i ->
  made_from S seed dict seeded of_dict to_dict h b c -> b_rng _ _ c = Some i /\ b_seed _ _ c = b_seed _ _ b.
Proof. exact components_share. Qed.
Print Assumptions C02_components_share_generator.
Example C02_components_share_ex : exists c,
  made_from nat nat nat nseed Some (fun s => s) h0 {| b_rng := Some 0%nat; b_seed := Some 3%nat; b_state := None |} c /\ b_state _ _ c = Some 7%nat.
Proof. eexists. split; [eapply (mf_step _ _ _ _ _ _ _ _ _ _ 0%nat); [apply mf_self | reflexivity] | reflexivity]. Qed.

(** C02 (assigning None to rng): with a seed this raises; without one it makes a new
    generator in the state of the old one, not a freshly seeded one. *)
Theorem C02_assigning_no_generator :
  forall S seed dict seeded of_dict to_dict x i entropy h d,
  set_rng S seed seeded dict of_dict to_dict RNone entropy {| b_rng := Some i; b_seed := Some x; b_state := d |} h = (h, Err ValueError) /\
  (of_dict (to_dict (h_state S h i)) = Some (h_state S h i) ->
   exists h' b', set_rng S seed seeded dict of_dict to_dict RNone entropy {| b_rng := Some i; b_seed := None; b_state := d |} h = (h', Ok b') /\
    b_rng _ _ b' = Some (h_size S h) /\ new_generator S h h' (h_size S h) (h_state S h i)).
Proof.
  exact (fun S seed dict seeded of_dict to_dict x i entropy h d =>
    conj (assign_none_seeded S seed dict seeded of_dict to_dict x i entropy h d)
         (assign_none_copy S seed dict seeded of_dict to_dict i entropy h d)).
Qed.
Print Assumptions C02_assigning_no_generator.
Example C02_assigning_no_generator_ex : (Some : nat -> option nat) (h_state nat h0 0) = Some (h_state nat h0 0).
Proof. reflexivity. Qed.

(* ---------------------------------- C03 ---------------------------------- *)
(** C03 (names): after any sequence of registrations, a name builds the class registered
    last under it, and a name never registered is a KeyError. *)
Theorem C03_by_name :
  forall cls inst (build : cls -> result inst) regs n,
  maker cls inst build (after cls regs []) (CName cls inst n) =
  match latest cls n regs with Some c => build c | None => Err KeyError end.
Proof.
  exact (fun cls inst build regs n => eq_trans (maker_name cls inst build n _)
    (f_equal (fun o => match o with Some c => build c | None => Err KeyError end)
      (eq_trans (pget_after cls n regs []) (match latest cls n regs as o return (match o with Some c => Some c | None => pget n [] end = o) with Some _ => eq_refl | None => eq_refl end)))).
Qed.
Print Assumptions C03_by_name.
Example C03_by_name_ex :
  maker nat nat Ok (after nat [("a", 1); ("b", 2); ("a", 3)]%nat []) (CName nat nat "a") = Ok 3%nat /\
  maker nat nat Ok (after nat [("a", 1); ("b", 2); ("a", 3)]%nat []) (CName nat nat "c") = Err KeyError.
Proof. split; reflexivity. Qed.

(** C03 (default): without a component, the name registered first is used, whatever is
    registered afterwards; an empty registry raises. *)
Theorem C03_default :
  forall cls inst (build : cls -> result inst) n c regs,
  maker cls inst build (after cls ((n, c) :: regs) []) (CNone cls inst) =
  maker cls inst build (after cls ((n, c) :: regs) []) (CName cls inst n) /\
  maker cls inst build [] (CNone cls inst) = Err IndexError.
Proof. exact (fun cls inst build n c regs => conj (maker_default cls inst build n c regs) eq_refl). Qed.
Print Assumptions C03_default.
Example C03_default_ex : maker nat nat Ok (after nat [("a", 1); ("b", 2)]%nat []) (CNone nat nat) = Ok 1%nat.
Proof. reflexivity. Qed.

(** C03 (classes, instances, others): a class is built, an instance is returned unchanged,
    anything else is a TypeError, for every registry. *)
Theorem C03_dispatch :
  forall cls inst (build : cls -> result inst) r c i,
  maker cls inst build r (CClass cls inst c) = build c /\ maker cls inst build r (CInst cls inst i) = Ok i /\
  maker cls inst build r (COther cls inst) = Err TypeError.
Proof. exact (fun cls inst build r c i => conj eq_refl (conj eq_refl eq_refl)). Qed.
Print Assumptions C03_dispatch.
Example C03_dispatch_ex : maker nat nat (fun c => Ok (c + 1)%nat) [] (CClass nat nat 4) = Ok 5%nat.
Proof. reflexivity. Qed.

(** C03 (isolation): registering a name changes no other name, and registrations into other
    families change nothing in a family. *)
Theorem C03_isolation :
  forall cls inst fam (build : cls -> result inst) fam_eqb (family : cls -> fam), 
  (forall n m c r, n <> m -> maker cls inst build (register cls m c r) (CName cls inst n) = maker cls inst build r (CName cls inst n)) /\
  (forall f regs t, (forall n c, In (n, c) regs -> fam_eqb f (family c) = false) -> after_all cls fam fam_eqb family regs t f = t f) /\
  (forall f regs, after_all cls fam fam_eqb family regs (fun _ => []) f = after cls (filter (fun p => fam_eqb f (family (snd p))) regs) []).
Proof.
  exact (fun cls inst fam build fam_eqb family =>
    conj (other_names cls inst build)
   (conj (other_families cls fam fam_eqb family)
         (fun f regs => families cls fam fam_eqb family f regs (fun _ => [])))).
Qed.
Print Assumptions C03_isolation.
Example C03_isolation_ex : after_all nat nat Nat.eqb (fun c => c / 10)%nat [("a", 11); ("a", 21); ("b", 12)]%nat (fun _ => []) 1%nat = [("a", 11); ("b", 12)]%nat.
Proof. reflexivity. Qed.

(* ---------------------------------- C07 ---------------------------------- *)
(** C07 (success): if the operation reports success, exactly the listed files, with what is
    inside the listed directories, are gone. *)
Theorem C07_success_removes_exactly :
  forall path under rm_ok ask files answers fs fs', overwrite_check path under rm_ok ask files answers fs = (true, fs') ->
  fs' = without path under files fs.
Proof. exact (fun path under rm_ok ask files a fs fs' H => proj1 (check_true path under rm_ok files ask a fs fs' H)). Qed.
Print Assumptions C07_success_removes_exactly.
Example C07_success_ex : overwrite_check _ in_dir (fun _ => true) true [(1, 0); (4, 0)]%nat [Yes] fs_dir = (true, [(2, 1); (3, 1)]%nat).
Proof. reflexivity. Qed.

(** C07 (accepting): with prompts disabled, or answers that say yes to each prompt or at
    some point yes to all, the operation succeeds and removes exactly the listed files,
    unless the file system refuses. *)
Theorem C07_accepted :
  forall path under rm_ok ask files answers fs, (forall f, In f files -> rm_ok f = true) ->
  ask = false \/ accepts (List.length files) answers ->
  overwrite_check path under rm_ok ask files answers fs = (true, without path under files fs).
Proof. exact (fun path under rm_ok ask files a fs => check_success path under rm_ok files ask a fs). Qed.
Print Assumptions C07_accepted.
Example C07_accepted_ex : accepts 3 [Yes; All] /\ accepts 0 [].
Proof. split; exact I. Qed.

(** C07 (failure): if the operation reports failure, there is a listed file at which it
    stopped, because it could not be removed, or because it exists, prompts are on and the
    answer was a refusal; only the files listed before it are gone. *)
Theorem C07_failure_partial :
  forall path under rm_ok ask files answers fs fs', overwrite_check path under rm_ok ask files answers fs = (false, fs') ->
  exists l1 f l2, files = (l1 ++ f :: l2)%list /\ fs' = without path under l1 fs /\ (forall g, In g l1 -> rm_ok g = true) /\
    (rm_ok f = false \/ (ask = true /\ exists_ path under fs' f = true /\ refused answers)).
Proof. exact (fun path under rm_ok ask files a fs fs' => check_false path under rm_ok files ask a fs fs'). Qed.
Print Assumptions C07_failure_partial.
Example C07_failure_ex : overwrite_check nat Nat.eqb (fun _ => true) true [1; 2]%nat [No] [1; 2; 3]%nat = (false, [1; 2; 3]%nat).
Proof. reflexivity. Qed.

(** C07 (declining at once): if the first prompt is declined, nothing is deleted and the
    operation reports failure. *)
Theorem C07_first_refusal_partial :
  forall path under rm_ok l1 f l2 answers fs,
  (forall g, In g l1 -> exists_ path under fs g = false /\ rm_ok g = true) -> exists_ path under fs f = true ->
  overwrite_check path under rm_ok true (l1 ++ f :: l2)%list (No :: answers) fs = (false, fs).
Proof. exact (fun path under rm_ok l1 f l2 a fs => check_decline_first path under rm_ok _ a l1 f l2 fs eq_refl). Qed.
Print Assumptions C07_first_refusal_partial.
Example C07_first_refusal_ex : exists_ nat Nat.eqb [1; 2]%nat 5%nat = false /\ exists_ nat Nat.eqb [1; 2]%nat 2%nat = true.
Proof. split; reflexivity. Qed.

(** C07 (refuted, declining): files accepted before a refusal are already deleted when the
    operation is cancelled. *)
Theorem C07_refusal_refuted :
  ~ forall path under rm_ok files answers fs fs',
    (forall f, rm_ok f = true) -> overwrite_check path under rm_ok true files answers fs = (false, fs') -> fs' = fs.
Proof.
  exact (fun H => match H nat Nat.eqb (fun _ => true) [1; 2]%nat [Yes; No] [1; 2; 3]%nat _ (fun _ => eq_refl) refused_after_deleting
    in (_ = r) return match r with [] => True | 2%nat :: _ => True | _ => False end with eq_refl => I end).
Qed.
Print Assumptions C07_refusal_refuted.

(** C07 (preference): an export that succeeds leaves the preference as it was; one that
    raises leaves whatever it was asked to use. *)
Theorem C07_preference_partial :
  forall override outcome pref,
  (snd (export_pref override outcome pref) = None -> fst (export_pref override outcome pref) = pref) /\
  (forall e, snd (export_pref override outcome pref) = Some e ->
     fst (export_pref override outcome pref) = match override with Some b => b | None => pref end).
Proof. exact (fun override outcome pref => conj (export_keeps override outcome pref) (fun e => export_raises override outcome pref e)). Qed.
Print Assumptions C07_preference_partial.
Example C07_preference_ex : export_pref (Some false) (fun _ => None) true = (true, None).
Proof. reflexivity. Qed.

(** C07 (refuted, preference): after a failed export with ask_overwrite=False, prompts stay
    disabled. *)
Theorem C07_preference_refuted :
  ~ forall override outcome pref, fst (export_pref override outcome pref) = pref.
Proof. exact (fun H => match H (Some false) (fun _ => Some ValueError) true in (_ = b) return (if b then False else True) with eq_refl => I end). Qed.
Print Assumptions C07_preference_refuted.

(* ---------------------------------- C08 ---------------------------------- *)
(** C08 (atomic): setting the list of actions, or adding one, on objects that do not share
    lists, either installs exactly what was asked and does not raise, or raises and changes
    nothing; it does the former exactly when everything in it is valid; and no other object
    is affected. *)
Theorem C08_atomic_partial :
  forall value kind has_name objs o op (w : world value), unshared value objs w -> In o objs ->
  let '(w', e) := perform value kind has_name o op w in
  unshared value objs w' /\
  (forall p, In p objs -> p <> o -> actions value w' p = actions value w p) /\
  ((op_valid value kind op /\ e = None /\ actions value w' o = intended value op (actions value w o)) \/
   (~ op_valid value kind op /\ e <> None /\ actions value w' o = actions value w o)).
Proof. exact perform_spec. Qed.
Print Assumptions C08_atomic_partial.
Example C08_atomic_ex : unshared nat [0; 1]%nat w0 /\ op_valid nat kinds (Add nat plot_entry) /\ ~ op_valid nat kinds (SetList nat [plot_entry; NotDict nat]).
Proof.
  split; [exact w0_unshared |]. split.
  - intros n a [E | []]. injection E as <- <-. split; [reflexivity | discriminate].
  - intros H. inversion H; subst. inversion H3; subst. contradiction.
Qed.

(** C08 (history): after any sequence of such operations on any of the objects, each object
    has the list that its own valid operations give. *)
Theorem C08_history_partial :
  forall value kind has_name objs ops (w : world value), unshared value objs w -> (forall o op, In (o, op) ops -> In o objs) ->
  let w' := perform_all value kind has_name ops w in
  unshared value objs w' /\ forall o, In o objs -> should_be value kind o ops (actions value w o) (actions value w' o).
Proof. exact perform_all_spec. Qed.
Print Assumptions C08_history_partial.
Example C08_history_ex :
  let w' := perform_all nat kinds true [(0, Add nat plot_entry); (1, SetList nat [plot_entry; NotDict nat]); (0, Add nat (NotDict nat)); (0, Add nat plot_entry)]%nat w0 in
  actions nat w' 0 = [plot_entry; plot_entry] /\ actions nat w' 1 = [].
Proof. split; reflexivity. Qed.

(** C08 (running): saving with a valid list calls the listed actions in order; each is
    called with its own arguments, overridden by those of the call and by the interval,
    stopping only at an action that raises; skipping calls nothing. *)
Theorem C08_save_runs_in_order :
  forall value kind has_name has_prefix call (w : world value) o filename kw iv,
  Forall (valid_entry value kind) (actions value w o) -> NoDup (map fst kw) -> (filename || has_prefix)%bool = true ->
  (forall calls e, save value kind has_name has_prefix call o false filename kw iv w = (calls, e) ->
   exists done rest, listed value (actions value w o) = (done ++ rest)%list /\ Forall2 (calls_action value kw iv) done calls /\
    match e with
    | None => rest = []
    | Some x => exists c0 n a, calls = (c0 ++ [(n, a)])%list /\ call n a = Some x
    end) /\
  save value kind has_name has_prefix call o true filename kw iv w = ([], None).
Proof.
  exact (fun value kind has_name has_prefix call w o filename kw iv V D F =>
    conj (save_valid value kind has_name has_prefix call w o filename kw iv V D F) eq_refl).
Qed.
Print Assumptions C08_save_runs_in_order.
Example C08_save_ex :
  save nat kinds true true (fun _ _ => None) 2 false false [("dpi", 300%nat)] 4%nat w0 =
  ([("plot", [("style", 1%nat); ("dpi", 300%nat); ("interval", 4%nat)])], None).
Proof. reflexivity. Qed.

(** C08 (errors): on an object that has a name an invalid action is a TypeError or a
    ValueError. *)
Theorem C08_error_kind_partial :
  forall value kind e, ~ valid_entry value kind e ->
  forall o w, exists x, add_action value kind true o e w = (w, Some x) /\ (x = TypeError \/ x = ValueError).
Proof. exact invalid_raises. Qed.
Print Assumptions C08_error_kind_partial.
Example C08_error_kind_ex : ~ valid_entry nat kinds (Entry nat [("radius", Some [])]).
Proof. intros H. destruct (H "radius" (Some [])) as [E _]; [left; reflexivity | discriminate E]. Qed.

(** C08 (refuted, errors): on an object without a name, such as a surface or a counting
    component, every invalid dictionary is an AttributeError about the missing name. *)
Theorem C08_error_kind_refuted :
  forall value kind d, ~ valid_entry value kind (Entry value d) ->
  forall o w, add_action value kind false o (Entry value d) w = (w, Some AttributeError).
Proof. exact invalid_unnamed. Qed.
Print Assumptions C08_error_kind_refuted.
Example C08_error_kind_refuted_ex : ~ valid_entry nat kinds (Entry nat [("fly", Some [])]).
Proof. intros H. destruct (H "fly" (Some [])) as [E _]; [left; reflexivity | discriminate E]. Qed.

(** C08 (refuted, sharing): two objects given the same list share it, and adding an action
    to one adds it to the other. *)
Theorem C08_shared_list_refuted :
  ~ forall value kind has_name (w : world value) r e,
    let w1 := fst (set_actions value kind has_name 0 (AList r) w) in
    let w2 := fst (set_actions value kind has_name 1 (AList r) w1) in
    let w3 := fst (add_action value kind has_name 0 e w2) in
    actions value w3 1 = actions value w2 1.
Proof.
  exact (fun H => match eq_trans (eq_sym (proj2 aliased)) (eq_trans (H nat kinds true w0 2%nat (Entry nat [("export", Some [])])) (proj1 aliased))
    in (_ = l) return match l with [_] => False | _ => True end with eq_refl => I end).
Qed.
Print Assumptions C08_shared_list_refuted.
