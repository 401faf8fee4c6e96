(** Properties of classes used as methods: C77, C78, C79. *)
From stdpp Require Import list.
From Verif Require Import TypeListModel TypeListSpec MethodModel MethodSpec MethodProofs MethodExamples MethodRefuted.

(** ** C77 *)

Theorem C77_methods_as_written_partial : forall w, signature_found w ->
  let M := method_class w in
  simple_method M = Got true /\
  exists tr, method_traits M = Got tr /\
    tr_self tr = Some (self_param w 0) /\ tr_result tr = MVar (wr_ret w) /\ tr_args tr = Some (wr_args w) /\
    (tr_const tr = true <-> wr_ref w = NoRef \/ wr_const w = true) /\
    (exists ps, tr_slot tr = SFn (wr_ret w) (tr_const tr) ps /\ Forall2 forwarded (wr_args w) ps) /\
    const_method M = Got (tr_const tr) /\
    forall T, check_fn T M = Got (wr_accepts w T).
Proof. exact methods_written. Qed.
Print Assumptions C77_methods_as_written_partial.
Example C77_ex1 : signature_found foox /\ signature_found barx /\ signature_found hash /\
  (bind (method_traits (method_class foox)) (fun t => Got (tr_const t))) = Got true /\
  (bind (method_traits (method_class barx)) (fun t => Got (tr_const t))) = Got false.
Proof. repeat split; (left; done) || (right; done) || done. Qed.

Theorem C77_pseudomethods_as_written : forall v accepts body,
  let M := value_class v accepts body in
  simple_method M = Got true /\ regular_method M = Got false /\
  exists tr, method_traits M = Got tr /\
    tr_self tr = None /\ tr_args tr = None /\ tr_result tr = MVar (Ty NoRef false (BObj v)) /\
    tr_slot tr = SVal (MVar (Ty NoRef false (BObj v))) /\ tr_const tr = true /\
    forall T, check_fn T M = Got (accepts T).
Proof. exact pseudomethods_written. Qed.
Print Assumptions C77_pseudomethods_as_written.
Example C77_ex2 : check_fn 4 (destroy (fun T => negb (T =? 4))) = Got false /\ check_fn 3 (destroy (fun T => negb (T =? 4))) = Got true.
Proof. done. Qed.

(** exist_for is the conjunction of what the declarations ask for *)
Theorem C77_exist_for_all : forall T (ms : list (mclass * (nat -> bool))),
  (forall M a, In (M, a) ms -> (exists w, M = method_class w /\ a = wr_accepts w) \/ (exists v body, M = value_class v a body)) ->
  exist_for T (map fst ms) = Got (forallb (fun m => snd m T) ms).
Proof. exact exist_for_forms. Qed.
Print Assumptions C77_exist_for_all.
Example C77_ex3 : exist_for 2 [destroy (fun _ => true); method_class hash; method_class foox] = Got true /\
  exist_for 3 [destroy (fun _ => true); method_class hash; method_class foox] = Got false.
Proof. done. Qed.

(** whatever the class declares: exist_for asks for one static do_invoke<T>, or one do_value<T> of a class that can be default constructed *)
Theorem C77_exist_for_any_class : forall M T, safe_for M T ->
  exists b, check_fn T M = Got b /\ (b = true <-> (exists o, invokes M T o /\ ov_static o = true) \/ exists g, yields M T g).
Proof. exact check_any_class. Qed.
Print Assumptions C77_exist_for_any_class.
(** whatever the class declares: what is taken for a function is signature_type, else the one static do_invoke<int> (or value_type) *)
Theorem C77_functions_of_any_class : forall M tr self, method_traits M = Got tr -> tr_self tr = Some self ->
  exists s args, sg_params s = self :: args /\
    (mc_sig M = Some (MFun s) \/ (mc_sig M = None /\ ((exists o, invokes M 0 o /\ ov_static o = true /\ s = ov_sig o 0) \/ mc_value M = Some (MFun s)))) /\
    tr_args tr = Some args /\ tr_result tr = MVar (sg_ret s).
Proof. exact functions_any_class. Qed.
Print Assumptions C77_functions_of_any_class.
(** and what is taken for a value is value_type of an empty class, not a reference or function *)
Theorem C77_values_of_any_class : forall M tr, simple_method M = Got true -> method_traits M = Got tr -> tr_self tr = None ->
  mc_sig M = None -> (forall o, ~ invokes M 0 o) ->
  mc_empty M = true /\ mc_default M = true /\ exists m, mc_value M = Some m /\ object_type m /\ tr_slot tr = SVal m /\ tr_result tr = m.
Proof. exact values_any_class. Qed.
Print Assumptions C77_values_of_any_class.
Example C77_ex6 : safe_for two_faced 7 /\ check_fn 7 two_faced = Got true /\ safe_for unstatic 7 /\ check_fn 7 unstatic = Got false /\
  (exists tr self, method_traits mismatched = Got tr /\ tr_self tr = Some self) /\
  simple_method (destroy (fun _ => true)) = Got true /\ mc_sig (destroy (fun _ => true)) = None /\ (forall o, ~ invokes (destroy (fun _ => true)) 0 o).
Proof.
  assert (S : forall M, (forall o, In o (mc_invoke M) -> ov_auto o = false) -> (forall g, In g (mc_do_value M) -> gt_auto g = false) -> safe_for M 7).
  { intros M H1 H2. split; [intros o Ho A; by rewrite (H1 o Ho) in A|intros g Hg A; by rewrite (H2 g Hg) in A]. }
  split; [apply S; [intros o [<-|[]]|intros g [<-|[]]]; done|]. split; [done|]. split; [apply S; [intros o [<-|[]]|intros g []]; done|]. split; [done|].
  split; [do 2 eexists; done|]. split; [done|]. split; [done|]. intros o (l1 & l2 & H & _). by destruct l1.
Qed.
(** the concepts accept classes that no table can have: a signature without self, a value of type void *)
Theorem C77_no_self_refuted : exists M, simple_method M = Got true /\ (forall T, check_fn T M = Got true) /\ forall E T, invoker_for E T M = Hard.
Proof. exists selfless. done. Qed.
Print Assumptions C77_no_self_refuted.
Theorem C77_void_value_refuted : exists M, simple_method M = Got true /\ (forall T, check_fn T M = Got true) /\ forall E T, invoker_for E T M = Hard.
Proof. exists valueless. done. Qed.
Print Assumptions C77_void_value_refuted.

(** the concept method for lists of methods *)
Theorem C77_lists_of_methods_partial : forall ts : list (TypeListModel.ty mclass),
  method_concept (TL ts) = Got true <-> Forall (fun t => exists M, t = Leaf M /\ simple_method M = Got true) ts.
Proof. exact compound_spec. Qed.
Print Assumptions C77_lists_of_methods_partial.
Example C77_ex5 : method_concept (TL [Leaf (method_class barx); Leaf (destroy (fun _ => true))]) = Got true.
Proof. done. Qed.
(** a list in a list, which any_with and runtime_concept flatten (C34), does not satisfy the concept *)
Theorem C77_nested_list_refuted : exists t : TypeListModel.ty mclass,
  Forall (fun M => simple_method M = Got true) (leaves t) /\ method_concept t = Got false.
Proof. exact nested_refuted. Qed.
Print Assumptions C77_nested_list_refuted.

(** without signature_type a method whose do_invoke is not for int has no signature *)
Theorem C77_not_for_int_refuted : forall w, ~ signature_found w ->
  signature_t (method_class w) = Fails /\ simple_method (method_class w) = Got false /\
  forall E T, invoker_for E T (method_class w) = Hard.
Proof. exact not_for_int. Qed.
Print Assumptions C77_not_for_int_refuted.
Example C77_ex4 : ~ signature_found unfound /\ check_fn 2 (method_class unfound) = Got true.
Proof. split; [intros [?|?]; done|done]. Qed.

(** a deduced return type makes the library compile the body of do_invoke for int, even when signature_type is declared *)
Theorem C77_auto_return_refuted : exists M s,
  mc_sig M = Some (MFun s) /\ simple_method M = Got true /\ check_fn 7 M = Got true /\ signature_t M = Hard.
Proof. exact auto_return. Qed.
Print Assumptions C77_auto_return_refuted.

(** ** C78 *)

Theorem C78_accepted_types_have_entries_partial : forall E w T,
  signature_found w -> wr_accepts w T = true -> wr_body w T = true ->
  Forall (fun a => t_base a <> BVoid) (wr_args w) -> (t_base (wr_ret w) = BVoid -> t_ref (wr_ret w) = NoRef) ->
  (exists e, invoker_for E T (method_class w) = Got e) <-> self_passable E w T /\ Forall (passable E) (wr_args w).
Proof. exact table_written. Qed.
Print Assumptions C78_accepted_types_have_entries_partial.
Example C78_ex1 : self_passable ex_env foox 7 /\ self_passable ex_env barx 5 /\ Forall (passable ex_env) (wr_args barx).
Proof. split; [right; done|]. split; [left; done|]. repeat constructor; [exists 0|exists 2]; done. Qed.

Theorem C78_values_have_entries_partial : forall E v accepts body T, accepts T = true -> body T = true ->
  (exists e, invoker_for E T (value_class v accepts body) = Got e) <-> e_move E v = true.
Proof. exact table_value. Qed.
Print Assumptions C78_values_have_entries_partial.
Example C78_ex2 : exists e, invoker_for ex_env 3 (destroy (fun T => negb (T =? 4))) = Got e.
Proof. eexists. done. Qed.

(** do_invoke<T> of the method is called with the object itself, or with a copy when self is taken by value *)
Theorem C78_entry_calls_the_function : forall E w T,
  signature_found w -> wr_accepts w T = true -> wr_body w T = true -> (t_base (wr_ret w) = BVoid -> t_ref (wr_ret w) = NoRef) ->
  forall e, invoker_for E T (method_class w) = Got e ->
  self_seen T e = Some (match wr_ref w with NoRef => SeesCopy | _ => SeesObject (wr_const w) end) /\
  exists cself, e = ECall (Ov true false (wr_accepts w) (signature_for w) (wr_body w)) cself.
Proof. exact seen_written. Qed.
Print Assumptions C78_entry_calls_the_function.
Example C78_ex3 : exists e e', invoker_for ex_env 7 (method_class foox) = Got e /\ self_seen 7 e = Some SeesCopy /\
  invoker_for ex_env 7 (method_class barx) = Got e' /\ self_seen 7 e' = Some (SeesObject false).
Proof. do 2 eexists. done. Qed.

(** whatever the class declares: a method that counts as const does not get the object as non-const *)
Theorem C78_const_methods_do_not_modify : forall E M T tr e,
  method_traits M = Got tr -> tr_const tr = true -> invoker_for E T M = Got e -> self_seen T e <> Some (SeesObject false).
Proof. exact const_methods_do_not_modify. Qed.
Print Assumptions C78_const_methods_do_not_modify.

(** whatever the class declares: functions are put where the table has function pointers, values where it has values *)
Theorem C78_entry_matches_slot : forall E M T tr e,
  method_traits M = Got tr -> invoker_for E T M = Got e ->
  match tr_slot tr, e with
  | SFn _ _ _, ECall _ _ | SVal _, EValue _ => True
  | _, _ => False
  end.
Proof. exact entry_matches_slot. Qed.
Print Assumptions C78_entry_matches_slot.
Example C78_ex4 : exists tr e, method_traits overloaded = Got tr /\ tr_const tr = true /\ invoker_for ex_env 7 overloaded = Got e /\
  self_seen 7 e = Some (SeesObject true).
Proof. do 2 eexists. done. Qed.

(** a table has one entry for each method, in their order *)
Theorem C78_entries_in_order : forall E T Ms es, vtable_for E T Ms = Got es <-> Forall2 (fun M e => invoker_for E T M = Got e) Ms es.
Proof. exact table_in_order. Qed.
Print Assumptions C78_entries_in_order.
Example C78_ex6 : exists e e', vtable_for ex_env 7 [method_class foox; destroy (fun _ => true)] = Got [e; e'] /\ invoker_for ex_env 7 (method_class foox) = Got e /\
  self_seen 7 e = Some SeesCopy /\ self_seen 7 e' = None.
Proof. do 2 eexists. done. Qed.

(** types that exist_for accepts and for which the table does not compile *)
Theorem C78_self_by_value_refuted : exists E w T, signature_found w /\ wr_ref w = NoRef /\ wr_body w T = true /\
  exist_for T [method_class w] = Got true /\ vtable_for E T [method_class w] = Hard.
Proof. exact by_value_refuted. Qed.
Print Assumptions C78_self_by_value_refuted.
Theorem C78_self_by_rvalue_reference_refuted : forall E w T,
  signature_found w -> wr_ref w = RRef -> wr_accepts w T = true -> wr_body w T = true ->
  Forall (fun a => t_base a <> BVoid) (wr_args w) -> (t_base (wr_ret w) = BVoid -> t_ref (wr_ret w) = NoRef) ->
  simple_method (method_class w) = Got true /\ exist_for T [method_class w] = Got true /\ vtable_for E T [method_class w] = Hard.
Proof. exact by_rvalue_refuted. Qed.
Print Assumptions C78_self_by_rvalue_reference_refuted.
Example C78_ex5 : signature_found consume /\ wr_ref consume = RRef /\ wr_accepts consume 7 = true.
Proof. split; [right; done|done]. Qed.
Theorem C78_argument_by_value_refuted : exists E w T, signature_found w /\ wr_ref w = LRef /\ wr_body w T = true /\
  exist_for T [method_class w] = Got true /\ vtable_for E T [method_class w] = Hard.
Proof. exact arg_by_value_refuted. Qed.
Print Assumptions C78_argument_by_value_refuted.
Theorem C78_other_signature_refuted : exists E M T, simple_method M = Got true /\ exist_for T [M] = Got true /\ vtable_for E T [M] = Hard.
Proof. exact mismatch_refuted. Qed.
Print Assumptions C78_other_signature_refuted.
(** a pseudomethod that also has a do_invoke for int is a function for the table, but exist_for looks at do_value *)
Theorem C78_function_and_value_refuted : exists E M T, pseudomethod M = true /\
  (forall T', exists g, call_value M T' = Got g) /\ exist_for T [M] = Got true /\ vtable_for E T [M] = Hard.
Proof. exact two_faced_refuted. Qed.
Print Assumptions C78_function_and_value_refuted.
(** the other way round: with two functions do_invoke the table would compile, but exist_for rejects the type *)
Theorem C78_overloaded_function_refuted : exists E M T e, simple_method M = Got true /\
  vtable_for E T [M] = Got [e] /\ exist_for T [M] = Got false.
Proof. exact overloaded_refuted. Qed.
Print Assumptions C78_overloaded_function_refuted.

(** ** C79 *)
Theorem C79_inherited_plugins : forall Q (base_of : Q -> Q -> bool),
  (forall x, base_of x x = true) ->
  (forall x y z, base_of x y = true -> base_of y z = true -> base_of x z = true) ->
  forall ms, exists R, bases base_of ms = Got R /\
  NoDup R /\
  (forall l1 x l2, R = l1 ++ x :: l2 -> forall y, In y (l1 ++ l2) -> base_of x y = false) /\
  (forall q, In q R -> exists u d, In (u, d) ms /\ contributes u d (Some q)) /\
  (forall u d q, In (u, d) ms -> contributes u d (Some q) -> exists r, In r R /\ base_of q r = true).
Proof. exact @bases_spec. Qed.
Print Assumptions C79_inherited_plugins.
(** type_info, equal_to and spaceship have the plugins 2, 4, 8, each derived from the one before; one method has a specialisation of
    aa::plugin, one has none *)
Example C79_ex : bases (fun b d => d mod b =? 0)
  [(None, PTemplate (Some 2)); (None, PTemplate (Some 4)); (None, PNone); (Some (UserPlugin 5 None), PTemplate (Some 3)); (None, PTemplate (Some 8))]
  = Got [5; 8].
Proof. done. Qed.
