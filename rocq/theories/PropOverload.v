(** Which overload is called: erased visitors (C84, C85), insertion into swarms (C86). *)
From stdpp Require Import gmap list.
From Verif Require Import SwarmModel SwarmSpec SwarmExamples OverloadModel OverloadSpec OverloadProofs OverloadExamples InserterModel InserterProofs.

(** an erased visitor called with one argument visits the nearest class of its interface; it must be an lvalue that is not const *)
Theorem C84_nearest_class : forall K, sane K -> forall Ts a T, NoDup Ts ->
  visitor_call K (overloads1 (map (fun T => (T, false)) Ts)) [a] = Some [(T, false)] <->
  a_const a = false /\ a_lvalue a = true /\ nearest_class K Ts (a_type a) T.
Proof. exact call1_nearest. Qed.
Print Assumptions C84_nearest_class.
(** with two arguments each is matched on its own: no pair is ambiguous unless an argument is *)
Theorem C84_arguments_independent : forall K, sane K -> forall Ts Us a b T U, NoDup Ts -> NoDup Us ->
  visitor_call K (overloads2 Ts Us) [a; b] = Some [T; U] <->
  visitor_call K (overloads1 Ts) [a] = Some [T] /\ visitor_call K (overloads1 Us) [b] = Some [U].
Proof. exact componentwise. Qed.
Print Assumptions C84_arguments_independent.
(** whatever the interface, also with const types: calls that compile are on lvalues, not const, of the class called or derived from it *)
Theorem C84_only_mutable_lvalues : forall K os args Ts, NoDup os -> visitor_call K os args = Some Ts ->
  length Ts = length args /\ forall i T a, Ts !! i = Some T -> args !! i = Some a ->
    snd T = false /\ a_const a = false /\ a_lvalue a = true /\ is_a K (a_type a) (fst T).
Proof. exact call_needs_lvalue. Qed.
Print Assumptions C84_only_mutable_lvalues.
(** not for every T is there an overload for T&: for const T the call does not compile *)
Theorem C84_overload_for_const_refuted : exists K Ts T, sane K /\ NoDup Ts /\ (T, true) ∈ Ts /\ visitor_call K (overloads1 Ts) [Arg T true true] = None.
Proof. exists zoo, [(dog, true); (animal, false)], dog. split; [exact zoo_sane|]. split; [by repeat constructor; set_solver|]. split; [set_solver|]. by vm_compute. Qed.
Print Assumptions C84_overload_for_const_refuted.
(** std::invocable does not tell which calls compile *)
Theorem C84_invocable_tells_refuted : exists K Ts a, sane K /\ NoDup Ts /\ call_declared [a] = true /\ visitor_call K (overloads1 Ts) [a] = None.
Proof. exists zoo, (plain [dog]), (lval duck). split; [exact zoo_sane|]. split; [by repeat constructor; set_solver|]. by vm_compute. Qed.
Print Assumptions C84_invocable_tells_refuted.
(** a puppy is visited as a dog, a duck as an animal or, if swimmers are visited too, not at all *)
Example C84_ex :
  visitor_call zoo (overloads1 (plain [animal; dog])) [lval puppy] = Some [(dog, false)] /\
  visitor_call zoo (overloads1 (plain [animal; dog])) [lval duck] = Some [(animal, false)] /\
  visitor_call zoo (overloads1 (plain [animal; swimmer])) [lval duck] = None /\
  visitor_call zoo (overloads1 (plain [animal; duck; swimmer])) [lval duck] = Some [(duck, false)] /\
  visitor_call zoo (overloads1 (plain [animal; dog])) [Arg dog false false] = None /\
  visitor_call zoo (overloads1 [(dog, true); (animal, false)]) [lval dog] = None /\
  visitor_call zoo (overloads2 (plain [animal; dog]) (plain [animal; swimmer])) [lval puppy; lval puppy] = Some [(dog, false); (animal, false)] /\
  visitor_call zoo (overloads2 (plain [animal; dog]) (plain [animal; swimmer])) [lval puppy; lval duck] = None.
Proof. by vm_compute. Qed.

(** C85: a class whose call operators are not reference qualified is accepted exactly when its const lvalues can be called; a call that returns
    aa::noop is not made *)
Theorem C85_ordinary_classes_partial : forall f, ordinary f ->
  (do_value f = NotAMethod <-> ~ callable_const f) /\ (do_value f = NoopFn <-> call_expr f true = Some true) /\
  (do_value f = VisitFn <-> call_expr f true = Some false).
Proof. exact ordinary_accepted. Qed.
Print Assumptions C85_ordinary_classes_partial.
(** what is called can be called *)
Theorem C85_called_is_callable : forall f, do_value f = VisitFn -> call_expr f true = Some false.
Proof. exact accepted_callable. Qed.
Print Assumptions C85_called_is_callable.
(** other callables: taken for visitors and then not compiled (operator() const &&; pointers to members), or not taken though they can be
    called (operator() const & with operator() const && deleted) *)
Theorem C85_every_callable_refuted :
  (exists f, do_value f = HardError /\ exists l r, f = CClass l r) /\ (exists f, do_value f = HardError /\ exists r, f = CMember r) /\
  (exists f, do_value f = NotAMethod /\ callable_const f).
Proof.
  split; [exists (CClass None (Some false)); split; [done|eauto]|]. split; [exists (CMember (Some false)); split; [done|eauto]|].
  exists (CClass (Some false) None). split; [done|]. by exists false.
Qed.
Print Assumptions C85_every_callable_refuted.
Example C85_ex : do_value (CClass (Some true) (Some true)) = NoopFn /\ do_value (CClass (Some false) (Some false)) = VisitFn /\
  do_value (CClass None None) = NotAMethod.
Proof. done. Qed.

(** C86: insert(x) of a swarm inserts into the container of the only nearest type: x's own type, else the nearest base or the type of the best
    conversion; it copies from lvalues and const objects, else moves from the argument or from the temporary made by the conversion *)
Theorem C86_insert_nearest_type : forall K, sane K -> forall Ts a T r, NoDup Ts ->
  insert_call K Ts a = Some (T, r) <-> nearest_type K Ts (a_type a) T /\ (r = false <-> leaves_argument K a T).
Proof. exact insert_nearest. Qed.
Print Assumptions C86_insert_nearest_type.
(** std::visit(inserter(swarm), variant) compiles exactly when each alternative has such a type *)
Theorem C86_inserter_compiles : forall K Ts alts c lv, sane K -> NoDup Ts ->
  inserter_compiles K Ts alts c lv = true <-> forall A, A ∈ alts -> exists T, nearest_type K Ts A T.
Proof. exact inserter_compiles_iff. Qed.
Print Assumptions C86_inserter_compiles.
(** and adds what the variant holds, converted to that type, to the sequence of variants the swarm stands for *)
Theorem C86_inserter_inserts : forall K cont, sane K -> (forall T U, cont T = cont U -> T = U) -> forall k Ts, NoDup Ts ->
  forall convert l m w x s q cc lv A T v,
  seq_history k Ts l m -> sexec cont k Ts l ∅ = SOk w -> w !! x = Some s -> m !! x = Some q -> nearest_type K Ts A T ->
  exists s' r, inserter_run K cont k Ts convert cc lv A v s = SOk (s', r) /\
    forall U, U ∈ Ts -> exists vs, s_view cont Ts U s' = Some vs /\ shown k U (seq_insert k T (convert A T v) q) vs.
Proof. exact inserter_inserts. Qed.
Print Assumptions C86_inserter_inserts.
(** characters go to int (promotion) rather than double, long to neither; puppies are sliced to dogs; literals become strings *)
Example C86_ex :
  insert_call zoo [double; int] (Arg char false true) = Some (int, true) /\ insert_call zoo [double; int] (Arg long false true) = None /\
  insert_call zoo [double; int] (Arg int true false) = Some (int, false) /\ insert_call zoo [double; int] (Arg double false false) = Some (double, true) /\
  insert_call zoo [animal; dog; string] (Arg puppy false false) = Some (dog, true) /\ insert_call zoo [animal; dog; string] (Arg puppy false true) = Some (dog, false) /\
  insert_call zoo [animal; dog; string] (Arg literal true true) = Some (string, true) /\ insert_call zoo [swimmer; animal] (Arg duck false false) = None /\
  inserter_compiles zoo [animal; dog; string] [dog; duck; literal] false true = true /\ inserter_compiles zoo [animal; dog; string] [dog; int] false true = false /\
  inserter_run zoo ex_cont KBack [double; int] (fun A T v => if A =? T then v else v + 100) true true char 7 [[1]; [2]] = SOk ([[1]; [2; 107]], RVoid).
Proof. by vm_compute. Qed.
