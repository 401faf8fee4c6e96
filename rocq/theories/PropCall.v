(** Properties C63, C64: passing arguments to methods, and constness of the operand of invoke. *)
From stdpp Require Import gmap list.
From Verif Require Import CallModel CallSpec CallProofs CallExamples.

(** ** C63 *)
(** invoke<Method>(x, args...) *)
Theorem C63_invoke_passes_arguments :
  forall A E s ks ds args (body : list param -> store -> cr A),
  store_wf s -> call_ok s ks ds args -> body_ok body -> passes E s ks ds args body (direct_call E ks ds body args s).
Proof. exact @direct_call_passes. Qed.
Print Assumptions C63_invoke_passes_arguments.
(** x.name(args...) of a method made by the macro *)
Theorem C63_member_function_passes_arguments :
  forall A E s ks ds args (body : list param -> store -> cr A),
  store_wf s -> call_ok s ks ds args -> body_ok body -> passes E s ks ds args body (method_call E ks ds body args s).
Proof. exact @method_call_passes. Qed.
Print Assumptions C63_member_function_passes_arguments.
(** x(args...) with the method call<R(Args...)> *)
Theorem C63_call_operator_passes_arguments :
  forall A E s ks ds args (body : list param -> store -> cr A),
  store_wf s -> call_ok s ks ds args -> body_ok body -> passes E s ks ds args body (call_call E ks ds body args s).
Proof. exact @call_call_passes. Qed.
Print Assumptions C63_call_operator_passes_arguments.
Example C63_ex : store_wf call_s /\ call_ok call_s call_ks call_ds call_args /\ body_ok call_body /\
  (forall E, E = quiet \/ E = quiet_rtl ->
   shown (call_call E call_ks call_ds call_body call_args call_s) =
     Some (Some [(Some 10, false); (Some 11, true); (Some 5, false); (Some 12, false); (Some 7, false)], [(0, 10); (1, 77); (2, 112)], 1)) /\
  shown (method_call fourth call_ks call_ds call_body call_args call_s) = Some (None, [(0, 10); (1, 11); (2, 12)], 1).
Proof.
  split; [apply call_s_wf |]. split; [apply call_args_ok |]. split; [apply call_body_ok |].
  split; [intros E [-> | ->]; by vm_compute | by vm_compute].
Qed.

(** ** C64 *)
(** Full statement: without the hypothesis. *)
Theorem C64_const_operands_need_const_methods_partial :
  forall x m, x <> XAny true true -> invoke_compiles x m = true <-> (operand_const x = true -> m = true).
Proof. exact invoke_compiles_iff. Qed.
Print Assumptions C64_const_operands_need_const_methods_partial.
Theorem C64_const_rvalue_any_refuted :
  exists x, operand_const x = true /\ invoke_compiles x (is_const_method true false) = true.
Proof. exact (ex_intro _ (XAny true true) (conj eq_refl (invoke_const_rvalue false))). Qed.
Print Assumptions C64_const_rvalue_any_refuted.
Theorem C64_const_methods :
  forall selfref selfconst, is_const_method selfref selfconst = true <-> ~ (selfref = true /\ selfconst = false).
Proof. exact const_method_self_ok. Qed.
Print Assumptions C64_const_methods.
Example C64_ex : invoke_compiles (XAny true false) false = false /\ invoke_compiles (XAny false true) false = true /\
  invoke_compiles XCref false = false /\ invoke_compiles XSRef false = true.
Proof. by vm_compute. Qed.
