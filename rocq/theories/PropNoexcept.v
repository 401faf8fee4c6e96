(** Property C98: noexcept specifications. *)
From stdpp Require Import gmap list.
From Verif Require Import TypeListModel TypeListSpec AnyModel AnyInv AnyHistory AnyExec AnyFacts AnyExamples AnyRefuted NoexceptModel NoexceptSpec NoexceptProofs.

(** Full statement: also for construction with force_stable_pointers. *)
Theorem C98_noexcept_operations_return_partial :
  forall E w o, env_wf E -> reachable E w -> pre E w o -> alloc_safe E w o -> declared E o = true ->
  (forall i ms T s nt, o <> OForce i ms T s nt) -> exists w', run E o w = Ok tt w'.
Proof. exact declared_holds. Qed.
Print Assumptions C98_noexcept_operations_return_partial.
(** Full statement: also for the two move constructors and for move assignment without buffer. *)
Theorem C98_other_operations_can_throw_partial :
  forall E o, env_wf E -> declared E o = false ->
  match o with
  | OValue _ _ _ T _ nt => ty_align (e_ty E T) <= max_align -> can_throw_here E (is_value_ctor T nt)
  | OForce _ _ T _ nt => ty_align (e_ty E T) <= max_align -> can_throw_here E (is_force_ctor T nt)
  | OEmplace _ T _ nt => ty_align (e_ty E T) <= max_align -> can_throw_here E (is_emplace T nt)
  | OCopy _ _ _ => can_throw E is_copy_ctor
  | OCopyAssign _ _ _ => can_throw E is_copy_assign
  | OReplace _ _ => can_throw E is_replace
  | OMoveAssign _ _ => e_soos E <> 0 -> can_throw E is_move_assign
  | OSwap _ _ _ => e_soos E <> 0 -> can_throw E is_swap
  | _ => True
  end.
Proof. exact undeclared_can_throw. Qed.
Print Assumptions C98_other_operations_can_throw_partial.
(** whatever the allocator, moving an any into a new one does not throw *)
Theorem C98_move_constructors_cannot_throw :
  forall E, ~ can_throw E is_move_ctor /\ ~ can_throw E is_converting_move.
Proof. intros E. split; [exact (move_cannot_throw E)|exact (converting_move_cannot_throw E)]. Qed.
Print Assumptions C98_move_constructors_cannot_throw.
Theorem C98_move_construction_noexcept_refuted :
  exists E, env_wf E /\ (forall i j, declared E (OMove i j) = false) /\ ~ can_throw E is_move_ctor.
Proof. exact move_undeclared. Qed.
Print Assumptions C98_move_construction_noexcept_refuted.
Theorem C98_converting_move_noexcept_refuted :
  exists E, env_wf E /\ (forall i j ms, declared E (OTransMove i j ms) = false) /\ ~ can_throw E is_converting_move.
Proof. exact converting_undeclared. Qed.
Print Assumptions C98_converting_move_noexcept_refuted.
Theorem C98_move_assignment_without_buffer_refuted :
  exists E, env_wf E /\ (forall i j, declared E (OMoveAssign i j) = false) /\ ~ can_throw E is_move_assign.
Proof. exact no_buffer_undeclared. Qed.
Print Assumptions C98_move_assignment_without_buffer_refuted.
(** the defect of C19 once more *)
Theorem C98_force_stable_pointers_refuted :
  exists E w i ms T s, env_wf E /\ reachable E w /\ pre E w (OForce i ms T s true) /\ e_always_eq E = true /\ run E (OForce i ms T s true) w = Term.
Proof. exact force_terminates. Qed.
Print Assumptions C98_force_stable_pointers_refuted.
(** allocators whose construct calls T(args...) *)
Theorem C98_same_constructor_never_terminates :
  forall E w i al ms T s nt x, env_wf E -> reachable E w -> pre E w (OValue i al ms T s nt) -> eval_arg s w = Ok x w ->
  value_ctor_by E i al ms T x nt nt w <> Term.
Proof. exact same_constructor_never_terminates. Qed.
Print Assumptions C98_same_constructor_never_terminates.
(** allocators that append themselves to the arguments: T(T&&) is noexcept, T(T&&, alloc) throws *)
Theorem C98_constructor_chosen_by_allocator_refuted :
  exists E w i al ms T v, env_wf E /\ reachable E w /\ pre E w (OValue i al ms T (AVal v) true) /\ fits E T = true /\
  value_ctor_by E i al ms T (SVal v) true false w = Term.
Proof. exact by_terminates_refuted. Qed.
Print Assumptions C98_constructor_chosen_by_allocator_refuted.

(** an assignment that is noexcept, and one that is not and throws *)
Example C98_ex : let E := mkE 16 false true false [2; 3; 4; 5] in
  let l := [OValue 0 1 full 3 (AVal 10) false; OValue 1 2 full 5 (AVal 20) true] in
  reachable E (after E l) /\ pre E (after E l) (OMoveAssign 1 0) /\ declared E (OMoveAssign 1 0) = true /\
  declared E (OCopyAssign 1 0 9) = false /\ is_exn (run E (OCopyAssign 1 0 9) (after E l)) = true.
Proof. cbv zeta. split; [apply after_reachable; by vm_compute|]. split; [apply preb_sound; by vm_compute|]. by vm_compute. Qed.
Example C98_ex_class : let E := mkE 16 false false false [] in
  env_wf E /\ e_soos E <> 0 /\ declared E (OMoveAssign 0 1) = false /\ declared E (OEmplace 0 5 (AVal 1) true) = true /\ declared E (OEmplace 0 1 (AVal 1) true) = false.
Proof. cbv zeta. split; [apply mkE_wf|]. by vm_compute. Qed.
Example C98_ex_same : let E := mkE 16 false false false [0] in pre E init_world (OValue 0 1 full 5 (AVal 7) false) /\
  is_exn (value_ctor_by E 0 1 full 5 (SVal 7) false false init_world) = true.
Proof. cbv zeta. split; [apply preb_sound; by vm_compute|]. by vm_compute. Qed.
