(** Allocator-aware values in anys (C92). *)
From stdpp Require Import gmap list.
From Verif Require Import InnerModel InnerSpec InnerProofs InnerExamples.

(** a value built in an any uses the any's allocator, whatever was there before *)
Theorem C92_built_in_place : forall E o i T w w', builds o i T -> run E o w = Ok tt w' ->
  exists v, value_of w' i = Some v /\ v_ty v = T /\ (e_aware E T = true -> v_res v = alloc_of w' i) /\ (e_aware E T = false -> v_res v = None).
Proof. exact built_in_place. Qed.
Print Assumptions C92_built_in_place.
(** moved, it keeps the resource it had; copied, it gets what its own allocator selects *)
Theorem C92_moved : forall E o i j w w' v, moves o i j -> i <> j -> value_of w j = Some v -> run E o w = Ok tt w' ->
  exists v', value_of w' i = Some v' /\ v_ty v' = v_ty v /\ v_res v' = v_res v.
Proof. exact moves_keep. Qed.
Print Assumptions C92_moved.
Theorem C92_copied : forall E o i j w w' v, copies o i j -> value_of w j = Some v -> run E o w = Ok tt w' ->
  exists v', value_of w' i = Some v' /\ v_ty v' = v_ty v /\ v_res v' = e_socc E <$> v_res v.
Proof. exact copies_select. Qed.
Print Assumptions C92_copied.
(** programs in which resources outlive the anys made with them, and in which no value changes hands between anys whose allocators differ and
    stay: nothing goes wrong, every value uses its any's resource, and that is there *)
Theorem C92_programs_partial : forall E, stateless_copies E -> forall l, meets E (fun w o => contract E w o /\ agreeing E w o) l start ->
  exists w, exec E l start = Ok tt w /\ agree E w /\ supplied E w.
Proof. exact programs_agree. Qed.
Print Assumptions C92_programs_partial.
(** otherwise: always, when neither propagates nor is equal *)
Theorem C92_move_assignment_refuted : forall E i j w w' v a r, i <> j -> e_always_eq E = false -> e_pocma E = false ->
  alloc_of w i = Some a -> value_of w j = Some v -> v_res v = Some r -> run E (OMoveAssign i j) w = Ok tt w' ->
  exists v', alloc_of w' i = Some a /\ value_of w' i = Some v' /\ v_res v' = Some r.
Proof. exact move_assign_disagrees. Qed.
Print Assumptions C92_move_assignment_refuted.
(** and with std::pmr the any outlives the memory of its value, though the resource outlived the any it was made with *)
Theorem C92_programs_refuted : exists E l, stateless_copies E /\ meets E (contract E) l start /\ exec E l start = UB BadDead.
Proof.
  exists pmr, moved_away. split; [done|]. split; [|by vm_compute]. apply (meetsb_sound _ (contractb pmr)); [apply contractb_sound|by vm_compute].
Qed.
Print Assumptions C92_programs_refuted.
Theorem C92_copy_assignment_refuted : exists E l i j t, stateless_copies E /\ In (OCopyAssign i j t) l /\ (forall i j, ~ In (OMoveAssign i j) l) /\
  meets E (contract E) l start /\ exec E l start = UB BadDead.
Proof.
  exists pmr_staying, copied_away, 1, 0, 9. split; [done|]. split; [by vm_compute; tauto|]. split; [by vm_compute; intuition discriminate|]. split; [|by vm_compute].
  apply (meetsb_sound _ (contractb pmr_staying)); [apply contractb_sound|by vm_compute].
Qed.
Print Assumptions C92_copy_assignment_refuted.
Theorem C92_conversion_refuted : exists E l i j, stateless_copies E /\ In (OTransMove i j) l /\ (forall i j, ~ In (OMoveAssign i j) l) /\
  meets E (contract E) l start /\ exec E l start = UB BadDead.
Proof.
  exists pmr, converted_away, 1, 0. split; [done|]. split; [by vm_compute; tauto|]. split; [by vm_compute; intuition discriminate|]. split; [|by vm_compute].
  apply (meetsb_sound _ (contractb pmr)); [apply contractb_sound|by vm_compute].
Qed.
Print Assumptions C92_conversion_refuted.
(** what allocator_traits::construct made is not destroyed by allocator_traits::destroy *)
Theorem C92_destroyed_by_the_allocator_refuted : exists E l w al, meets E (contract E) l start /\ exec E l start = Ok tt w /\
  In (Ended (ByAllocator al) false) (w_ended w).
Proof.
  exists pmr, [OValue 0 1 1; ODtor 0]. eexists _, 1. split; [apply (meetsb_sound _ (contractb pmr)); [apply contractb_sound|by vm_compute]|].
  split; [vm_compute; reflexivity|by left].
Qed.
Print Assumptions C92_destroyed_by_the_allocator_refuted.

Example C92_ex :
  meets pmr_moving (fun w o => contract pmr_moving w o /\ agreeing pmr_moving w o) kept_together start /\
  exists w, exec pmr_moving kept_together start = Ok tt w /\
    value_of w 1 = Some (Value 0 (Some 1) Directly) /\ alloc_of w 1 = Some 1 /\ value_of w 5 = Some (Value 2 (Some 0) (ByAllocator 0)).
Proof.
  split.
  - apply (meetsb_sound _ (fun w o => contractb pmr_moving w o && agreeingb pmr_moving w o)); [|by vm_compute].
    intros w o. rewrite andb_true_iff. intros [? ?]. split; [by apply contractb_sound|by apply agreeingb_sound].
  - eexists. split; [vm_compute; reflexivity|]. by vm_compute.
Qed.
(** a list emplaced with resource 1, moved into an any of resource 2; and the copy of a list made with resource 1 *)
Example C92_single :
  (exists w, exec pmr [ODefault 0 1; OEmplace 0 0; ODefault 1 2] start = Ok tt w /\ value_of w 0 = Some (Value 0 (Some 1) (ByAllocator 1)) /\
     exists w', run pmr (OMoveAssign 1 0) w = Ok tt w' /\ alloc_of w' 1 = Some 2 /\ value_of w' 1 = Some (Value 0 (Some 1) Directly)) /\
  (exists w, exec pmr [OValue 0 1 0; OCopy 1 0] start = Ok tt w /\ alloc_of w 1 = Some 0 /\ value_of w 1 = Some (Value 0 (Some 0) Directly)).
Proof. split; (eexists; split; [vm_compute; reflexivity|]); [split; [by vm_compute|]; eexists; split; [vm_compute; reflexivity|]; by vm_compute|by vm_compute]. Qed.
