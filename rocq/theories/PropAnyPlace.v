(** Properties C13, C15, C20: placement. *)
From stdpp Require Import gmap list.
From Verif Require Import TypeListModel TypeListSpec AnyModel AnyInv AnyAssign AnyHistory AnyLogSpec AnyExec AnyFacts AnyFacts2
  AnySteal AnyDestroyed AnyExamples AnyRefuted.

(** ** C13 *)
(** is_stable_pointers() tells whether the value is outside the object *)
Theorem C13_stable_means_heap :
  forall E w i b T x, env_wf E -> reachable E w -> is_stable_pointers i w = Ok b w -> content w i = Some (Some (T, x)) ->
  (b = true <-> exists k, address w i = Some (PHeap k)).
Proof. exact stable_address. Qed.
Print Assumptions C13_stable_means_heap.

Theorem C13_move_construction_keeps_address :
  forall E w w' i j b, env_wf E -> reachable E w -> pre E w (OMove i j) -> run E (OMove i j) w = Ok tt w' ->
  address w j = Some (PHeap b) -> address w' i = Some (PHeap b).
Proof. exact move_keeps_address. Qed.
Print Assumptions C13_move_construction_keeps_address.

(** Full statement: for all allocator traits.  False for allocators that differ and do not propagate. *)
Theorem C13_move_assignment_keeps_address_partial :
  forall E w w' i j b, env_wf E -> reachable E w -> pre E w (OMoveAssign i j) -> e_always_eq E = true \/ e_pocma E = true ->
  run E (OMoveAssign i j) w = Ok tt w' -> address w j = Some (PHeap b) -> address w' i = Some (PHeap b).
Proof. exact move_assign_keeps_address. Qed.
Print Assumptions C13_move_assignment_keeps_address_partial.
Theorem C13_move_assignment_moves_value_refuted :
  exists E w w' i j, env_wf E /\ reachable E w /\ pre E w (OMoveAssign i j) /\ alloc_safe E w (OMoveAssign i j) /\
  val_of (is_stable_pointers j w) = Some true /\ run E (OMoveAssign i j) w = Ok tt w' /\
  content w' i = content w j /\ address w' i <> address w j.
Proof. exact stable_pointer_moves. Qed.
Print Assumptions C13_move_assignment_moves_value_refuted.

(** what makes values stable *)
Theorem C13_no_buffer_means_stable :
  forall E w i p, env_wf E -> reachable E w -> e_soos E = 0 -> address w i = Some p -> exists b, p = PHeap b.
Proof. exact no_buffer_stable. Qed.
Print Assumptions C13_no_buffer_means_stable.
Theorem C13_forced_means_stable :
  forall E w i ms T s nt, env_wf E -> reachable E w -> pre E w (OForce i ms T s nt) ->
  match run E (OForce i ms T s nt) w with
  | Ok _ w' => (exists v, arg_val w T s = Some v /\ content w' i = Some (Some (T, v))) /\ (exists b, address w' i = Some (PHeap b))
  | Exn w' => True
  | Term => nt && fits E T = true
  | _ => False
  end.
Proof. exact force_ctor_fact. Qed.
Print Assumptions C13_forced_means_stable.
(** the documented member answers for the memory of the any, also when it is empty *)
Theorem C13_is_stable_pointers_iff_owns_memory :
  forall E w i, env_wf E -> reachable E w -> is_Some (w_any w !! i) ->
  exists s, is_stable_pointers i w = Ok s w /\ (s = true <-> exists b, owns w i b).
Proof. exact is_stable_iff. Qed.
Print Assumptions C13_is_stable_pointers_iff_owns_memory.

Example C13_ex : let w := after tourE tour in let w' := after tourE (tour ++ [OMoveAssign 1 10]) in
  reachable tourE w /\ pre tourE w (OMoveAssign 1 10) /\ run tourE (OMoveAssign 1 10) w = Ok tt w' /\
  val_of (is_stable_pointers 10 w) = Some true /\ val_of (is_stable_pointers 5 w) = Some false /\
  address w 10 = Some (PHeap 16) /\ content w 10 = Some (Some (0, 50)) /\ address w' 1 = Some (PHeap 16).
Proof.
  cbv zeta. split; [apply after_reachable; by vm_compute|]. split; [apply preb_sound; by vm_compute|].
  split; [apply run_ok; by vm_compute|]. by vm_compute.
Qed.
Example C13_ex_no_buffer : let E := mkE 0 true false false [] in let l := [OValue 0 0 full 0 (AVal 3) true] in
  reachable E (after E l) /\ address (after E l) 0 = Some (PHeap 0).
Proof. cbv zeta. split; [apply after_reachable; by vm_compute|]. by vm_compute. Qed.

(** ** C15 *)
Theorem C15_construction_placement :
  forall E w i al ms T s nt, env_wf E -> reachable E w -> pre E w (OValue i al ms T s nt) ->
  match run E (OValue i al ms T s nt) w with
  | Ok _ w' => (exists v, arg_val w T s = Some v /\ content w' i = Some (Some (T, v))) /\
      (if fits E T then address w' i = Some (PData i) /\ allocs w' = allocs w
       else (exists b, address w' i = Some (PHeap b)) /\ allocs w' = S (allocs w))
  | Exn w' => fits E T && nt = false
  | _ => False
  end.
Proof. exact value_ctor_fact. Qed.
Print Assumptions C15_construction_placement.
Theorem C15_copy_placement :
  forall E w w' i j ms T x, env_wf E -> reachable E w -> pre E w (OCopy i j ms) -> run E (OCopy i j ms) w = Ok tt w' ->
  content w j = Some (Some (T, x)) ->
  if fits E T then address w' i = Some (PData i) /\ allocs w' = allocs w
  else (exists b, address w' i = Some (PHeap b)) /\ allocs w' = S (allocs w).
Proof. exact copy_placement. Qed.
Print Assumptions C15_copy_placement.
(** copying a small value fails only if its own copy constructor does *)
Theorem C15_small_copy_cannot_run_out_of_memory :
  forall E w i j ms T x, env_wf E -> reachable E w -> pre E w (OCopy i j ms) ->
  content w j = Some (Some (T, x)) -> fits E T = true -> ty_tcopy (e_ty E T) || ty_ntcopy (e_ty E T) = true ->
  exists w', run E (OCopy i j ms) w = Ok tt w'.
Proof. exact copy_no_throw. Qed.
Print Assumptions C15_small_copy_cannot_run_out_of_memory.
(** move construction never allocates, for all types: C14_move_construction_never_throws.
    Full statement for move assignment: every small value.  False for a small value that lives on the heap
    (force_stable_pointers) when the allocators differ and do not propagate; proved for values in the buffer. *)
Theorem C15_move_assignment_partial :
  forall E w w' i j k, env_wf E -> reachable E w -> pre E w (OMoveAssign i j) -> alloc_safe E w (OMoveAssign i j) -> i <> j ->
  address w j = Some (PData k) -> outcome E (OMoveAssign i j) w w' ->
  run E (OMoveAssign i j) w = Ok tt w' -> allocs w' = allocs w /\ address w' i = Some (PData i).
Proof. exact move_assign_small. Qed.
Print Assumptions C15_move_assignment_partial.
Theorem C15_small_heap_value_allocates_refuted :
  exists E w w' i j T x, env_wf E /\ reachable E w /\ pre E w (OMoveAssign i j) /\ alloc_safe E w (OMoveAssign i j) /\
  content w j = Some (Some (T, x)) /\ fits E T = true /\ run E (OMoveAssign i j) w = Ok tt w' /\ allocs w' <> allocs w.
Proof. exact small_move_allocates. Qed.
Print Assumptions C15_small_heap_value_allocates_refuted.
(** conversely: what is in a buffer is nothrow movable, small and not over-aligned, and in its own any's buffer *)
Theorem C15_only_small_values_in_buffers :
  forall E w i k T x, env_wf E -> reachable E w -> address w i = Some (PData k) -> content w i = Some (Some (T, x)) ->
  k = i /\ ty_ntmove (e_ty E T) = true /\ ty_size (e_ty E T) <= e_soos E /\ ty_align (e_ty E T) <= max_align.
Proof. exact buffer_fits. Qed.
Print Assumptions C15_only_small_values_in_buffers.

Example C15_ex : let w := after tourE tour in reachable tourE w /\ pre tourE w (OCopy 11 5 part) /\
  content w 5 = Some (Some (5, 40)) /\ fits tourE 5 = true /\ address w 5 = Some (PData 5) /\
  pre tourE w (OMoveAssign 5 8) /\ alloc_safe tourE w (OMoveAssign 5 8) /\ is_ok (run tourE (OMoveAssign 5 8) w) = true /\
  pre tourE w (OValue 11 0 full 5 (AVal 3) true) /\ fits tourE 1 = false /\ fits tourE 3 = false.
Proof.
  cbv zeta. split; [apply after_reachable; by vm_compute|]. split; [apply preb_sound; by vm_compute|].
  do 3 (split; [by vm_compute|]). split; [apply preb_sound; by vm_compute|]. split; [apply alloc_safeb_sound; by vm_compute|].
  split; [by vm_compute|]. split; [apply preb_sound; by vm_compute|]. by vm_compute.
Qed.

(** ** C20 *)
(** Full statement: every contained object is aligned for its type.  Both the buffer and memory from the
    allocator are aligned to max_align_t only, so over-aligned types have to be excluded: with the
    obligation [ty_align <= max_align] on constructions it holds in every reachable state. *)
Theorem C20_contained_objects_aligned_partial :
  forall E w i T x, env_wf E -> reachable E w -> content w i = Some (Some (T, x)) -> ty_align (e_ty E T) <= max_align.
Proof. exact aligned. Qed.
Print Assumptions C20_contained_objects_aligned_partial.
(** objects in a buffer are aligned without any such obligation: over-aligned types do not fit *)
Theorem C20_buffer_never_misaligned :
  forall E w i k T x, env_wf E -> reachable E w -> address w i = Some (PData k) -> content w i = Some (Some (T, x)) ->
  k = i /\ ty_ntmove (e_ty E T) = true /\ ty_size (e_ty E T) <= e_soos E /\ ty_align (e_ty E T) <= max_align.
Proof. exact buffer_fits. Qed.
Print Assumptions C20_buffer_never_misaligned.
(** whenever an any is constructed from a value of an over-aligned type and memory is available *)
Theorem C20_over_aligned_misplaced_refuted :
  forall E w i al ms T v nt, w_any w !! i = None -> max_align < ty_align (e_ty E T) ->
  e_throws E (w_tick w) = false -> run E (OValue i al ms T (AVal v) nt) w = UB UbMisaligned.
Proof. exact over_aligned_misplaced. Qed.
Print Assumptions C20_over_aligned_misplaced_refuted.

Example C20_ex : let E := mkE 64 true false false [] in let l := [OValue 0 0 full 5 (AVal 3) true] in
  reachable E (after E l) /\ content (after E l) 0 = Some (Some (5, 3)) /\
  max_align < ty_align (e_ty E 4) /\ is_ok (run E (OValue 1 0 full 4 (AVal 3) true) (after E l)) = false.
Proof.
  cbv zeta. split; [apply after_reachable; by vm_compute|]. split; [by vm_compute|]. split; [apply Nat.ltb_lt; by vm_compute|]. by vm_compute.
Qed.
