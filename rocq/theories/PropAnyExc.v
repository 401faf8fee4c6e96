(** Properties C07, C08, C14, C19: exceptions. *)
From stdpp Require Import gmap list.
From Verif Require Import TypeListModel TypeListSpec AnyModel AnyInv AnyAssign AnyHistory AnyLogSpec AnyExec AnyFacts AnyFacts2
  AnySteal AnyDestroyed AnyExamples AnyRefuted.

(** ** C07 *)
(** a constructor that throws leaves all anys, all blocks (with their content) and all references as they were *)
Theorem C07_constructors_strong_guarantee :
  forall E w w' o, env_wf E -> reachable E w -> is_ctor_op o = true -> pre E w o -> alloc_safe E w o -> run E o w = Exn w' ->
  w_any w' = w_any w /\ w_heap w' = w_heap w /\ w_sref w' = w_sref w.
Proof. exact ctor_strong. Qed.
Print Assumptions C07_constructors_strong_guarantee.

(** the second allocation (tick 2) fails during a copy; the constructor of a value throws (tick 3) after its memory was obtained *)
Example C07_ex_copy : let E := mkE 16 true false false [2] in let l := [OValue 0 0 full 1 (AVal 10) false] in let o := OCopy 1 0 full in
  reachable E (after E l) /\ is_ctor_op o = true /\ pre E (after E l) o /\ alloc_safe E (after E l) o /\
  run E o (after E l) = Exn (after E (l ++ [o])).
Proof.
  cbv zeta. split; [apply after_reachable; by vm_compute|]. split; [done|]. split; [apply preb_sound; by vm_compute|].
  split; [done|]. apply run_exn. by vm_compute.
Qed.
Example C07_ex_value : let E := mkE 16 true false false [3] in let l := [OValue 0 0 full 1 (AVal 10) false] in
  let o := OForce 1 full 2 (AFrom 0) false in let o' := OForce 1 full 1 (AFrom 0) false in
  reachable E (after E l) /\ ~ pre E (after E l) o /\ pre E (after E l) o' /\ run E o' (after E l) = Exn (after E (l ++ [o'])) /\
  count is_malloc (w_log (after E (l ++ [o']))) = 2 /\ count is_free (w_log (after E (l ++ [o']))) = 1.
Proof.
  cbv zeta. split; [apply after_reachable; by vm_compute|].
  split. { intros (_ & _ & _ & _ & x & Hx). by vm_compute in Hx. }
  split; [apply preb_sound; by vm_compute|]. split; [apply run_exn; by vm_compute|]. by vm_compute.
Qed.

(** ** C08 *)
(** Full statement: as below without the condition on the allocator's traits.  It is false, see the
    refutations; what holds is the statement for always-equal and for propagating allocators. *)
Theorem C08_assignment_strong_guarantee_partial :
  forall E w w' i j t, env_wf E -> reachable E w -> e_always_eq E = true \/ e_pocma E = true ->
  (pre E w (OMoveAssign i j) -> run E (OMoveAssign i j) w <> Exn w') /\
  (pre E w (OCopyAssign i j t) -> run E (OCopyAssign i j t) w = Exn w' ->
     w_any w' = w_any w /\ w_heap w' = w_heap w /\ w_sref w' = w_sref w).
Proof. exact assign_strong. Qed.
Print Assumptions C08_assignment_strong_guarantee_partial.

(** for every allocator: whenever the temporary's memory could be taken over *)
Theorem C08_copy_assignment_compatible_partial :
  forall E w w' i j t a b, env_wf E -> reachable E w -> pre E w (OCopyAssign i j t) ->
  w_any w !! i = Some a -> w_any w !! j = Some b -> copy_compat E a b = true ->
  run E (OCopyAssign i j t) w = Exn w' -> w_any w' = w_any w /\ w_heap w' = w_heap w /\ w_sref w' = w_sref w.
Proof. exact copy_assign_strong. Qed.
Print Assumptions C08_copy_assignment_compatible_partial.

(** allocators that differ and do not propagate: the old value is destroyed before memory for the new one is obtained *)
Theorem C08_copy_assignment_loses_value_refuted :
  exists E w w' i j t, env_wf E /\ reachable E w /\ pre E w (OCopyAssign i j t) /\
  alloc_safe E w (OCopyAssign i j t) /\ run E (OCopyAssign i j t) w = Exn w' /\
  content w i = Some (Some (5, 20)) /\ content w' i = Some None.
Proof. exact copy_assign_loses_value. Qed.
Print Assumptions C08_copy_assignment_loses_value_refuted.
Theorem C08_move_assignment_loses_value_refuted :
  exists E w w' i j, env_wf E /\ reachable E w /\ pre E w (OMoveAssign i j) /\
  alloc_safe E w (OMoveAssign i j) /\ run E (OMoveAssign i j) w = Exn w' /\
  content w i = Some (Some (5, 20)) /\ content w' i = Some None.
Proof. exact move_assign_loses_value. Qed.
Print Assumptions C08_move_assignment_loses_value_refuted.
(** and a throwing move constructor ends the program *)
Theorem C08_assignment_terminates_refuted :
  exists E w i j, env_wf E /\ reachable E w /\ pre E w (OMoveAssign i j) /\
  alloc_safe E w (OMoveAssign i j) /\ run E (OMoveAssign i j) w = Term.
Proof. exact assign_terminates. Qed.
Print Assumptions C08_assignment_terminates_refuted.

Example C08_ex : let E := mkE 16 true false false [2] in
  let l := [OValue 0 0 full 1 (AVal 10) false; OValue 1 0 full 5 (AVal 20) true] in let o := OCopyAssign 1 0 9 in
  reachable E (after E l) /\ pre E (after E l) o /\ run E o (after E l) = Exn (after E (l ++ [o])) /\
  content (after E (l ++ [o])) 1 = Some (Some (5, 20)).
Proof.
  cbv zeta. split; [apply after_reachable; by vm_compute|]. split; [apply preb_sound; by vm_compute|].
  split; [apply run_exn; by vm_compute|]. by vm_compute.
Qed.

(** ** C14 *)
(** neither question to the exception oracle nor allocation, hence no exception whatever the types; the
    result is [Ok], hence no termination *)
Theorem C14_move_assignment_never_throws :
  forall E w i j, env_wf E -> reachable E w -> pre E w (OMoveAssign i j) -> e_always_eq E = true \/ e_pocma E = true ->
  exists w', run E (OMoveAssign i j) w = Ok tt w' /\ w_tick w' = w_tick w /\ allocs w' = allocs w.
Proof. exact move_assign_never_throws. Qed.
Print Assumptions C14_move_assignment_never_throws.
Theorem C14_move_construction_never_throws :
  forall E w i j, env_wf E -> reachable E w -> pre E w (OMove i j) ->
  exists w', run E (OMove i j) w = Ok tt w' /\ w_tick w' = w_tick w /\ allocs w' = allocs w.
Proof. exact move_ctor_never_throws. Qed.
Print Assumptions C14_move_construction_never_throws.
Theorem C14_converting_move_never_throws :
  forall E w i j ms, env_wf E -> reachable E w -> pre E w (OTransMove i j ms) -> alloc_safe E w (OTransMove i j ms) ->
  exists w', run E (OTransMove i j ms) w = Ok tt w' /\ w_tick w' = w_tick w /\ allocs w' = allocs w.
Proof. exact trans_move_never_throws. Qed.
Print Assumptions C14_converting_move_never_throws.

(** type 3 has a throwing move constructor; all later actions that may throw would throw *)
Example C14_ex : let E := mkE 16 false true false [2; 3; 4; 5] in
  let l := [OValue 0 1 full 3 (AVal 10) false; OValue 1 2 full 5 (AVal 20) true] in
  reachable E (after E l) /\ pre E (after E l) (OMoveAssign 1 0) /\ e_pocma E = true /\
  content (after E (l ++ [OMoveAssign 1 0])) 1 = Some (Some (3, 10)).
Proof.
  cbv zeta. split; [apply after_reachable; by vm_compute|]. split; [apply preb_sound; by vm_compute|]. by vm_compute.
Qed.

(** ** C19 *)
(** Full statement: the first two cases only.  The third is possible (refutation below). *)
Theorem C19_force_stable_pointers_partial :
  forall E w i ms T s nt, env_wf E -> reachable E w -> pre E w (OForce i ms T s nt) ->
  match run E (OForce i ms T s nt) w with
  | Ok _ w' => (exists v, arg_val w T s = Some v /\ content w' i = Some (Some (T, v))) /\ (exists b, address w' i = Some (PHeap b))
  | Exn w' => True
  | Term => nt && fits E T = true
  | _ => False
  end.
Proof. exact force_ctor_fact. Qed.
Print Assumptions C19_force_stable_pointers_partial.

Theorem C19_allocation_failure_terminates_refuted :
  exists E w i ms T s, env_wf E /\ reachable E w /\ pre E w (OForce i ms T s true) /\
  e_always_eq E = true /\ run E (OForce i ms T s true) w = Term.
Proof. exact force_terminates. Qed.
Print Assumptions C19_allocation_failure_terminates_refuted.

Example C19_ex : let E := mkE 16 true false false [] in let o := OForce 0 full 5 (AVal 3) true in
  reachable E init_world /\ pre E init_world o /\ is_ok (run E o init_world) = true /\ address (after E [o]) 0 = Some (PHeap 0).
Proof. cbv zeta. split; [apply reach_init|]. split; [apply preb_sound; by vm_compute|]. by vm_compute. Qed.
Example C19_ex_exn : let E := mkE 16 true false false [0] in let o := OForce 0 full 1 (AVal 3) false in
  pre E init_world o /\ is_exn (run E o init_world) = true.
Proof. cbv zeta. split; [apply preb_sound; by vm_compute|]. by vm_compute. Qed.
