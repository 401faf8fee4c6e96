(** Properties C18, C21: materialize, arguments that refer to contained values. *)
From stdpp Require Import gmap list.
From Verif Require Import TypeListModel TypeListSpec AnyModel AnyInv AnyAssign AnyHistory AnyLogSpec AnyExec AnyFacts AnyFacts2
  AnySteal AnyDestroyed AnyExamples AnyRefuted.

(** ** C18 *)
(** Full statement: [pre] without the conditions that copies do not need the allocator and that the copy cannot
    fail (or has nothing to destroy) and without the obligation that the stateful reference outlives the result. *)
Theorem C18_materialize_partial :
  forall E w i al x, env_wf E -> reachable E w -> pre E w (OMaterialize i al x) ->
  match run E (OMaterialize i al x) w with
  | Ok _ w' => exists c, ref_val w x = Some c /\ content w' i = Some (Some c)
  | Exn w' => w_any w' = w_any w /\ w_heap w' = w_heap w
  | _ => False
  end.
Proof. exact materialize_fact. Qed.
Print Assumptions C18_materialize_partial.
(** the copy constructor throws: the destructor of the unfinished result destroys an object that never existed *)
Theorem C18_throwing_copy_refuted :
  exists E w i al x, env_wf E /\ e_always_eq E = true /\ reachable E w /\
  w_any w !! i = None /\ (exists ms T, denotes w x ms T /\ In MDestroy ms /\ In (MCopy true) ms /\ ty_align (e_ty E T) <= max_align) /\
  run E (OMaterialize i al x) w = UB UbNoObject.
Proof. exact materialize_exception_ub. Qed.
Print Assumptions C18_throwing_copy_refuted.
(** the same when memory runs out *)
Theorem C18_bad_alloc_refuted :
  exists E w i al x, env_wf E /\ e_always_eq E = true /\ reachable E w /\
  w_any w !! i = None /\ (exists ms T, denotes w x ms T /\ In MDestroy ms /\ In (MCopy true) ms /\ ty_align (e_ty E T) <= max_align) /\
  run E (OMaterialize i al x) w = UB UbNoObject.
Proof. exact materialize_bad_alloc_ub. Qed.
Print Assumptions C18_bad_alloc_refuted.
(** allocators with state: the allocator is passed where its address is expected *)
Theorem C18_stateful_allocator_refuted :
  exists E w i al x, env_wf E /\ reachable E w /\
  w_any w !! i = None /\ (exists ms T, denotes w x ms T /\ In MDestroy ms /\ In (MCopy true) ms /\ ty_align (e_ty E T) <= max_align /\
    fits E T && ty_ntcopy (e_ty E T) = true) /\
  run E (OMaterialize i al x) w = UB UbIllFormed.
Proof. exact materialize_stateful_ill_formed. Qed.
Print Assumptions C18_stateful_allocator_refuted.
(** materialized from a stateful reference, the result uses the table inside the reference *)
Theorem C18_result_dangles_refuted :
  exists E w w' i r, env_wf E /\ e_always_eq E = true /\ reachable E w /\
  (exists T x, content w i = Some (Some (T, x))) /\ run E (ODropSref r) w = Ok tt w' /\
  run E (ODtor i) w' = UB UbDanglingVtable.
Proof. exact materialize_dangles. Qed.
Print Assumptions C18_result_dangles_refuted.

Example C18_ex : let w := after tourE tour in let o := OMaterialize 11 0 (RAny 5 part) in
  reachable tourE w /\ pre tourE w o /\ is_ok (run tourE o w) = true /\
  ref_val w (RAny 5 part) = Some (5, 40) /\ content (after tourE (tour ++ [o])) 11 = Some (Some (5, 40)).
Proof.
  cbv zeta. split; [apply after_reachable; by vm_compute|]. split; [apply preb_sound; by vm_compute|]. by vm_compute.
Qed.

(** ** C21 *)
(** arguments may refer to values held by other anys ([AFrom k]; [arg_val] is the value referred to).
    Full statement: also [k = i], which [pre] excludes. *)
Theorem C21_emplace_from_other_partial :
  forall E w i T s nt, env_wf E -> reachable E w -> pre E w (OEmplace i T s nt) ->
  match run E (OEmplace i T s nt) w with
  | Ok _ w' => exists v, arg_val w T s = Some v /\ content w' i = Some (Some (T, v))
  | Exn w' => is_empty w' i
  | _ => False
  end.
Proof. exact emplace_fact. Qed.
Print Assumptions C21_emplace_from_other_partial.
Theorem C21_emplace_from_self_refuted :
  exists E w i T x, env_wf E /\ e_always_eq E = true /\ reachable E w /\
  content w i = Some (Some (T, x)) /\ ty_align (e_ty E T) <= max_align /\
  run E (OEmplace i T (AFrom i) false) w = UB UbNoObject.
Proof. exact self_argument_ub. Qed.
Print Assumptions C21_emplace_from_self_refuted.

Example C21_ex : let w := after tourE tour in let o := OEmplace 1 1 (AFrom 0) false in
  reachable tourE w /\ pre tourE w o /\ arg_val w 1 (AFrom 0) = Some 10 /\ is_ok (run tourE o w) = true /\
  content (after tourE (tour ++ [o])) 1 = Some (Some (1, 10)) /\ content (after tourE (tour ++ [o])) 0 = Some (Some (1, 10)).
Proof.
  cbv zeta. split; [apply after_reachable; by vm_compute|]. split; [apply preb_sound; by vm_compute|]. by vm_compute.
Qed.
