(** Properties C01, C02, C03, C22: safety of all histories. *)
From stdpp Require Import gmap list.
From Verif Require Import TypeListModel TypeListSpec AnyModel AnyInv AnyAssign AnyHistory AnyLogSpec AnyExec AnyFacts AnyFacts2
  AnySteal AnyDestroyed AnyExamples AnyRefuted.

(** ** C01 *)
Theorem C01_no_undefined_behaviour :
  forall E l r, env_wf E -> e_always_eq E = true -> allowed E l init_world -> exec E l init_world <> UB r.
Proof. exact memory_safe. Qed.
Print Assumptions C01_no_undefined_behaviour.

(** and the only way such a program can be terminated is the defect of C19 *)
Theorem C01_terminates_only_in_force_stable :
  forall E l, env_wf E -> e_always_eq E = true -> allowed E l init_world -> exec E l init_world = Term ->
  exists i ms T s, In (OForce i ms T s true) l /\ fits E T = true.
Proof. exact terminates_only_force. Qed.
Print Assumptions C01_terminates_only_in_force_stable.

(** 24 operations on 11 anys, two of which fail with an exception, then 10 destructions *)
Example C01_ex : env_wf tourE /\ e_always_eq tourE = true /\ allowed tourE (tour ++ wreck) init_world /\
  exists w, exec tourE (tour ++ wreck) init_world = Ok tt w /\ w_any w = ∅ /\ length (w_log w) = 34.
Proof.
  split; [apply mkE_wf|]. split; [done|]. split; [apply legalb_sound; by vm_compute|].
  exists (after tourE (tour ++ wreck)). split; [apply exec_after; by vm_compute|]. split; [apply map_size_empty_inv|]; by vm_compute.
Qed.
(** the checks of the model are not vacuous: the same operations in a wrong order are undefined *)
Example C01_ex_ub : exec tourE [OValue 0 0 full 1 (AVal 10) false; OInvoke 0 0 3; ODtor 0; OInvoke 0 0 3] init_world = UB UbNoSuchAny.
Proof. by vm_compute. Qed.
Example C01_ex_empty : exec tourE [OValue 0 0 full 1 (AVal 10) false; OMove 1 0; OInvoke 0 0 3] init_world = UB UbNullVtable.
Proof. by vm_compute. Qed.

(** ** C02 *)
Theorem C02_outstanding_blocks_have_one_owner :
  forall E w, env_wf E -> reachable E w ->
  exists m, blocks (fun a b => alloc_eqb E a b = true) (w_log w) m /\
    (forall b, is_Some (m !! b) <-> exists i, owns w i b) /\
    (forall b i j, owns w i b -> owns w j b -> i = j).
Proof. exact blocks_owned. Qed.
Print Assumptions C02_outstanding_blocks_have_one_owner.

Theorem C02_nothing_left_when_all_destroyed :
  forall E w, env_wf E -> reachable E w -> w_any w = ∅ ->
  blocks (fun a b => alloc_eqb E a b = true) (w_log w) ∅ /\ count is_malloc (w_log w) = count is_free (w_log w).
Proof. exact no_leak. Qed.
Print Assumptions C02_nothing_left_when_all_destroyed.

(** every program with interchangeable allocators gives such a state *)
Theorem C02_every_program_is_covered :
  forall E l w, e_always_eq E = true -> allowed E l init_world -> exec E l init_world = Ok tt w -> reachable E w.
Proof. exact every_program. Qed.
Print Assumptions C02_every_program_is_covered.

Example C02_ex : reachable tourE (after tourE tour) /\
  (count is_malloc (w_log (after tourE tour)), count is_free (w_log (after tourE tour))) = (6, 1) /\
  owns (after tourE tour) 0 0 /\ owns (after tourE tour) 3 3 /\ is_empty (after tourE tour) 3.
Proof.
  split; [apply after_reachable; by vm_compute|]. split; [by vm_compute|].
  split; [eexists; by vm_compute|]. split; [eexists; by vm_compute|by vm_compute].
Qed.
Example C02_ex2 : reachable tourE (after tourE (tour ++ wreck)) /\ w_any (after tourE (tour ++ wreck)) = ∅ /\
  count is_malloc (w_log (after tourE (tour ++ wreck))) = 6.
Proof. split; [apply after_reachable; by vm_compute|]. split; [apply map_size_empty_inv|]; by vm_compute. Qed.

(** ** C03 *)
Theorem C03_constructed_is_destroyed_or_held :
  forall E w, env_wf E -> reachable E w ->
  exists m, objects (w_log w) m /\
    (forall id T, m !! id = Some T <-> exists i, held E w !! i = Some (id, T)) /\
    (forall i j id T T', held E w !! i = Some (id, T) -> held E w !! j = Some (id, T') -> i = j) /\
    count is_ctor (w_log w) = count is_dtor (w_log w) + size (held E w).
Proof. exact objects_held. Qed.
Print Assumptions C03_constructed_is_destroyed_or_held.

Theorem C03_each_object_destroyed_once :
  forall E w id T, env_wf E -> reachable E w -> In (EvCtor id T) (w_log w) ->
  ((exists i, held E w !! i = Some (id, T)) /\ dtors_of id (w_log w) = 0) \/
  ((forall i T', held E w !! i <> Some (id, T')) /\ dtors_of id (w_log w) = 1).
Proof. exact destroyed_once. Qed.
Print Assumptions C03_each_object_destroyed_once.

Theorem C03_all_destroyed_in_the_end :
  forall E w, env_wf E -> reachable E w -> w_any w = ∅ -> count is_ctor (w_log w) = count is_dtor (w_log w).
Proof. exact all_destroyed. Qed.
Print Assumptions C03_all_destroyed_in_the_end.

Example C03_ex : reachable tourE (after tourE tour) /\
  (count is_ctor (w_log (after tourE tour)), count is_dtor (w_log (after tourE tour)), size (held tourE (after tourE tour))) = (11, 5, 6).
Proof. split; [apply after_reachable; by vm_compute|]. by vm_compute. Qed.

(** ** C22 *)
Theorem C22_other_objects_unchanged :
  forall E w w' o k, env_wf E -> reachable E w -> pre E w o -> alloc_safe E w o -> outcome E o w w' ->
  k ∉ touches o -> content w' k = content w k /\ address w' k = address w k /\ contained w' k = contained w k.
Proof. exact frame. Qed.
Print Assumptions C22_other_objects_unchanged.

Theorem C22_programs_touch_only_what_they_name :
  forall E l w w' k, env_wf E -> reachable E w -> allowed_alloc E l w -> exec E l w = Ok tt w' ->
  (forall o, In o l -> k ∉ touches o) -> content w' k = content w k /\ address w' k = address w k.
Proof. exact exec_frame. Qed.
Print Assumptions C22_programs_touch_only_what_they_name.

Example C22_ex : let w := after tourE tour in let w' := after tourE (tour ++ [OCopyAssign 0 4 9]) in
  reachable tourE w /\ pre tourE w (OCopyAssign 0 4 9) /\ alloc_safe tourE w (OCopyAssign 0 4 9) /\ outcome tourE (OCopyAssign 0 4 9) w w' /\
  4 ∉ touches (OCopyAssign 0 4 9) /\ content w' 4 = Some (Some (1, 10)) /\ address w' 4 = Some (PHeap 14).
Proof.
  cbv zeta. split; [apply after_reachable; by vm_compute|]. split; [apply preb_sound; by vm_compute|].
  split; [apply alloc_safeb_sound; by vm_compute|]. split; [left; apply run_ok; by vm_compute|]. split; [cbn; set_solver|]. by vm_compute.
Qed.
