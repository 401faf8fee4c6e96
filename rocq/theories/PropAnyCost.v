(** Properties C90, C91: what operations write, what they construct. *)
From stdpp Require Import gmap list.
From Verif Require Import TypeListModel TypeListSpec AnyModel AnyInv AnyHistory AnyExec AnyFacts AnyExamples AnyCostSpec PolyModel PolySpec PolyExamples
  AnyCost.

(** ** C90 *)
(** questions about anys and views, casts, comparisons and hashes *)
Theorem C90_observers_write_nothing :
  forall E O i T (l r : operand) (p q : pval) (c : cur) (b : bool) s m,
  writes_nothing (sizeof_now E i) /\ writes_nothing (capacity E i) /\ writes_nothing (is_stable_pointers i) /\
  writes_nothing (op_has_value l) /\ writes_nothing (op_desc O l) /\ writes_nothing (view_desc O c) /\ writes_nothing (op_slot l m) /\
  writes_nothing (cast_any O (Some i) T) /\ writes_nothing (cast_any_ref O i T) /\ writes_nothing (cast_ptr O p T) /\
  writes_nothing (cast_ref O p T) /\ writes_nothing (cast_state O b s T) /\
  writes_nothing (eq_op O l r) /\ writes_nothing (cmp_spaceship O l r) /\ writes_nothing (hash_op O l) /\ writes_nothing (compare_ptrs O p q).
Proof. exact observers_write_nothing. Qed.
Print Assumptions C90_observers_write_nothing.
(** making references and pointers from anys and from each other *)
Theorem C90_views_write_nothing :
  forall O o l, plain_origin o -> Forall plain_step l -> writes_nothing (let! c := start O o in run_steps O l c).
Proof. exact views_write_nothing. Qed.
Print Assumptions C90_views_write_nothing.
(** constructing an any, also from another any or from a reference to one, writes only the new any and its own memory *)
Theorem C90_constructing_keeps_old_memory :
  forall E w w' o, env_wf E -> reachable E w -> pre E w o -> only_creates o -> outcome E o w w' -> old_memory_kept w w'.
Proof. exact creating_keeps_old_memory. Qed.
Print Assumptions C90_constructing_keeps_old_memory.
(** no program writes an any it does not name, nor the memory of that any *)
Theorem C90_programs_write_only_what_they_name :
  forall E l w w' k a, env_wf E -> reachable E w -> allowed_alloc E l w -> exec E l w = Ok tt w' ->
  w_any w !! k = Some a -> (forall o, In o l -> k ∉ touches o) ->
  w_any w' !! k = Some a /\ forall b, owns w k b -> w_heap w' !! b = w_heap w !! b.
Proof. exact program_leaves_memory. Qed.
Print Assumptions C90_programs_write_only_what_they_name.

Example C90_ex : let w := after tourE tour in let w' := after tourE (tour ++ [OCopy 11 10 part]) in
  reachable tourE w /\ pre tourE w (OCopy 11 10 part) /\ only_creates (OCopy 11 10 part) /\
  outcome tourE (OCopy 11 10 part) w w' /\ address w 10 = Some (PHeap 16) /\ content w' 11 = content w 10 /\ content w 10 = Some (Some (0, 50)).
Proof.
  cbv zeta. split; [apply after_reachable; by vm_compute|]. split; [apply preb_sound; by vm_compute|]. split; [done|].
  split; [left; apply run_ok; by vm_compute|]. by vm_compute.
Qed.
Example C90_ex_observers : reachable obsE obs_w /\
  val_of (cast_any obs0 (Some 0) 1 obs_w) = Some (address obs_w 0) /\ is_Some (address obs_w 0) /\
  val_of (eq_op obs0 (OpAny 0) (OpAny 1) obs_w) = Some true /\ val_of (cmp_spaceship obs0 (OpAny 4) (OpAny 5) obs_w) = Some (Some Lt) /\
  val_of (hash_op obs0 (OpAny 0) obs_w) = Some 11 /\
  val_of (viewed (OAddr 0) [Deref; ToRef eqs; AddrOf; ToCPtr eqs] (view_desc obs0) obs_w) = Some (desc0 (Some 1)) /\
  Forall plain_step [Deref; ToRef eqs; AddrOf; ToCPtr eqs].
Proof. split; [apply obs_w_reachable|]. do 6 (split; [by vm_compute; eauto|]). by repeat constructor. Qed.
Example C90_ex_program : let l := [OEmplace 0 0 (AFrom 10) false; OMove 11 5; OSwap 0 4 9] in let w := after tourE tour in
  reachable tourE w /\ allowed_alloc tourE l w /\ is_ok (exec tourE l w) = true /\ (forall o, In o l -> 10 ∉ touches o) /\ owns w 10 16.
Proof.
  cbv zeta. split; [apply after_reachable; by vm_compute|]. split; [apply allowedb_sound; by vm_compute|]. split; [by vm_compute|].
  split; [|by vm_compute; eauto]. intros o Ho. repeat (destruct Ho as [<-|Ho]; [apply (bool_decide_unpack _); by vm_compute|]). done.
Qed.

(** ** C91 *)
(** whether an operation succeeds or throws: objects of all types, constructor calls of types with a destructor, blocks of memory *)
Theorem C91_budget :
  forall E o w w', outcome E o w w' ->
  (made w <= made w' <= made w + Z.of_nat (most_objects o))%Z /\ ctors w' <= ctors w + most_objects o /\
  allocs w <= allocs w' <= allocs w + most_blocks o.
Proof. exact budget. Qed.
Print Assumptions C91_budget.
(** the value is constructed in place, a copy is made by one copy construction *)
Theorem C91_constructed_in_place :
  forall E o w w', makes_one w o -> run E o w = Ok tt w' -> made w' = (made w + 1)%Z.
Proof. exact one_made. Qed.
Print Assumptions C91_constructed_in_place.
(** values on the heap change hands without a move *)
Theorem C91_move_construction_steals :
  forall E w w' i j b, env_wf E -> reachable E w -> pre E w (OMove i j) -> run E (OMove i j) w = Ok tt w' ->
  address w j = Some (PHeap b) -> made w' = made w /\ contained w' i = contained w j.
Proof. exact move_ctor_steals. Qed.
Print Assumptions C91_move_construction_steals.
Theorem C91_move_assignment_steals :
  forall E w w' i j b, env_wf E -> reachable E w -> pre E w (OMoveAssign i j) ->
  e_always_eq E = true \/ e_pocma E = true -> run E (OMoveAssign i j) w = Ok tt w' ->
  address w j = Some (PHeap b) -> made w' = made w /\ contained w' i = contained w j.
Proof. exact move_assign_steals. Qed.
Print Assumptions C91_move_assignment_steals.

Example C91_ex : let w := after tourE tour in
  let after1 o := after tourE (tour ++ [o]) in
  reachable tourE w /\ made (after1 (OCopy 11 8 part)) = (made w + 1)%Z /\ made (after1 (OEmplace 5 5 (AVal 3) true)) = (made w + 1)%Z /\
  made (after1 (OSwap 5 8 9)) = (made w + 3)%Z /\ ctors (after1 (OSwap 5 8 9)) = ctors w + 3 /\
  made (after1 (OCopyAssign 5 8 9)) = (made w + 2)%Z /\
  allocs (after1 (OEmplace 5 1 (AVal 3) true)) = allocs w + 1.
Proof. cbv zeta. split; [apply after_reachable; by vm_compute|]. by vm_compute. Qed.
Example C91_ex_steal : let w := after tourE tour in let w' := after tourE (tour ++ [OMoveAssign 1 10]) in
  reachable tourE w /\ pre tourE w (OMoveAssign 1 10) /\ e_always_eq tourE = true /\ run tourE (OMoveAssign 1 10) w = Ok tt w' /\
  address w 10 = Some (PHeap 16) /\ pre tourE w (OMove 11 10) /\ is_ok (run tourE (OMove 11 10) w) = true.
Proof.
  cbv zeta. split; [apply after_reachable; by vm_compute|]. split; [apply preb_sound; by vm_compute|]. split; [done|].
  split; [apply run_ok; by vm_compute|]. split; [by vm_compute|]. split; [apply preb_sound; by vm_compute|]. by vm_compute.
Qed.
