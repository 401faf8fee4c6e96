(** Property C106: classes with anys as members and the special members the compiler writes for them. *)
From stdpp Require Import gmap list.
From Verif Require Import TypeListModel AnyModel AnyInv AnyHistory AnyExec AnyFacts AnyExamples VectorSpec VectorExamples StructModel StructSpec StructProofs StructExamples.

(** copying: an object with equal members, or an exception and nothing is left of the copy *)
Theorem C106_copy :
  forall E, env_wf E -> forall mss w news olds, reachable E w -> all_copyable mss -> length news = length mss -> NoDup news -> gone w news -> object mss w olds ->
  match s_copy E mss news olds w with
  | Ok _ w' => reachable E w' /\ object mss w' news /\ elements w' news = elements w olds /\ others w w' news
  | Exn w' => reachable E w' /\ gone w' news /\ others w w' news
  | UB _ | Term => False
  end.
Proof. exact copied. Qed.
Print Assumptions C106_copy.
(** moving cannot fail, for every allocator *)
Theorem C106_move :
  forall E, env_wf E -> forall mss w news olds, reachable E w -> all_movable E mss -> length news = length mss -> NoDup (news ++ olds) -> gone w news -> object mss w olds ->
  exists w', s_move E news olds w = Ok tt w' /\ reachable E w' /\ object mss w' news /\ object mss w' olds /\ elements w' news = elements w olds /\
    all_empty w' olds /\ others w w' (news ++ olds) /\ nothing_made w w' /\ same_blocks w w' olds news.
Proof. exact moved. Qed.
Print Assumptions C106_move.
(** the last member first *)
Theorem C106_destroy :
  forall E, env_wf E -> forall mss w l, reachable E w -> NoDup l -> object mss w l ->
  exists w', s_dtor E l w = Ok tt w' /\ reachable E w' /\ gone w' l /\ others w w' l /\ nothing_made w w' /\ in_reverse E w w' l.
Proof. exact destroyed. Qed.
Print Assumptions C106_destroy.
(** Full statement: an exception in the copy assignment leaves the target as it was.  Missing: members assigned before the exception keep
    the new value ([C106_copy_assign_strong_refuted]); allocators that are neither always equal nor propagated by a move. *)
Theorem C106_copy_assign_partial :
  forall E, env_wf E -> forall mss w is js t, reachable E w -> movable_alloc E = true -> all_copyable mss -> NoDup is -> apart is js \/ is = js -> gone w [t] ->
  object mss w is -> object mss w js ->
  match s_copy_assign E is js t w with
  | Ok _ w' => reachable E w' /\ object mss w' is /\ elements w' is = elements w js /\ gone w' [t] /\ others w w' is
  | Exn w' => reachable E w' /\ object mss w' is /\ (exists n, n < length is /\ elements w' is = take n (elements w js) ++ drop n (elements w is)) /\ others w w' is
  | UB _ | Term => False
  end.
Proof. exact copy_assigned. Qed.
Print Assumptions C106_copy_assign_partial.
Theorem C106_copy_assign_strong_refuted :
  exists E mss w is js t w', env_wf E /\ reachable E w /\ movable_alloc E = true /\ all_copyable mss /\ NoDup is /\ apart is js /\
  gone w [t] /\ object mss w is /\ object mss w js /\ s_copy_assign E is js t w = Exn w' /\
  elements w is = [Some (Some (1, 10)); Some (Some (2, 20))] /\ elements w js = [Some (Some (1, 30)); Some (Some (2, 40))] /\
  elements w' is = [Some (Some (1, 30)); Some (Some (2, 20))].
Proof. exact assigned_in_part. Qed.
Print Assumptions C106_copy_assign_strong_refuted.
(** an object assigned to itself keeps its values, with or without an exception *)
Theorem C106_self_copy_assign :
  forall E, env_wf E -> forall mss w is t, reachable E w -> movable_alloc E = true -> all_copyable mss -> NoDup is -> gone w [t] -> object mss w is ->
  match s_copy_assign E is is t w with
  | Ok _ w' | Exn w' => reachable E w' /\ object mss w' is /\ elements w' is = elements w is /\ others w w' is
  | UB _ | Term => False
  end.
Proof. exact copy_assigned_self. Qed.
Print Assumptions C106_self_copy_assign.
Theorem C106_move_assign :
  forall E, env_wf E -> forall mss w is js, reachable E w -> movable_alloc E = true -> all_move_assignable E mss -> NoDup (is ++ js) ->
  object mss w is -> object mss w js ->
  exists w', s_move_assign E is js w = Ok tt w' /\ reachable E w' /\ object mss w' is /\ object mss w' js /\ elements w' is = elements w js /\
    all_empty w' js /\ others w w' (is ++ js) /\ nothing_made w w' /\ same_blocks w w' js is.
Proof. exact move_assigned. Qed.
Print Assumptions C106_move_assign.
Theorem C106_self_move_assign : forall E l w, s_move_assign E l l w = Ok tt w.
Proof. exact s_move_assign_self. Qed.
Print Assumptions C106_self_move_assign.
(** S tmp(other); *this = std::move(tmp); an exception changes nothing.
    Full statement: for all allocators; missing: those of [C106_assign_by_copy_refuted] *)
Theorem C106_assign_by_copy_partial :
  forall E, env_wf E -> forall mss w is js ts, reachable E w -> movable_alloc E = true -> all_copyable mss -> length ts = length mss -> NoDup ts -> NoDup is ->
  gone w ts -> object mss w is -> object mss w js ->
  match s_assign_by_copy E mss is js ts w with
  | Ok _ w' => reachable E w' /\ object mss w' is /\ elements w' is = elements w js /\ gone w' ts /\ others w w' is
  | Exn w' => reachable E w' /\ object mss w' is /\ gone w' ts /\ others w w' []
  | UB _ | Term => False
  end.
Proof. exact assigned_by_copy. Qed.
Print Assumptions C106_assign_by_copy_partial.
Theorem C106_assign_by_copy_refuted :
  exists E mss w is js ts w', env_wf E /\ reachable E w /\ all_copyable mss /\ NoDup (is ++ js ++ ts) /\ length ts = length mss /\
  gone w ts /\ object mss w is /\ object mss w js /\ s_assign_by_copy E mss is js ts w = Exn w' /\
  elements w is = [Some (Some (5, 10)); Some (Some (5, 20))] /\ elements w' is = [Some None; Some (Some (5, 20))].
Proof. exact assigned_by_copy_lost. Qed.
Print Assumptions C106_assign_by_copy_refuted.
Theorem C106_swap :
  forall E, env_wf E -> forall mss w is js ts, reachable E w -> movable_alloc E = true -> all_move_assignable E mss -> length ts = length mss -> NoDup ts -> NoDup (is ++ js) ->
  gone w ts -> object mss w is -> object mss w js ->
  exists w', s_swap E is js ts w = Ok tt w' /\ reachable E w' /\ object mss w' is /\ object mss w' js /\ elements w' is = elements w js /\
    elements w' js = elements w is /\ gone w' ts /\ others w w' (is ++ js) /\ nothing_made w w'.
Proof. exact swapped. Qed.
Print Assumptions C106_swap.

(** two objects of a class with members of two different interfaces: the first is copied, moved, swapped with the second, destroyed *)
Example C106_ex :
  let E := mkE 16 true false false [] in
  let w := after E (two_objects 0) in
  reachable E w /\ movable_alloc E = true /\ all_copyable two_members /\ object two_members w [0; 1] /\ object two_members w [2; 3] /\ gone w [4; 5] /\
  elements (okw (s_copy E two_members [4; 5] [0; 1] w)) [4; 5; 0; 1] = [Some (Some (1, 10)); Some (Some (2, 20)); Some (Some (1, 10)); Some (Some (2, 20))] /\
  elements (okw (s_move E [4; 5] [0; 1] w)) [4; 5; 0; 1] = [Some (Some (1, 10)); Some (Some (2, 20)); Some None; Some None] /\
  elements (okw (s_move_assign E [2; 3] [0; 1] w)) [2; 3; 0; 1] = [Some (Some (1, 10)); Some (Some (2, 20)); Some None; Some None] /\
  elements (okw (s_swap E [0; 1] [2; 3] [4; 5] w)) [0; 1; 2; 3] = [Some (Some (1, 30)); Some (Some (2, 40)); Some (Some (1, 10)); Some (Some (2, 20))] /\
  elements (okw (s_dtor E [0; 1] w)) [0; 1] = [None; None].
Proof.
  split; [apply after_reachable; by vm_compute|]. split; [done|]. split; [apply two_copyable|].
  split; [apply objectb_sound; by vm_compute|]. split; [apply objectb_sound; by vm_compute|]. split; [apply goneb_sound; by vm_compute|].
  split; [by vm_compute|]. split; [by vm_compute|]. split; [by vm_compute|]. split; by vm_compute.
Qed.
(** copying the second member throws: the copy of the first one is destroyed again, and the copy-and-move assignment leaves both objects as they were *)
Example C106_ex_exception :
  let E := mkE 16 true false false [6] in
  let w := after E (two_objects 0) in
  reachable E w /\ is_exn (s_copy E two_members [4; 5] [0; 1] w) = true /\ elements (okw (s_copy E two_members [4; 5] [0; 1] w)) [4; 5] = [None; None] /\
  is_exn (s_assign_by_copy E two_members [0; 1] [2; 3] [4; 5] w) = true /\
  elements (okw (s_assign_by_copy E two_members [0; 1] [2; 3] [4; 5] w)) [0; 1; 4; 5] = [Some (Some (1, 10)); Some (Some (2, 20)); None; None].
Proof. split; [apply after_reachable; by vm_compute|]. split; [by vm_compute|]. split; [by vm_compute|]. split; by vm_compute. Qed.
