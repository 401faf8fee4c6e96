(** Property C109: a pointer to a value on the heap stays good wherever the value goes. *)
From stdpp Require Import gmap list.
From Verif Require Import AnyModel AnyInv AnyHistory AnyFacts AnyExec AnyExamples PolyModel PolySpec PolyExamples FollowSpec FollowProofs FollowLife FollowPointers FollowExamples.

(** move construction, conversion, move assignment and swap, when allocators always compare equal or propagate in move assignments *)
Theorem C109_heap_value_is_followed :
  forall E l w w' i j b, env_wf E -> reachable E w -> e_always_eq E = true \/ e_pocma E = true -> allowed_alloc E l w ->
  exec E l w = Ok tt w' -> follow l i = Some j -> address w i = Some (PHeap b) ->
  kept w i w' j b /\ (calls_no_method l -> contained w' j = contained w i).
Proof. intros E l. exact (follow_kept E l). Qed.
Print Assumptions C109_heap_value_is_followed.
(** pointers and references obtained before, in whatever way, act on it; they need the stateful references whose tables they may use *)
Theorem C109_pointers_act_on_it :
  forall E O w w' i j b o l0 s k ms T c l n y, env_wf E -> reachable E w -> e_always_eq E = true \/ e_pocma E = true ->
  begins w o s (Some (T, PHeap b)) -> chain s l0 (VView k ms) -> all_names o l0 = [] -> obtained O w o l0 c w -> address w i = Some (PHeap b) ->
  allowed_alloc E l w -> exec E l w = Ok tt w' -> (forall r, ~ In (ODropSref r) l) -> follow l i = Some j -> In (MUser n) ms ->
  exists x w'', contained w' j = Some x /\ o_ty x = T /\
    cur_invoke E c n y w' = (match snd (e_meth E T n (o_val x) y) with Some r => Ok r w'' | None => Exn w'' end) /\
    obj_at w'' (PHeap b) = Some (Obj T (fst (e_meth E T n (o_val x) y)) (o_id x)) /\ forall p, p <> PHeap b -> obj_at w'' p = obj_at w' p.
Proof. exact pointer_calls. Qed.
Print Assumptions C109_pointers_act_on_it.
Theorem C109_calls_as_through_the_any :
  forall E O w w' i j b o l0 s k ms T c l n y a', env_wf E -> reachable E w -> e_always_eq E = true \/ e_pocma E = true ->
  begins w o s (Some (T, PHeap b)) -> chain s l0 (VView k ms) -> all_names o l0 = [] -> obtained O w o l0 c w -> address w i = Some (PHeap b) ->
  allowed_alloc E l w -> exec E l w = Ok tt w' -> (forall r, ~ In (ODropSref r) l) -> follow l i = Some j ->
  w_any w' !! j = Some a' -> In (MUser n) ms -> In (MUser n) (a_ms a') -> cur_invoke E c n y w' = invoke E j n y w'.
Proof. exact pointer_is_any. Qed.
Print Assumptions C109_calls_as_through_the_any.
(** and it is destroyed once, by the first operation after which it is nowhere *)
Theorem C109_lifetime :
  forall E l w w' i b x, env_wf E -> reachable E w -> e_always_eq E = true \/ e_pocma E = true -> allowed_alloc E l w -> no_exception E l w ->
  exec E l w = Ok tt w' -> address w i = Some (PHeap b) -> contained w i = Some x -> ty_tdestr (e_ty E (o_ty x)) = false ->
  dtors_of (o_id x) (w_log w') = match follow l i with Some _ => 0 | None => 1 end.
Proof. intros E l. exact (lifetime E l). Qed.
Print Assumptions C109_lifetime.
(** move construction and conversion, for all allocators *)
Theorem C109_constructions_keep_it :
  forall E l w w' i j b, env_wf E -> reachable E w -> allowed_alloc E l w ->
  exec E l w = Ok tt w' -> follow_constructing l i = Some j -> address w i = Some (PHeap b) ->
  kept w i w' j b /\ (calls_no_method l -> contained w' j = contained w i).
Proof. intros E l. exact (follow_constructing_kept E l). Qed.
Print Assumptions C109_constructions_keep_it.
(** the first is false for other allocators *)
Theorem C109_assignment_needs_allocators_refuted :
  exists E l w w' i j b, env_wf E /\ reachable E w /\ allowed_alloc E l w /\ exec E l w = Ok tt w' /\ follow l i = Some j /\
  address w i = Some (PHeap b) /\ content w' j = content w i /\ ~ kept w i w' j b.
Proof. exact apart_not_kept. Qed.
Print Assumptions C109_assignment_needs_allocators_refuted.

Example C109_ex : let w := after tourE tour in
  env_wf tourE /\ reachable tourE w /\ e_always_eq tourE = true /\ allowed_alloc tourE journey w /\ allowed_alloc tourE quiet_journey w /\
  is_ok (exec tourE journey w) = true /\ is_ok (exec tourE quiet_journey w) = true /\ calls_no_method quiet_journey /\
  (follow journey 10, follow quiet_journey 10, follow journey 0, follow journey 8) = (Some 12, Some 12, None, Some 8) /\
  address w 10 = Some (PHeap 16) /\ contained w 10 = Some (Obj 0 50 17) /\
  match exec tourE journey w with Ok _ w' => address w' 12 = Some (PHeap 16) /\ contained w' 12 = Some (Obj 0 55 17) | _ => False end.
Proof.
  cbv zeta. split; [apply mkE_wf|]. split; [apply after_reachable; by vm_compute|]. split; [done|].
  split; [apply allowedb_sound; by vm_compute|]. split; [apply allowedb_sound; by vm_compute|].
  split; [by vm_compute|]. split; [by vm_compute|]. split; [|by vm_compute].
  intros i n x [H|[H|[H|[H|[H|[]]]]]]; discriminate H.
Qed.
Example C109_ex_pointer : let w := after tourE tour in
  begins w (OAddr 10) (VView KPtr full) (Some (0, PHeap 16)) /\
  chain (VView KPtr full) [ToPtr [MUser 0; MDestroy]; Deref] (VView KRef [MUser 0; MDestroy]) /\
  obtained obs0 w (OAddr 10) [ToPtr [MUser 0; MDestroy]; Deref] to_ten w /\ allowed_alloc tourE short_journey w /\ follow short_journey 10 = Some 0 /\
  match exec tourE short_journey w with
  | Ok _ w' => val_of (cur_invoke tourE to_ten 0 7 w') = val_of (invoke tourE 0 0 7 w') /\ val_of (invoke tourE 0 0 7 w') <> None
  | _ => False
  end.
Proof.
  cbv zeta. split; [exact ten_begins|]. split; [exact ten_chain|]. split; [exact ten_obtained|]. split; [apply allowedb_sound; by vm_compute|]. by vm_compute.
Qed.
Example C109_ex_lifetime : let w := after tourE tour in let l := [OSwap 0 4 9; OMove 13 4; OMoveAssign 13 10; OSwap 2 0 9; OReset 2] in
  allowed_alloc tourE l w /\ no_exception tourE l w /\ (address w 0, address w 4, address w 6) = (Some (PHeap 0), Some (PHeap 14), Some (PHeap 5)) /\
  (contained w 0, contained w 4, contained w 6) = (Some (Obj 1 10 1), Some (Obj 1 10 15), Some (Obj 1 7 6)) /\ ty_tdestr (e_ty tourE 1) = false /\
  (follow l 0, follow l 4, follow l 6) = (None, None, Some 6) /\
  match exec tourE l w with Ok _ w' => (dtors_of 1 (w_log w'), dtors_of 15 (w_log w'), dtors_of 6 (w_log w')) = (1, 1, 0) | _ => False end.
Proof. cbv zeta. split; [apply allowedb_sound; by vm_compute|]. by vm_compute. Qed.
Example C109_ex_apart : let w := after apartE apart in
  reachable apartE w /\ allowed_alloc apartE apart_journey w /\ is_ok (exec apartE apart_journey w) = true /\
  e_always_eq apartE || e_pocma apartE = false /\ follow_constructing apart_journey 0 = Some 3 /\ address w 0 = Some (PHeap 0).
Proof.
  cbv zeta. split; [apply after_reachable; by vm_compute|]. split; [apply allowedb_sound; by vm_compute|]. by vm_compute.
Qed.
