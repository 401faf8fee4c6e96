(** C96: anys inside the values of anys. *)
From stdpp Require Import gmap list.
From Verif Require Import NestModel NestSpec NestSteps NestExamples.

(** Every operation that is legal ends, without undefined behaviour, in what the machine of trees says, and every block of memory is owned by
    one any.  Missing: assignments that move an any out of, or into, its own value ([legal] excludes them, see the refutations below). *)
Theorem C96_anys_in_anys_are_trees_partial (E : env) w f o : history E w f -> legal f o ->
  exists N, forall n, N <= n ->
    match run E n o w with
    | Ok _ w' => exists f', tstep false o f = Some f' /\ history E w' f' /\ holds E w' f'
    | Exn w' => exists f', tstep true o f = Some f' /\ history E w' f' /\ holds E w' f'
    | UB _ | OutOfFuel => False
    end.
Proof. exact (history_step E w f o). Qed.
Print Assumptions C96_anys_in_anys_are_trees_partial.
Example C96_ex_history : history calm (world_of (played calm three)) three_trees.
Proof. apply played_as. vm_compute. reflexivity. Qed.
(* x = x.child for a value inside a value; the copy is made before the old value goes *)
Example C96_ex_own_child : legal three_trees (OCopyAssign [2] [2; 0; 0]) /\ tstep false (OCopyAssign [2] [2; 0; 0]) three_trees =
  Some [Some (Node 2 5 []); Some (Node 2 6 [Some (Node 2 5 [])]); Some (Node 2 5 [])].
Proof. split; [by apply legalb_sound|done]. Qed.
(* the same when the allocation throws: nothing changes *)
Example C96_ex_exception : result (run (fails_at 17) 9 (OCopyAssign [0] [2]) (world_of (played (fails_at 17) three))) = Some true /\
  trees_of (played (fails_at 17) (three ++ [OCopyAssign [0] [2]])) = three_trees.
Proof. split; vm_compute; reflexivity. Qed.

Theorem C96_no_memory_is_lost (E : env) w : history E w [] -> w_heap w = ∅.
Proof. exact (history_no_leak E w). Qed.
Print Assumptions C96_no_memory_is_lost.
(* an exception in the middle of a copy of the third; a move out of a value; the variables end *)
Example C96_ex_no_memory_is_lost :
  let os := three ++ [OCopyAssign [0] [2]; OMove [2; 0]; OPush [1] [2]; OEmplace [1; 0] 3 8 [[2]]; OReset [2]; OEnd; OEnd; OEnd; OEnd] in
  history (fails_at 17) (world_of (played (fails_at 17) os)) [] /\ size (w_heap (world_of (played (fails_at 17) (take 7 os)))) = 11.
Proof. split; [apply played_as|]; vm_compute; reflexivity. Qed.

(** Moving, emptying and destroying: no allocation, no copy, no exception, however much is inside. *)
Theorem C96_moves_make_nothing (E : env) w f o : history E w f -> legal f o ->
  match o with OMove _ | OMoveAssign _ _ | OReset _ | OEnd => True | _ => False end ->
  exists N, forall n, N <= n -> exists w', run E n o w = Ok tt w' /\ w_next w' = w_next w /\ w_tick w' = w_tick w.
Proof. exact (history_cheap E w f o). Qed.
Print Assumptions C96_moves_make_nothing.
Example C96_ex_move : legal three_trees (OMoveAssign [0] [2; 1]) /\ tstep false (OMoveAssign [0] [2; 1]) three_trees =
  Some [Some (Node 2 6 [Some (Node 2 5 [])]); Some (Node 2 6 [Some (Node 2 5 [])]); Some (Node 1 7 [Some (Node 2 6 [Some (Node 2 5 [])]); None])].
Proof. split; [by apply legalb_sound|done]. Qed.

(** x = std::move(x.child): the child is destroyed before it is read. *)
Theorem C96_moving_out_of_the_own_value_refuted :
  exists E w f p q, history E w f /\ tstep false (OMoveAssign p q) f <> None /\ exists N, forall n, N <= n -> exists r, run E n (OMoveAssign p q) w = UB r.
Proof. exact moving_out_is_ub. Qed.
Print Assumptions C96_moving_out_of_the_own_value_refuted.

(** x.child = std::move(x): the value owns itself; when the variables have ended, memory is left. *)
Theorem C96_moving_into_the_own_value_refuted :
  exists E w f p q, history E w f /\ tstep false (OMoveAssign p q) f <> None /\
    exists N, forall n, N <= n -> exists w' w'', run E n (OMoveAssign p q) w = Ok tt w' /\ run E n OEnd w' = Ok tt w'' /\ w_vars w'' = [] /\ w_heap w'' <> ∅.
Proof. exact moving_in_leaks. Qed.
Print Assumptions C96_moving_into_the_own_value_refuted.
