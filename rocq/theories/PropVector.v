(** Property C99: anys as elements of std::vector. *)
From stdpp Require Import gmap list.
From Verif Require Import TypeListModel TypeListSpec AnyModel AnyInv AnyHistory AnyExec AnyFacts AnyExamples NoexceptModel NoexceptSpec VectorModel VectorSpec VectorExamples.

(** other storage: the same elements in the same order, or an exception and everything as before *)
Theorem C99_growth_keeps_elements :
  forall E ms w olds news, env_wf E -> ready E ms w olds news -> has_move E ms = true ->
  match grow E ms olds news w with
  | Ok _ w' => reachable E w' /\ alive ms w' news /\ gone w' olds /\ elements w' news = elements w olds /\ others w w' (news ++ olds)
  | Exn w' => reachable E w' /\ gone w' news /\ others w w' news
  | UB _ | Term => False
  end.
Proof. exact growth_keeps. Qed.
Print Assumptions C99_growth_keeps_elements.
(** Full statement: for all allocators, since moving an any into a new one cannot throw (C98). *)
Theorem C99_growth_moves_partial :
  forall E ms w olds news, env_wf E -> ready E ms w olds news -> has_move E ms = true -> movable_alloc E = true \/ ~ In (MCopy true) ms ->
  exists w', grow E ms olds news w = Ok tt w' /\ nothing_made w w' /\ same_blocks w w' olds news /\ allocators w' news = allocators w olds.
Proof. exact growth_moves. Qed.
Print Assumptions C99_growth_moves_partial.
Theorem C99_growth_copies_refuted :
  exists E ms w olds news w', env_wf E /\ ready E ms w olds news /\ has_move E ms = true /\ ~ can_throw E is_move_ctor /\
  grow E ms olds news w = Ok tt w' /\ ~ same_blocks w w' olds news /\ ~ nothing_made w w' /\ allocators w' news <> allocators w olds.
Proof. exact growth_copies. Qed.
Print Assumptions C99_growth_copies_refuted.
Theorem C99_growth_throws_refuted :
  exists E ms w olds news w', env_wf E /\ ready E ms w olds news /\ has_move E ms = true /\ ~ can_throw E is_move_ctor /\
  grow E ms olds news w = Exn w'.
Proof. exact growth_throws. Qed.
Print Assumptions C99_growth_throws_refuted.
(** also when the copied any is an element of the same vector *)
Theorem C99_push_back :
  forall E ms w olds news x src, env_wf E -> ready E ms w olds news -> In (MCopy true) ms ->
  ~ In x (news ++ olds) -> gone w [x] -> alive ms w [src] ->
  match push_back E ms olds news x src w with
  | Ok _ w' => reachable E w' /\ alive ms w' (news ++ [x]) /\ gone w' olds /\ elements w' (news ++ [x]) = elements w (olds ++ [src]) /\
      others w w' (x :: news ++ olds)
  | Exn w' => reachable E w' /\ gone w' (x :: news) /\ others w w' (x :: news)
  | UB _ | Term => False
  end.
Proof. exact pushed_back. Qed.
Print Assumptions C99_push_back.
(** Full statement: for all allocators. *)
Theorem C99_push_back_rvalue_partial :
  forall E ms w olds news x src, env_wf E -> ready E ms w olds news -> has_move E ms = true ->
  ~ In x (news ++ olds) -> gone w [x] -> alive ms w [src] -> movable_alloc E = true \/ ~ In (MCopy true) ms ->
  exists w', push_back_move E ms olds news x src w = Ok tt w' /\ reachable E w' /\ alive ms w' (news ++ [x]) /\ gone w' olds /\
    elements w' (news ++ [x]) = map (fun k => if k =? src then Some None else content w k) olds ++ [content w src] /\
    (~ In src olds -> is_empty w' src) /\ others w w' (x :: src :: news ++ olds) /\ nothing_made w w' /\
    (~ In src olds -> same_blocks w w' (olds ++ [src]) (news ++ [x])) /\ allocators w' (news ++ [x]) = allocators w (olds ++ [src]).
Proof. exact pushed_back_rvalue. Qed.
Print Assumptions C99_push_back_rvalue_partial.
Theorem C99_push_back_loses_the_value_refuted :
  exists E ms w olds news x src w' v, env_wf E /\ ready E ms w olds news /\ has_move E ms = true /\ ~ can_throw E is_move_ctor /\
  ~ In x (news ++ olds) /\ gone w [x] /\ alive ms w [src] /\ ~ In src (news ++ olds) /\
  push_back_move E ms olds news x src w = Exn w' /\ content w src = Some (Some v) /\ is_empty w' src /\ gone w' [x].
Proof. exact push_back_loses. Qed.
Print Assumptions C99_push_back_loses_the_value_refuted.
Theorem C99_erase :
  forall E ms w i rest, env_wf E -> reachable E w -> movable_alloc E = true -> has_move_assign E ms = true ->
  NoDup (i :: rest) -> alive ms w (i :: rest) ->
  exists w', erase E i rest w = Ok tt w' /\ reachable E w' /\ alive ms w' (removelast (i :: rest)) /\ gone w' [List.last (i :: rest) i] /\
    elements w' (removelast (i :: rest)) = elements w rest /\ others w w' (i :: rest) /\ nothing_made w w' /\
    same_blocks w w' rest (removelast (i :: rest)).
Proof. exact erased. Qed.
Print Assumptions C99_erase.

(** std::allocator: a vector with a string-like value, a small value and nothing grows; the second element is appended once more; the first one is erased *)
Example C99_ex_growth :
  let E := mkE 16 true false false [] in
  let l := [OValue 0 0 full 1 (AVal 10) false; OValue 1 0 full 5 (AVal 20) true; ODefault 2 0 full] in
  ready E full (after E l) [0; 1; 2] [3; 4; 5] /\ movable_alloc E = true /\
  elements (okw (grow E full [0; 1; 2] [3; 4; 5] (after E l))) [3; 4; 5] = [Some (Some (1, 10)); Some (Some (5, 20)); Some None] /\
  elements (okw (push_back E full [0; 1; 2] [3; 4; 5] 6 1 (after E l))) [3; 4; 5; 6] = [Some (Some (1, 10)); Some (Some (5, 20)); Some None; Some (Some (5, 20))] /\
  elements (okw (push_back_move E full [0; 1; 2] [3; 4; 5] 6 0 (after E l))) [3; 4; 5; 6] = [Some None; Some (Some (5, 20)); Some None; Some (Some (1, 10))] /\
  elements (okw (erase E 0 [1; 2] (after E l))) [0; 1; 2] = [Some (Some (5, 20)); Some None; None].
Proof.
  split; [apply readyb_sound; by vm_compute|]. split; [done|]. split; [by vm_compute|]. split; [by vm_compute|]. split; by vm_compute.
Qed.
(** the first element is copied, copying the second throws: both are still there, the copy is gone *)
Example C99_ex_exception :
  let E := pmr [4] in
  let l := [OValue 0 3 full 1 (AVal 10) false; OValue 1 3 full 2 (AVal 20) true] in
  let r := grow E full [0; 1] [2; 3] (after E l) in
  ready E full (after E l) [0; 1] [2; 3] /\ is_exn r = true /\
  elements (okw r) [0; 1; 2; 3] = [Some (Some (1, 10)); Some (Some (2, 20)); None; None].
Proof. split; [apply readyb_sound; by vm_compute|]. split; by vm_compute. Qed.
(** an interface without copy_with is moved even with such an allocator *)
Example C99_ex_move_only :
  let E := pmr [] in
  let ms := [MDestroy; MMove] in
  let l := [OValue 0 3 ms 1 (AVal 10) false] in
  ready E ms (after E l) [0] [1] /\ ~ In (MCopy true) ms /\ has_move E ms = true /\
  allocators (okw (grow E ms [0] [1] (after E l))) [1] = [Some 3].
Proof. split; [apply readyb_sound; by vm_compute|]. split; [by intros [?|[?|[]]]|]. split; by vm_compute. Qed.
