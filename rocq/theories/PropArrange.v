(** Property C104: algorithms that compare, move and swap anys. *)
From stdpp Require Import gmap list sorting.
From Verif Require Import TypeListModel AnyModel AnyInv AnyHistory AnyFacts AnyExamples PolyModel PolySpec PolyExamples VectorSpec KeyModel KeySpec KeyExamples
  ArrangeModel ArrangeSpec ArrangeExamples.

(** An algorithm does with anys what it would do with values.  Nothing throws, no memory is allocated, values on the heap are not moved. *)
Theorem C104_algorithms_move_values :
  forall E O ms, env_wf E -> obs_wf O -> movable_alloc E = true -> arrangeable E ms ->
  forall A (p : aprog A) D w x v, reachable E w -> one_class ms w D -> within D p -> vrun O p (cell_of w) = Some (x, v) ->
  exists w', arun E O p w = Ok x w' /\ reachable E w' /\ one_class ms w' D /\ (forall k, In k D -> cell_of w' k = v k) /\ nothing_made w w' /\ others w w' D.
Proof. exact @as_values. Qed.
Print Assumptions C104_algorithms_move_values.
Example C104_ex : env_wf (keyE []) /\ obs_wf obs0 /\ movable_alloc (keyE []) = true /\ arrangeable (keyE []) ordk /\ reachable (keyE []) (kw []) /\
  option_map (fun r => map r.2 [4; 5; 8; 20]) (vrun obs0 (abind (a_swap 4 8 20) (fun _ => a_swap 4 5 20)) (cell_of (kw []))) =
    Some [Some (Some (1, 10), Some 7); Some (Some (5, 20), None); Some (Some (1, 30), Some 5); None] /\
  map (cell_of (kw [])) [4; 5; 8] = [Some (Some (1, 30), Some 5); Some (Some (1, 10), Some 7); Some (Some (5, 20), None)].
Proof.
  split; [apply mkE_wf|]. split; [apply obs0_wf|]. split; [done|]. split; [apply ordk_arrangeable|]. split; [apply kw_reachable; by left|].
  split; by_vm.
Qed.
(** No algorithm makes two of one value: what the anys hold in the end they held before, in the same blocks. *)
Theorem C104_values_are_not_duplicated :
  forall E O ms, env_wf E -> obs_wf O -> movable_alloc E = true -> arrangeable E ms ->
  forall A (p : aprog A) D w x v, reachable E w -> one_class ms w D -> within D p -> NoDup D -> vrun O p (cell_of w) = Some (x, v) ->
  exists w', arun E O p w = Ok x w' /\ held (cell_of w') D ⊆+ held (cell_of w) D.
Proof. exact @none_duplicated. Qed.
Print Assumptions C104_values_are_not_duplicated.
Example C104_ex_held : within [4; 5; 20] (AMove 20 4 (AAssign 4 5 (AEnd 20 (ARet tt)))) /\
  held (cell_of (world_of (arun (keyE []) obs0 (AMove 20 4 (AAssign 4 5 (AEnd 20 (ARet tt)))) (kw [])))) [4; 5; 20] = [(Some (1, 10), Some 7)] /\
  held (cell_of (kw [])) [4; 5; 20] = [(Some (1, 30), Some 5); (Some (1, 10), Some 7)].
Proof. split; [cbn; tauto|]. split; by_vm. Qed.

(** any anys, also empty ones and of different types *)
Theorem C104_reverse :
  forall E O ms, env_wf E -> obs_wf O -> movable_alloc E = true -> arrangeable E ms ->
  forall t l w, reachable E w -> NoDup (t :: l) -> w_any w !! t = None -> alive ms w l ->
  exists w', arun E O (a_reverse t l) w = Ok tt w' /\ w_any w' !! t = None /\ alive ms w' l /\ map (cell_of w') l = rev (map (cell_of w) l) /\
    nothing_made w w' /\ others w w' l.
Proof. exact reversed. Qed.
Print Assumptions C104_reverse.
Example C104_ex_reverse : map (content (kw [])) [4; 9; 6; 8; 5] = [Some (Some (1, 30)); Some None; Some (Some (1, 20)); Some (Some (5, 20)); Some (Some (1, 10))] /\
  map (content turned5) [4; 9; 6; 8; 5] = [Some (Some (1, 10)); Some (Some (5, 20)); Some (Some (1, 20)); Some None; Some (Some (1, 30))].
Proof. split; by_vm. Qed.

(** Full statement: sorting puts anys in the order of <.  Proved: values of one type; the next theorems show what happens otherwise. *)
Theorem C104_sort_partial :
  forall E O ms, env_wf E -> obs_wf O -> movable_alloc E = true -> arrangeable E ms ->
  forall T, weakly_ordered O T ->
  forall t l w L, reachable E w -> NoDup (t :: l) -> w_any w !! t = None -> hold_in_order ms T w l L ->
  exists w' L', arun E O (a_sort t [] l) w = Ok tt w' /\ w_any w' !! t = None /\ hold_in_order ms T w' l L' /\ L' ≡ₚ L /\ in_order O T L' /\
    (forall x, List.filter (same_rank O T x) L' = List.filter (same_rank O T x) L) /\ map (cell_of w') l ≡ₚ map (cell_of w) l /\
    nothing_made w w' /\ others w w' l.
Proof. exact sorted_anys. Qed.
Print Assumptions C104_sort_partial.
Example C104_ex_sort : weakly_ordered obs0 1 /\ NoDup [20; 4; 5; 6; 7] /\ w_any (kw []) !! 20 = None /\ hold_in_order ordk 1 (kw []) [4; 5; 6; 7] [30; 10; 20; 20] /\
  map (content sorted4) [4; 5; 6; 7] = map (fun x => Some (Some (1, x))) [10; 20; 20; 30].
Proof. split; [apply obs0_ordered|]. split; [apply nodupb; by_vm|]. split; [by_vm|]. split; [apply kw_order|]. by_vm. Qed.
(** values of two types: an any stays before an any that is less *)
Theorem C104_other_types_refuted :
  exists E O ms t l w w', env_wf E /\ obs_wf O /\ movable_alloc E = true /\ arrangeable E ms /\ (forall T, weakly_ordered O T) /\ reachable E w /\
  NoDup (t :: l) /\ w_any w !! t = None /\ (forall k, In k l -> exists T x, key ms w k (Some (T, x))) /\
  arun E O (a_sort t [] l) w = Ok tt w' /\ exists i j A B C, l = A ++ i :: B ++ j :: C /\ less O j i w' = Ok true w'.
Proof. exact types_unsorted. Qed.
Print Assumptions C104_other_types_refuted.
(** an empty any: undefined behaviour *)
Theorem C104_empty_anys_refuted :
  exists E O ms t l w, env_wf E /\ obs_wf O /\ movable_alloc E = true /\ arrangeable E ms /\ (forall T, weakly_ordered O T) /\ reachable E w /\
  NoDup (t :: l) /\ w_any w !! t = None /\ alive ms w l /\ arun E O (a_sort t [] l) w = UB UbNullVtable.
Proof. exact empty_unsortable. Qed.
Print Assumptions C104_empty_anys_refuted.
