(** Properties C47-C49 of the variant swarm. *)
From stdpp Require Import gmap list sorting.
From Verif Require Import AnyModel SwarmModel SwarmSpec SwarmProofs SwarmExamples.

(** every history behaves as one on sequences of variants: each view shows the values of its type *)
Theorem C47_sequence_of_variants :
  forall cont, (forall T U, cont T = cont U -> T = U) -> forall k Ts, NoDup Ts -> forall l m, seq_history k Ts l m ->
  exists w, sexec cont k Ts l ∅ = SOk w /\
    (forall x, is_Some (w !! x) <-> is_Some (m !! x)) /\
    (forall x c s T, w !! x = Some c -> m !! x = Some s -> T ∈ Ts -> exists v, s_view cont Ts T c = Some v /\ shown k T s v).
Proof. exact swarm_is_sequence. Qed.
Print Assumptions C47_sequence_of_variants.
(** an operation on one type of one swarm leaves the other types and swarms alone *)
Theorem C47_other_types_unchanged :
  forall cont, (forall T U, cont T = cont U -> T = U) -> forall k Ts, NoDup Ts -> forall l m w o x T w' r,
  seq_history k Ts l m -> sexec cont k Ts l ∅ = SOk w -> seq_legal Ts o m -> sop_target o = Some (x, T) -> sstep cont k Ts o w = SOk (w', r) ->
  (forall y, y <> x -> w' !! y = w !! y) /\
  exists c c', w !! x = Some c /\ w' !! x = Some c' /\ forall U, U <> T -> s_view cont Ts U c' = s_view cont Ts U c.
Proof. exact swarm_others. Qed.
Print Assumptions C47_other_types_unchanged.
(** emplace returns where the value is: the last element, or the set's position and whether it is new *)
Theorem C47_emplace_result :
  forall cont, (forall T U, cont T = cont U -> T = U) -> forall k Ts, NoDup Ts -> forall l m w x T v w' r,
  seq_history k Ts l m -> sexec cont k Ts l ∅ = SOk w -> seq_legal Ts (SEmplace x T v) m -> sstep cont k Ts (SEmplace x T v) w = SOk (w', r) ->
  exists c' u n, w' !! x = Some c' /\ s_view cont Ts T c' = Some u /\ u !! n = Some v /\
    match k with
    | KBack => r = RIdx n /\ S n = length u
    | KSet => exists s b, m !! x = Some s /\ r = RPair n b /\ (b = true <-> ~ (T, v) ∈ s)
    end.
Proof. exact emplace_result. Qed.
Print Assumptions C47_emplace_result.
(** insert(first, last) cannot be compiled for any type: it looks the value type up among the containers *)
Theorem C47_range_insert_ill_formed :
  forall cont, (forall T U, cont T = cont U -> T = U) -> forall k Ts, NoDup Ts -> (forall T, cont T <> T) ->
  forall T vs c, s_insert_range cont k Ts T vs c = SBad UbIllFormed.
Proof. exact range_insert_ill_formed. Qed.
Print Assumptions C47_range_insert_ill_formed.

Example C47_ex : forall k, seq_history k ex_Ts ex_hist (ex_final k) /\ ex_world k !! 3 = Some (ex_swarm k) /\
  ex_world k !! 1 = Some (ex_swarm k) /\ ex_world k !! 0 = Some [[]; []; [4]] /\ ex_world k !! 2 = Some [[]; []; []] /\ ex_final k !! 3 = Some (ex_seq k).
Proof. intros []; (split; [apply seq_runb_ok; vm_compute; reflexivity|vm_compute; repeat split]). Qed.
Example C47_ex_cont : (forall T U, ex_cont T = ex_cont U -> T = U) /\ (forall T, ex_cont T <> T) /\ NoDup ex_Ts.
Proof. unfold ex_cont. split; [lia|]. split; [lia|]. by apply (bool_decide_unpack _). Qed.

(** size is the sum of the counts and the length of the sequence; empty means nothing is stored *)
Theorem C48_sizes_agree :
  forall cont, (forall T U, cont T = cont U -> T = U) -> forall k Ts, NoDup Ts -> Ts <> [] -> forall l m w x c,
  seq_history k Ts l m -> sexec cont k Ts l ∅ = SOk w -> w !! x = Some c ->
  exists cs s, Forall2 (fun T n => s_count cont Ts T c = Some n) Ts cs /\ s_size c = Some (foldr Nat.add 0 cs) /\
    m !! x = Some s /\ Forall2 (fun T n => n = length (values_of T s)) Ts cs /\ s_size c = Some (length s) /\ (s_empty c = true <-> s = []).
Proof. exact size_is_sum. Qed.
Print Assumptions C48_sizes_agree.

Example C48_ex : s_count ex_cont ex_Ts 2 (ex_swarm KBack) = Some 3 /\ s_size (ex_swarm KBack) = Some 5 /\ s_empty (ex_swarm KBack) = false /\ s_empty [[]; []; []] = true.
Proof. vm_compute. auto. Qed.

(** visit calls the visitor as if going over the sequence of the values of these types, in the order of the types and then as shown, handing each result
    to the output before the next call; it stops at an exception.  The visitor may change the values it is given (the types then have to differ). *)
Theorem C49_visit_order :
  forall cont, (forall T U, cont T = cont U -> T = U) -> forall k Ts, NoDup Ts ->
  forall (St R : Type) (v : @visitor St R) out l m w x c s Types vs u (ok : bool) u' vs',
  seq_history k Ts l m -> sexec cont k Ts l ∅ = SOk w -> w !! x = Some c -> m !! x = Some s ->
  (forall T, T ∈ Types -> T ∈ Ts) -> NoDup Types \/ leaves_values v -> visited k s Types vs -> one_by_one v out vs u = (ok, u', vs') ->
  exists c', s_visit cont Ts v out Types c u = (if ok then VDone u' c' else VThrow u' c') /\
    (leaves_values v -> c' = c) /\ (forall T, ~ T ∈ Types -> s_view cont Ts T c' = s_view cont Ts T c) /\
    (NoDup Types -> forall T, T ∈ Types -> s_view cont Ts T c' = Some (values_of T vs')).
Proof. exact visit_order. Qed.
Print Assumptions C49_visit_order.
(** visit_all and visit_copy_all reach each stored value exactly once, in the order of the types *)
Theorem C49_visit_all_once :
  forall cont, (forall T U, cont T = cont U -> T = U) -> forall k Ts, NoDup Ts -> forall l m w x c s,
  seq_history k Ts l m -> sexec cont k Ts l ∅ = SOk w -> w !! x = Some c -> m !! x = Some s ->
  exists vs, visited k s Ts vs /\ vs ≡ₚ s /\
  (forall (St R : Type) (v : @visitor St R) out u (ok : bool) u' vs', one_by_one v out vs u = (ok, u', vs') ->
     exists c', s_visit_all cont Ts v out c u = (if ok then VDone u' c' else VThrow u' c') /\
       (leaves_values v -> c' = c) /\ forall T, T ∈ Ts -> s_view cont Ts T c' = Some (values_of T vs')) /\
  (forall (St R : Type) (v : @visitor St R) u (buf : list R) pos rs u', results v vs u = Some (rs, u') -> pos + length rs <= length buf ->
     exists c', s_visit_copy_all cont Ts v c buf pos u = VDone (OutSt u' (take pos buf ++ rs ++ drop (pos + length rs) buf) (pos + length rs) false) c' /\
       (leaves_values v -> c' = c)).
Proof. exact visit_all_ok. Qed.
Print Assumptions C49_visit_all_once.
(** visit_copy writes the results in that order and returns the position after the last one *)
Theorem C49_visit_copy :
  forall cont, (forall T U, cont T = cont U -> T = U) -> forall k Ts, NoDup Ts ->
  forall (St R : Type) (v : @visitor St R) l m w x c s Types vs u (buf : list R) pos rs u',
  seq_history k Ts l m -> sexec cont k Ts l ∅ = SOk w -> w !! x = Some c -> m !! x = Some s ->
  (forall T, T ∈ Types -> T ∈ Ts) -> NoDup Types \/ leaves_values v -> visited k s Types vs -> results v vs u = Some (rs, u') -> pos + length rs <= length buf ->
  exists c', s_visit_copy cont Ts v Types c buf pos u = VDone (OutSt u' (take pos buf ++ rs ++ drop (pos + length rs) buf) (pos + length rs) false) c' /\
    (leaves_values v -> c' = c).
Proof. exact visit_copy_order. Qed.
Print Assumptions C49_visit_copy.

Example C49_ex : visited KBack (ex_seq KBack) [2; 1] [(2, 7); (2, 7); (2, 8); (1, 5); (1, 10)] /\
  s_visit ex_cont ex_Ts ex_visitor (fun r n => Some (n + 100)) [2; 1] (ex_swarm KBack) 0 = VDone 205 [[6; 11]; [9; 9; 10]; []] /\
  s_visit_all ex_cont ex_Ts ex_visitor (fun r n => Some (n + 100)) (ex_swarm KBack) 0 = VDone 205 [[6; 11]; [9; 9; 10]; []] /\
  s_visit_copy_all ex_cont ex_Ts ex_reader (ex_swarm KBack) (repeat 0 10) 1 0 = VDone (OutSt 5 [0; 6; 11; 9; 9; 10; 0; 0; 0; 0] 6 false) (ex_swarm KBack) /\
  s_visit_copy ex_cont ex_Ts ex_reader [2; 1; 2] (ex_swarm KBack) (repeat 0 10) 1 0 = VDone (OutSt 8 [0; 9; 9; 10; 6; 11; 9; 9; 10; 0] 9 false) (ex_swarm KBack) /\
  s_visit ex_cont ex_Ts ex_visitor (fun r n => Some (n + 100)) [2; 1] [[5; 99; 3]; [7]; []] 0 = VThrow 102 [[6; 99; 3]; [9]; []].
Proof. split; [exists [[7; 7; 8]; [5; 10]]; split; [repeat constructor|reflexivity]|vm_compute; auto]. Qed.
