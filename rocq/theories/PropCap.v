(** Properties C68, C69: capacity of data_parallel_vector, moves into and out of it. *)
From stdpp Require Import list.
From Verif Require Import CapModel CapSpec CapProofs MoveModel MoveSpec MoveProofs CapExamples.

(** ** C68 *)
Theorem C68_size_capacity_max_size :
  forall alloc shrinks mx N s, 0 < N -> cap_history alloc shrinks mx N s ->
  exists n c m, c_size s = Some n /\ all_sizes s n /\ c_capacity s = Some c /\ c_max_size mx s = Some m /\ n <= c <= m.
Proof. exact size_and_capacity. Qed.
Print Assumptions C68_size_capacity_max_size.
Theorem C68_no_reallocation_within_capacity :
  forall alloc shrinks mx N s o n c, 0 < N -> cap_history alloc shrinks mx N s -> c_size s = Some n -> c_capacity s = Some c ->
  o <> CShrink -> (forall w, wanted o n = Some w -> w <= c) -> c_step alloc shrinks mx o s <> CBad ->
  exists s', c_step alloc shrinks mx o s = COk s' /\ same_storage s s' /\ all_sizes s' (new_size o n) /\ c_capacity s' = Some c.
Proof. exact no_reallocation. Qed.
Print Assumptions C68_no_reallocation_within_capacity.
Theorem C68_reserve :
  forall alloc shrinks mx N s n c k, 0 < N -> cap_history alloc shrinks mx N s -> c_size s = Some n -> c_capacity s = Some c ->
  match c_step alloc shrinks mx (CReserve k) s with
  | COk s' => all_sizes s' n /\ exists c', c_capacity s' = Some c' /\ c <= c' /\ k <= c'
  | CThrow s' => all_sizes s' n /\ exists c', c_capacity s' = Some c' /\ c <= c'
  | CBad => False
  end.
Proof. exact reserve_ok. Qed.
Print Assumptions C68_reserve.
Theorem C68_storage_stays_after_reserve :
  forall alloc shrinks mx N s k s1 s2, 0 < N -> cap_history alloc shrinks mx N s ->
  c_step alloc shrinks mx (CReserve k) s = COk s1 -> within alloc shrinks mx k s1 s2 -> same_storage s1 s2.
Proof. exact within_reserved. Qed.
Print Assumptions C68_storage_stays_after_reserve.
Theorem C68_length_error :
  forall alloc shrinks mx, (forall k, alloc k <> None) -> forall N s o n m, 0 < N -> cap_history alloc shrinks mx N s ->
  c_size s = Some n -> c_max_size mx s = Some m -> c_step alloc shrinks mx o s <> CBad ->
  (exists s', c_step alloc shrinks mx o s = CThrow s') <-> exists w, wanted o n = Some w /\ m < w.
Proof. exact throws_iff. Qed.
Print Assumptions C68_length_error.
(** capacity 3: one more element reallocates the first column only; a failing reserve; shrinking *)
Example C68_ex : cap_history al sh mxs 2 cap_s /\ c_capacity cap_s = Some 3 /\ c_max_size mxs cap_s = Some 15 /\
  c_step al sh mxs CEmplaceBack cap_s = COk (CSt [VCol 4 6 4; VCol 4 4 3] 5) /\
  c_step al sh mxs (CErase 0) cap_s = COk (CSt [VCol 2 3 2; VCol 2 4 3] 4) /\
  c_step al sh mxs CShrink cap_s = COk (CSt [VCol 3 3 2; VCol 3 3 4] 5) /\
  c_step (fun k => Some k) sh mxs (CReserve 16) cap_s = CThrow (CSt [VCol 3 20 4; VCol 3 4 3] 5) /\
  c_step al sh mxs (CInsertRange 1 2 false) cap_s = COk (CSt [VCol 5 6 4; VCol 5 8 5] 6) /\
  (exists s, cap_run [CResize 5; CResize 8; CErase 0] cap_s = Some s /\ exists s', c_step al sh mxs (CReserve 15) s = CThrow s').
Proof. split; [apply cap_s_history|]. vm_compute. repeat split. apply al_7. Qed.

(** ** C69 *)
(** Full statement: and no field that can be moved is copied, so fields need not be copyable. *)
Theorem C69_row_inserted_and_argument_partial :
  forall copyable has_move mf i rv v cols cols' v' es, m_insert copyable has_move mf i rv v cols = Some (cols', v', es) ->
  length cols = length v /\ row_inserted i v cols cols' /\ length v' = length v /\
  (forall j x, v !! j = Some x -> v' !! j = Some (if rv && has_move j then mf x else x)) /\
  forall j, j < length v -> times (MMove j) es = (if rv && has_move j then 1 else 0).
Proof. exact insert_ok. Qed.
Print Assumptions C69_row_inserted_and_argument_partial.
(** emplace and emplace_back copy from their by-value parameters: an rvalue's field is copied once, an lvalue's twice *)
Theorem C69_rvalues_are_copied_refuted :
  forall copyable has_move mf i rv v cols cols' v' es j, m_insert copyable has_move mf i rv v cols = Some (cols', v', es) -> j < length v ->
  times (MCopy j) es = if rv && has_move j then 1 else 2.
Proof. exact insert_copies. Qed.
Print Assumptions C69_rvalues_are_copied_refuted.
Theorem C69_move_only_fields_refuted :
  forall copyable has_move mf i rv v cols j, j < length v -> copyable j = false -> m_insert copyable has_move mf i rv v cols = None.
Proof. exact insert_move_only. Qed.
Print Assumptions C69_move_only_fields_refuted.
Theorem C69_iter_move :
  forall copyable has_move mf i cols,
  (forall j col, cols !! j = Some col -> i < length col /\ (has_move j = true \/ copyable j = true)) ->
  exists v cols' es, iter_move copyable has_move mf 0 i cols = Some (v, cols', es) /\ is_row i cols v /\
  row_replaced i (imap (fun j x => if has_move j then mf x else x) v) cols cols' /\
  forall j, j < length cols -> times (MMove j) es + times (MCopy j) es = 1 /\ (has_move j = true -> times (MCopy j) es = 0).
Proof. exact iter_move_right. Qed.
Print Assumptions C69_iter_move.
Example C69_ex :
  m_insert (fun _ => true) hm (fun _ => 0) 1 true [7; 8; 9] [[1; 2]; [3; 4]; [5; 6]] =
    Some ([[1; 7; 2]; [3; 8; 4]; [5; 9; 6]], [0; 0; 9], [MMove 0; MMove 1; MCopy 2; MCopy 0; MCopy 1; MCopy 2]) /\
  m_insert mo hm (fun _ => 0) 1 true [7; 8; 9] [[1; 2]; [3; 4]; [5; 6]] = None /\
  iter_move mo hm (fun _ => 0) 0 1 [[1; 2]; [3; 4]; [5; 6]] = Some ([2; 4; 6], [[1; 0]; [3; 0]; [5; 6]], [MMove 0; MMove 1; MCopy 2]).
Proof. vm_compute. repeat split. Qed.
