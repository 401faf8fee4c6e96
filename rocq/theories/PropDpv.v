(** data_parallel_vector: C50 - C56. *)
From Coq Require Import ZArith.
From stdpp Require Import gmap list.
From Verif Require Import AnyModel DpvModel DpvIterModel DpvSpec DpvProofs DpvMoreProofs DpvLawProofs DpvExamples.

(** C50.  Missing: ranges read through std::move_iterator inserted elsewhere than at the end (see C52) and erase(b, e), which cannot be compiled (below). *)
Theorem C50_behaves_as_vector_partial : forall N dfl mf l m, 0 < N -> vec_history N dfl l m ->
  exists w, dexec N dfl mf l ∅ = WOk w None None /\
    (forall x, is_Some (w !! x) <-> is_Some (m !! x)) /\
    (forall x c v, w !! x = Some c -> m !! x = Some v -> same_contents c v) /\
    (forall o, vec_legal N o m -> exists w', dstep N dfl mf o w None = WOk w' (snd (vec_step N dfl o m)) None).
Proof. exact behaves_as_vector. Qed.
Print Assumptions C50_behaves_as_vector_partial.
Example C50_case : vec_history 3 zero dpv_prog dpv_final /\
  dpv_final !! 1 = Some [[4; 5; 6]; [10; 11; 12]; [22; 23; 24]; [16; 17; 18]; [7; 8; 9]; [1; 2; 3]] /\
  rows_of dpv_world 1 = [Some [4; 5; 6]; Some [10; 11; 12]; Some [22; 23; 24]; Some [16; 17; 18]; Some [7; 8; 9]; Some [1; 2; 3]].
Proof. split; [exact dpv_prog_ok|]. vm_compute. split; reflexivity. Qed.

Theorem C50_erase_range_ill_formed : forall N dfl mf x b e w t, is_Some (w !! x) -> dstep N dfl mf (DEraseRange x b e) w t = WBad UbIllFormed.
Proof. exact erase_range_bad. Qed.
Print Assumptions C50_erase_range_ill_formed.
Example C50_erase_range_case : is_Some (dpv_world !! 1).
Proof. vm_compute. eexists. reflexivity. Qed.

(** C51: also with ranges that move, anywhere *)
Theorem C51_columns_have_one_length : forall N dfl mf l s, 0 < N -> size_history N l s -> exists w, dexec N dfl mf l ∅ = WOk w None None /\
  forall x n, s !! x = Some n -> exists c, w !! x = Some c /\ length c = N /\ d_size c None = DOk n c None /\
    (forall j, j < N -> exists col, d_view j c None = DOk col c None /\ length col = n) /\
    forall i, i < n -> exists r, d_read i c None = DOk r c None /\ length r = N /\ forall j col, d_view j c None = DOk col c None -> col !! i = r !! j.
Proof. intros N dfl mf l s HN. exact (columns_ok N HN dfl mf l s). Qed.
Print Assumptions C51_columns_have_one_length.
Example C51_case : size_history 3 ([] ++ [DNewCount 1 2] ++ [DInsertRange 1 1 true false [2; 0; 1] [[4; 5; 6]; [7; 8; 9]]]) (<[1 := 4]> ∅).
Proof.
  replace (<[1 := 4]> (∅ : gmap nat nat)) with (size_step (DInsertRange 1 1 true false [2; 0; 1] [[4; 5; 6]; [7; 8; 9]]) (size_step (DNewCount 1 2) ∅)) by (cbn; by rewrite alter_insert).
  apply (sh_snoc 3 [DNewCount 1 2]); [by apply (sh_snoc 3 []); [constructor|]|]. split; [exists 2; split; [done|lia]|]. split; [by repeat constructor|]. apply (Permutation_middle [0; 1] [] 2).
Qed.

(** C52.  Missing: a range that moves, not at the end (below). *)
Theorem C52_range_insert_partial : forall N dfl mf l m w x v pos moving random ord rs, 0 < N -> vec_history N dfl l m -> dexec N dfl mf l ∅ = WOk w None None ->
  m !! x = Some v -> pos <= length v -> Forall (is_row N) rs -> ord ≡ₚ seq 0 N ->
  moving = false \/ pos = length v \/ (forall r n, r ∈ rs -> n ∈ r -> mf n = n) ->
  exists w' c', dstep N dfl mf (DInsertRange x pos moving random ord rs) w None = WOk w' (Some pos) None /\ w' !! x = Some c' /\
    same_contents c' (take pos v ++ rs ++ drop pos v) /\ (forall z, z <> x -> w' !! z = w !! z).
Proof. intros N dfl mf l m w x v pos moving random ord rs HN Hh He. exact (range_ok N HN dfl mf l m w Hh He x v pos moving random ord rs). Qed.
Print Assumptions C52_range_insert_partial.
Example C52_case : match dstep 3 zero zero (DInsertRange 1 1 false true [1; 2; 0] [[4; 5; 6]; [7; 8; 9]]) dpv_world None with
                   | WOk w ret _ => (take 4 (rows_of w 1), ret) = ([Some [4; 5; 6]; Some [4; 5; 6]; Some [7; 8; 9]; Some [10; 11; 12]], Some 1)
                   | _ => False
                   end.
Proof. vm_compute. reflexivity. Qed.

(** the first value of a range that moves is moved from once for each field *)
Theorem C52_moving_range_refuted : exists N dfl mf l m w x v pos rs w', vec_history N dfl l m /\ dexec N dfl mf l ∅ = WOk w None None /\ m !! x = Some v /\ pos <= length v /\ Forall (is_row N) rs /\
  dstep N dfl mf (DInsertRange x pos true true (seq 0 N) rs) w None = WOk w' (Some pos) None /\ row_at w' x pos <> head rs.
Proof. exact moving_range_refuted. Qed.
Print Assumptions C52_moving_range_refuted.

Theorem C52_moving_range_first_row : forall N dfl mf l m w x v pos random ord r rs, 0 < N -> vec_history N dfl l m -> dexec N dfl mf l ∅ = WOk w None None ->
  m !! x = Some v -> pos < length v -> is_row N r -> Forall (is_row N) rs -> ord ≡ₚ seq 0 N ->
  exists w' r', dstep N dfl mf (DInsertRange x pos true random ord (r :: rs)) w None = WOk w' (Some pos) None /\
    (forall k, row_at w' x k = (take pos v ++ (r' :: rs) ++ drop pos v) !! k) /\
    forall p j u, ord !! p = Some j -> r !! j = Some u -> r' !! j = Some (Nat.iter p mf u).
Proof. intros N dfl mf l m w x v pos random ord r rs HN Hh He. exact (range_moving N HN dfl mf l m w Hh He x v pos random ord r rs). Qed.
Print Assumptions C52_moving_range_first_row.
Example C52_moving_case : match dstep 3 zero zero (DInsertRange 1 0 true true [1; 0; 2] [[4; 5; 6]; [7; 8; 9]]) move_world None with
                          | WOk w ret _ => (rows_of w 1, ret) = ([Some [0; 5; 0]; Some [7; 8; 9]; Some [1; 2; 3]], Some 0)
                          | _ => False
                          end.
Proof. vm_compute. reflexivity. Qed.

(** C53 *)
Theorem C53_compares_first_unequal_field : forall cmp a b, length a = length b ->
  (all_equal cmp a b /\ compare_by_fields cmp a b = Some Eq) \/ exists n, first_unequal cmp a b n (compare_by_fields cmp a b).
Proof. exact compare_first. Qed.
Print Assumptions C53_compares_first_unequal_field.
Example C53_case : compare_by_fields by_value [1; 2; 3] [1; 4; 0] = Some Lt /\ first_unequal by_value [1; 2; 3] [1; 4; 0] 1 (Some Lt) /\ compare_by_fields with_nan [1; 0; 3] [1; 4; 0] = None.
Proof. split; [done|]. split; [|done]. split; [by exists 2, 4|]. by intros [|m] x y Hm; [intros [= <-] [= <-]|lia]. Qed.

(** Missing: fields whose == is finer than <=> says; and fields with == but without <=> cannot be compared at all *)
Theorem C53_equality_of_fields_partial : forall cmp eqf a b, length a = length b -> (forall j x y, cmp j x y = Some Eq <-> eqf j x y = true) -> proxy_eq cmp a b = true <-> fields_equal eqf a b.
Proof. exact fields_equal_iff. Qed.
Print Assumptions C53_equality_of_fields_partial.
Example C53_equality_case : proxy_eq by_value [1; 2; 3] [1; 2; 3] = true /\ proxy_eq by_value [1; 2; 3] [1; 2; 4] = false /\ forall j x y, by_value j x y = Some Eq <-> (x =? y) = true.
Proof. split; [done|]. split; [done|]. intros j x y. unfold by_value. rewrite Nat.eqb_eq. split; [intros [= H]; by apply Nat.compare_eq|intros ->; by rewrite Nat.compare_refl]. Qed.
Theorem C53_equality_refuted : exists cmp eqf a b, length a = length b /\ (forall j x y, cmp j x y <> None) /\ (forall j x y, eqf j x y = true <-> x = y) /\ (forall j x, cmp j x x = Some Eq) /\
  (forall j x y z, cmp j x y = Some Eq -> cmp j y z = Some Eq -> cmp j x z = Some Eq) /\ proxy_eq cmp a b = true /\ ~ fields_equal eqf a b.
Proof. exact fields_equal_refuted. Qed.
Print Assumptions C53_equality_refuted.

Theorem C53_vector_equality : forall N dfl mf cmp l m w x y c d v u, 0 < N -> vec_history N dfl l m -> dexec N dfl mf l ∅ = WOk w None None ->
  w !! x = Some c -> w !! y = Some d -> m !! x = Some v -> m !! y = Some u ->
  exists b, d_eq cmp c d = Some b /\ (b = true <-> length v = length u /\ forall k a a', v !! k = Some a -> u !! k = Some a' -> all_equal cmp a a').
Proof. exact vector_equality. Qed.
Print Assumptions C53_vector_equality.
Example C53_vector_case : d_eq by_value [[1; 2]; [3; 4]] [[1; 2]; [3; 4]] = Some true /\ d_eq by_value [[1; 2]; [3; 4]] [[1; 2]; [3; 5]] = Some false /\ d_eq by_half [[1; 2]; [3; 4]] [[1; 2]; [3; 5]] = Some true /\
  d_eq by_value [[1; 2]; [3; 4]] [[1]; [3]] = Some false.
Proof. done. Qed.

(** C54 *)
Theorem C54_add_and_difference : (forall it n, is_s64 n -> it_diff (it_add it n) it = n) /\ (forall a b, is_u64 (idx a) -> it_add b (it_diff a b) = a).
Proof. exact (conj it_add_diff it_diff_add). Qed.
Print Assumptions C54_add_and_difference.
Example C54_case : is_s64 (-5) /\ it_diff (it_add (Iter 7) (-5)) (Iter 7) = (-5)%Z /\ it_add (Iter 7) (-5) = Iter 2 /\ it_add (Iter 0) (-1) = Iter 18446744073709551615.
Proof. unfold is_s64. split; [lia|]. vm_compute. done. Qed.

(** Missing: negative n where assert is enabled (below) *)
Theorem C54_add_then_subtract_partial : (forall it n, is_u64 (idx it) -> it_sub true (it_add it n) n = Some it) /\
  (forall nd it n, (0 <= idx it -> 0 <= n -> idx it + n < 2 ^ 64 -> it_sub nd (it_add it n) n = Some it)%Z).
Proof. exact (conj it_sub_ndebug it_sub_nonneg). Qed.
Print Assumptions C54_add_then_subtract_partial.
Example C54_subtract_case : it_sub false (it_add (Iter 3) 4) 4 = Some (Iter 3) /\ it_sub true (it_add (Iter 3) (-2)) (-2) = Some (Iter 3).
Proof. vm_compute. done. Qed.
Theorem C54_subtract_negative_refuted : forall it n, (is_u64 (idx it) -> is_s64 n -> n < 0 -> 0 <= idx it + n -> it_sub false (it_add it n) n = None)%Z.
Proof. exact it_sub_neg. Qed.
Print Assumptions C54_subtract_negative_refuted.
Example C54_negative_case : it_sub false (it_add (Iter 3) (-2)) (-2) = None.
Proof. vm_compute. done. Qed.

Theorem C54_order_agrees_with_difference : forall a b, (0 <= idx a < 2 ^ 63 -> 0 <= idx b < 2 ^ 63 -> it_cmp a b = (it_diff a b ?= 0) /\ (it_eq a b = true <-> it_diff a b = 0))%Z.
Proof. exact it_cmp_diff. Qed.
Print Assumptions C54_order_agrees_with_difference.
Example C54_order_case : it_cmp (Iter 3) (Iter 5) = Lt /\ it_diff (Iter 3) (Iter 5) = (-2)%Z.
Proof. vm_compute. done. Qed.

Theorem C54_increment_decrement : (forall nd sz it, (0 <= idx it < sz)%Z -> it_inc nd sz it = Some (it_add it 1)) /\ (forall nd it, (0 <= idx it < 2 ^ 64 - 1)%Z -> it_dec nd (it_add it 1) = Some it).
Proof. exact (conj it_inc_add it_inc_dec). Qed.
Print Assumptions C54_increment_decrement.
Example C54_increment_case : it_inc false 4 (Iter 3) = Some (Iter 4) /\ it_inc false 4 (Iter 4) = None.
Proof. vm_compute. done. Qed.

Theorem C54_subscript : forall N dfl mf l m w x c v it n r, 0 < N -> vec_history N dfl l m -> dexec N dfl mf l ∅ = WOk w None None -> w !! x = Some c -> m !! x = Some v ->
  is_u64 (idx it) -> (0 <= idx it + n < 2 ^ 64)%Z -> v !! Z.to_nat (idx it + n) = Some r -> it_at it n c None = DOk r c None.
Proof. exact subscript_ok. Qed.
Print Assumptions C54_subscript.
Example C54_subscript_case : match dpv_world !! 1 with Some c => match it_at (Iter 4) (-2) c None with DOk r _ _ => r = [22; 23; 24] | _ => False end | None => False end.
Proof. vm_compute. reflexivity. Qed.

Theorem C54_begin_and_end : forall N dfl mf l m w x c v, 0 < N -> vec_history N dfl l m -> dexec N dfl mf l ∅ = WOk w None None -> w !! x = Some c -> m !! x = Some v -> (Z.of_nat (length v) < 2 ^ 63)%Z ->
  exists b e, it_begin c None = DOk b c None /\ it_end c None = DOk e c None /\ it_diff e b = Z.of_nat (length v) /\
    forall i, i <= length v -> it_at_end (it_add b (Z.of_nat i)) c None = DOk (bool_decide (i = length v)) c None.
Proof. exact begin_end_ok. Qed.
Print Assumptions C54_begin_and_end.
Example C54_begin_case : match dpv_world !! 1 with Some c => match it_end c None with DOk e _ _ => e = Iter 6 | _ => False end | None => False end.
Proof. vm_compute. reflexivity. Qed.

(** C55: growth that throws after the first column leaves columns of different lengths, whatever the vector holds *)
Theorem C55_growth_refuted : forall N dfl mf l m w x v r k, 2 <= N -> vec_history N dfl l m -> dexec N dfl mf l ∅ = WOk w None None -> m !! x = Some v -> is_row N r -> 0 < k < N ->
  (exists w' c', dstep N dfl mf (DPush x r) w (Some k) = WThrow w' /\ w' !! x = Some c' /\ ~ valid_vec N c') /\
  (forall i, i <= length v -> exists w' c', dstep N dfl mf (DInsert x i r) w (Some k) = WThrow w' /\ w' !! x = Some c' /\ ~ valid_vec N c') /\
  (forall i n, i <= length v -> 0 < n -> exists w' c', dstep N dfl mf (DInsertN x i n r) w (Some k) = WThrow w' /\ w' !! x = Some c' /\ ~ valid_vec N c').
Proof. intros N dfl mf l m w x v r k HN. exact (torn N HN dfl mf l m w x v r k). Qed.
Print Assumptions C55_growth_refuted.
Example C55_case : dstep 3 zero zero (DPush 1 [4; 5; 6]) (<[1 := [[1]; [2]; [3]]]> ∅) (Some 2) = WThrow (<[1 := [[1; 4]; [2; 5]; [3]]]> (<[1 := [[1]; [2]; [3]]]> ∅)).
Proof. vm_compute. reflexivity. Qed.
(** Missing: the statements of C55_growth_refuted with two or more fields and an exception after the first column *)
Theorem C55_exceptions_partial : forall N dfl mf o w w',
  (dstep N dfl mf o w (Some 0) = WThrow w' -> w' = w) /\
  (forall t, keeps_size o = true -> all_valid N w -> dstep N dfl mf o w t = WThrow w' -> all_valid N w') /\
  (forall t, N = 1 -> all_valid N w -> dstep N dfl mf o w t = WThrow w' -> all_valid N w').
Proof. exact exceptions_ok. Qed.
Print Assumptions C55_exceptions_partial.
Example C55_partial_case : dstep 3 zero zero (DPush 1 [4; 5; 6]) (<[1 := [[1]; [2]; [3]]]> ∅) (Some 0) = WThrow (<[1 := [[1]; [2]; [3]]]> (<[1 := [[1]; [2]; [3]]]> ∅)) /\
  dstep 3 zero zero (DSet 1 0 [4; 5; 6]) (<[1 := [[1]; [2]; [3]]]> ∅) (Some 2) = WThrow (<[1 := [[4]; [5]; [3]]]> (<[1 := [[1]; [2]; [3]]]> ∅)) /\
  dstep 1 zero zero (DInsertRange 1 0 false false [0] [[4]; [5]]) (<[1 := [[1]]]> ∅) (Some 1) = WThrow (<[1 := [[4; 1]]]> (<[1 := [[1]]]> ∅)).
Proof. vm_compute. repeat split; reflexivity. Qed.

(** C56 *)
Theorem C56_swap_rows : forall N dfl mf l m w x i y j a b, 0 < N -> vec_history N dfl l m -> dexec N dfl mf l ∅ = WOk w None None -> row_at w x i = Some a -> row_at w y j = Some b ->
  exists w', dstep N dfl mf (DSwapRows x i y j) w None = WOk w' None None /\
    (forall z, size_at w' z = size_at w z) /\
    (forall z k, row_at w' z k = if decide (z = y /\ k = j) then Some a else if decide (z = x /\ k = i) then Some b else row_at w z k).
Proof. intros N dfl mf l m w x i y j a b HN Hh He. exact (swap_rows_ok N HN dfl mf l m w Hh He x i y j a b). Qed.
Print Assumptions C56_swap_rows.
Example C56_case : row_at dpv_world 1 1 = Some [10; 11; 12] /\ row_at dpv_world 2 2 = Some [1; 2; 3] /\
  match dstep 3 zero zero (DSwapRows 1 1 2 2) dpv_world None with WOk w _ _ => row_at w 1 1 = Some [1; 2; 3] /\ row_at w 2 2 = Some [10; 11; 12] | _ => False end.
Proof. vm_compute. repeat split; reflexivity. Qed.
Theorem C56_assign_row : forall N dfl mf l m w x i a, 0 < N -> vec_history N dfl l m -> dexec N dfl mf l ∅ = WOk w None None -> row_at w x i = Some a ->
  (forall r, is_row N r -> exists w', dstep N dfl mf (DSet x i r) w None = WOk w' None None /\
    forall z k, size_at w' z = size_at w z /\ row_at w' z k = if decide (z = x /\ k = i) then Some r else row_at w z k) /\
  (forall y j b, row_at w y j = Some b -> exists w', dstep N dfl mf (DSetFrom x i y j) w None = WOk w' None None /\
    forall z k, size_at w' z = size_at w z /\ row_at w' z k = if decide (z = x /\ k = i) then Some b else row_at w z k).
Proof. intros N dfl mf l m w x i a HN Hh He Ha. exact (conj (fun r => set_row_ok N HN dfl mf l m w Hh He x i a r Ha) (fun y j b => set_from_ok N HN dfl mf l m w Hh He x i y j a b Ha)). Qed.
Print Assumptions C56_assign_row.
Example C56_assign_case : match dstep 3 zero zero (DSetFrom 1 1 2 2) dpv_world None with WOk w _ _ => row_at w 1 1 = Some [1; 2; 3] /\ row_at w 1 2 = Some [22; 23; 24] | _ => False end.
Proof. vm_compute. repeat split; reflexivity. Qed.
