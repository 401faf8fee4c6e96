(** Programs and algorithms on data_parallel_vectors: C102, C103. *)
From Coq Require Import ZArith.
From stdpp Require Import gmap list.
From Verif Require Import AnyModel DpvModel DpvSpec DpvExprModel DpvExprSpec DpvProgModel DpvProgSpec DpvAlgoModel DpvProgProofs DpvExamples DpvExprExamples DpvProgExamples.

(** C102: every program gives the result it gives on std::vectors and leaves the same vectors.
    Missing: elements kept in auto variables (below); [vruns] also leaves out what data_parallel_vector lacks: C50, C52, C82 *)
Theorem C102_programs_as_vectors_partial : forall A N dfl mf ndebug cmp eqf (p : prog A) a m, 0 < N -> (forall j x y, cmp j x y = Some Eq <-> eqf j x y = true) ->
  vruns N dfl mf ndebug cmp eqf false p ∅ a m -> exists w, drun N dfl mf ndebug cmp p ∅ = Some (a, w) /\ same_vectors N w m.
Proof. exact @program_as_vectors. Qed.
Print Assumptions C102_programs_as_vectors_partial.
Example C102_case : vruns 3 zero zero false by_value nat_eq false build_and_sort ∅ (XRow [1; 9; 3]) built /\ built !! 1 = Some [[1; 2; 3]; [1; 9; 3]] /\
  match drun 3 zero zero false by_value build_and_sort ∅ with Some (a, w) => a = XRow [1; 9; 3] /\ rows_of w 1 = [Some [1; 2; 3]; Some [1; 9; 3]] | None => False end.
Proof. split; [apply vrunb_ok; vm_compute; reflexivity|]. split; [vm_compute; reflexivity|]. vm_compute. split; reflexivity. Qed.

(** C102: auto t = v[i]; v[i] = v[j]; v[j] = t exchanges two elements of a std::vector; a data_parallel_vector has the second one twice afterwards *)
Theorem C102_auto_variable_refuted : forall N dfl mf ndebug cmp l m w x i j v a b, 0 < N -> vec_history N dfl l m -> dexec N dfl mf l ∅ = WOk w None None ->
  (forall x v, m !! x = Some v -> (Z.of_nat (length v) < 2 ^ 63)%Z) -> m !! x = Some v -> v !! i = Some a -> v !! j = Some b -> a <> b ->
  vruns N dfl mf ndebug cmp (fun j x y => bool_decide (cmp j x y = Some Eq)) true (swap_auto x i j) m tt (<[x := <[j := a]> (<[i := b]> v)]> m) /\
  (exists w', drun N dfl mf ndebug cmp (swap_auto x i j) w = Some (tt, w') /\ same_vectors N w' (<[x := <[i := b]> v]> m)) /\ <[j := a]> (<[i := b]> v) <> <[i := b]> v.
Proof.
  intros N dfl mf ndebug cmp l m w x i j v a b HN Hh He Hb Hx Hi Hj Hab. split; [by eapply swap_auto_vectors|]. split; [by eapply swap_auto_loses|by apply (swap_auto_differs v i j a b)].
Qed.
Print Assumptions C102_auto_variable_refuted.
Example C102_auto_case : match drun 3 zero zero false by_value (swap_auto 1 0 1) dpv_world with
  | Some (_, w') => row_at dpv_world 1 0 = Some [4; 5; 6] /\ row_at dpv_world 1 1 = Some [10; 11; 12] /\ row_at w' 1 0 = Some [10; 11; 12] /\ row_at w' 1 1 = Some [10; 11; 12]
  | None => False
  end.
Proof. vm_compute. repeat split. Qed.

(** C103: insertion sort through <=> and iter_swap leaves the same rows in order, and all other vectors as they are *)
Theorem C103_sort : forall N dfl mf ndebug cmp l m w, 0 < N -> vec_history N dfl l m -> dexec N dfl mf l ∅ = WOk w None None ->
  (forall x v, m !! x = Some v -> (Z.of_nat (length v) < 2 ^ 63)%Z) -> forall x v, total_order cmp -> m !! x = Some v ->
  exists w' s, drun N dfl mf ndebug cmp (sort x) w = Some (tt, w') /\ s ≡ₚ v /\ in_order cmp s /\ same_vectors N w' (<[x := s]> m).
Proof. exact sort_sorts. Qed.
Print Assumptions C103_sort.
Example C103_sort_case : total_order by_value /\ match drun 3 zero zero false by_value (sort 1) dpv_world with
  | Some (_, w') => rows_of w' 1 = [Some [1; 2; 3]; Some [4; 5; 6]; Some [7; 8; 9]; Some [10; 11; 12]; Some [16; 17; 18]; Some [22; 23; 24]] /\ rows_of w' 2 = rows_of dpv_world 2
  | None => False
  end.
Proof. split; [exact by_value_total|]. vm_compute. split; reflexivity. Qed.

(** C103: erasing one by one the rows with p leaves the others in their order *)
Theorem C103_erase_if : forall N dfl mf ndebug cmp l m w, 0 < N -> vec_history N dfl l m -> dexec N dfl mf l ∅ = WOk w None None ->
  (forall x v, m !! x = Some v -> (Z.of_nat (length v) < 2 ^ 63)%Z) -> forall x p v, m !! x = Some v ->
  exists w', drun N dfl mf ndebug cmp (erase_if x p) w = Some (tt, w') /\ same_vectors N w' (<[x := filter (fun a => p a = false) v]> m).
Proof. exact erase_if_filters. Qed.
Print Assumptions C103_erase_if.
Example C103_erase_case : match drun 3 zero zero false by_value (erase_if 2 (fun r => bool_decide (head r = Some 19))) dpv_world with
  | Some (_, w') => size_at dpv_world 2 = Some 6 /\ size_at w' 2 = Some 4 /\ rows_of w' 1 = rows_of dpv_world 1
  | None => False
  end.
Proof. vm_compute. repeat split. Qed.
