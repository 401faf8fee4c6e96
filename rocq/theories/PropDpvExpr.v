(** Expressions on the elements of data_parallel_vectors: C82. *)
From Coq Require Import ZArith.
From stdpp Require Import gmap list.
From Verif Require Import AnyModel DpvModel DpvIterModel DpvSpec DpvExprModel DpvExprSpec DpvExprProofs DpvExprSim DpvExamples DpvExprExamples.

(** C82: vectors named only as const keep all their columns, whatever else the expression does *)
Theorem C82_const_vectors_stay : forall N mf ndebug cmp e t w a w', dty N e = Some t -> dev N mf ndebug cmp e w = Some (a, w') -> forall x, x ∉ open_vecs e -> w' !! x = w !! x.
Proof. intros N mf ndebug cmp e t w a w' Ht H. exact (proj1 (frame N mf ndebug cmp e t w a w' Ht H)). Qed.
Print Assumptions C82_const_vectors_stay.
Example C82_const_case : dty 3 copy_into_second = Some (TRef false) /\ match dev 3 zero false by_value copy_into_second dpv_world with Some (_, w') => row_at w' 2 0 = row_at dpv_world 1 1 | None => False end /\
  1 ∉ open_vecs copy_into_second /\ dty 3 write_through_const = None.
Proof. split; [reflexivity|]. split; [vm_compute; reflexivity|]. split; [vm_compute; set_solver|reflexivity]. Qed.

(** C82: what compiles does what it does for std::vector; [dexec] any program made before *)
Theorem C82_same_value_and_effect : forall N dfl mf ndebug cmp eqf l m w e t a m', 0 < N -> vec_history N dfl l m -> dexec N dfl mf l ∅ = WOk w None None ->
  (forall x v, m !! x = Some v -> (Z.of_nat (length v) < 2 ^ 63)%Z) ->
  (forall j x y, cmp j x y = Some Eq <-> eqf j x y = true) -> ndebug = true \/ forward_only e = true ->
  dty N e = Some t -> vev N mf cmp eqf e m = Some (a, m') ->
  exists w', dev N mf ndebug cmp e w = Some (a, w') /\ (forall x, is_Some (w' !! x) <-> is_Some (m' !! x)) /\
    forall x c v, w' !! x = Some c -> m' !! x = Some v -> same_contents c v /\ same_columns N c v.
Proof. exact expr_as_vector. Qed.
Print Assumptions C82_same_value_and_effect.
Example C82_effect_case : vec_history 3 zero dpv_prog dpv_final /\ dexec 3 zero zero dpv_prog ∅ = WOk dpv_world None None /\ forward_only mixed = true /\ dty 3 mixed = Some TBool /\
  match vev 3 zero by_value nat_eq mixed dpv_final with Some (a, m') => a = XBool true /\ m' <> dpv_final | None => False end /\
  match dev 3 zero false by_value mixed dpv_world with Some (a, w') => a = XBool true /\ row_at w' 1 1 = Some [10; 99; 12] /\ row_at w' 2 1 = Some [0; 0; 0] | None => False end.
Proof. split; [exact dpv_prog_ok|]. split; [reflexivity|]. split; [reflexivity|]. split; [reflexivity|]. split; vm_compute; repeat split; discriminate. Qed.
Example C82_comparison_case : forall j x y, by_value j x y = Some Eq <-> nat_eq j x y = true.
Proof. exact by_value_eq. Qed.

(** C82.  Missing: the forms [supported] leaves out (below) *)
Theorem C82_compiles_as_vector_partial : forall N e t, dty N e = Some t <-> vty N e = Some t /\ supported N e = true.
Proof. intros N e t. split; [intros H; split; [by apply dty_vty|by eapply dty_supported]|intros [H Hs]; by apply supported_dty]. Qed.
Print Assumptions C82_compiles_as_vector_partial.

Example C82_compiles_case : supported 3 mixed = true /\ vty 3 mixed = Some TBool /\ vty 3 write_through_const = None /\ supported 3 ref_cmp_const = false /\ supported 3 as_const_reference = false.
Proof. repeat split. Qed.

(** back() of a const vector *)
Theorem C82_back_of_const_refuted : exists e t, forall N, vty N (EBack e) = Some t /\ (exists t', dty N (EFront e) = Some t') /\ dty N (EBack e) = None.
Proof. exists (EVec true 0), (TRef true). intros N. repeat split. by eexists. Qed.
Print Assumptions C82_back_of_const_refuted.
(** iterator - const_iterator, though const_iterator - iterator compiles *)
Theorem C82_iterator_difference_refuted : exists a b t, forall N, vty N (EDiff a b) = Some t /\ dty N (EDiff a b) = None /\ dty N (EDiff b a) = Some t.
Proof. exists (EEnd (EVec false 1)), (ECBegin (EVec false 1)), TDiff. intros N. repeat split. Qed.
Print Assumptions C82_iterator_difference_refuted.
(** reference == and <=> const_reference, though both compile among references and among const_references *)
Theorem C82_mixed_comparison_refuted : exists a b, forall N, vty N (ECmp a b) = Some TOrd /\ vty N (EEq a b) = Some TBool /\
  dty N (ECmp a b) = None /\ dty N (ECmp b a) = None /\ dty N (EEq a b) = None /\ dty N (EEq b a) = None /\
  forall e, e = a \/ e = b -> dty N (ECmp e e) = Some TOrd /\ dty N (EEq e e) = Some TBool.
Proof. exists (EFront (EVec false 1)), (EDeref (ECBegin (EVec false 1))). intros N. repeat (split; [done|]). by intros e [-> | ->]. Qed.
Print Assumptions C82_mixed_comparison_refuted.
(** a reference as const_reference: the conversion is declared but cannot be instantiated *)
Theorem C82_const_reference_refuted : exists e, forall N, dty N e = Some (TRef false) /\ vty N (EAsConst e) = Some (TRef true) /\ dty N (EAsConst e) = None.
Proof. exists (EFront (EVec false 1)). intros N. repeat split. Qed.
Print Assumptions C82_const_reference_refuted.
