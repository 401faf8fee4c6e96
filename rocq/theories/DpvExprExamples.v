(** Expressions used as examples for C82.  v1, v2: the vectors 1 and 2; cv1, cv2: const references to them. *)
From Coq Require Import ZArith.
From stdpp Require Import gmap list.
From Verif Require Import AnyModel DpvModel DpvSpec DpvExprModel DpvExprSpec DpvExamples.

(** v2.front() = cv1[1] *)
Definition copy_into_second : expr := ESetRef (EFront (EVec false 2)) (EIndex (EVec true 1) 1).
(** get<0>(cv1[1]) = 5: does not compile *)
Definition write_through_const : expr := EWrite (EGet 0 (EIndex (EVec true 1) 1)) 5.
(** get<1>( *++v1.begin()) = 99, swap(v1[0], *(v2.end() - 2)), value_type(std::ranges::iter_move(v2.begin() + 1)), v1[1] == *(v1.begin() + 1) *)
Definition mixed : expr :=
  ESeq (EWrite (EGet 1 (EDeref (EInc (EBegin (EVec false 1))))) 99)
    (ESeq (ESwap (EIndex (EVec false 1) 0) (EDeref (ESub (EEnd (EVec false 2)) 2)))
       (ESeq (EIterMove (EAdd (EBegin (EVec false 2)) 1)) (EEq (EIndex (EVec false 1) 1) (EDeref (EAdd (EBegin (EVec false 1)) 1))))).
Definition nat_eq : nat -> nat -> nat -> bool := fun _ a b => a =? b.
Lemma by_value_eq j x y : by_value j x y = Some Eq <-> nat_eq j x y = true.
Proof. unfold by_value, nat_eq. rewrite Nat.eqb_eq, <- Nat.compare_eq_iff. split; [by intros [= ->]|by intros ->]. Qed.
(** reference as const_reference *)
Definition as_const_reference : expr := EAsConst (EFront (EVec false 1)).
(** reference <=> const_reference of one vector *)
Definition ref_cmp_const : expr := ECmp (EFront (EVec false 1)) (EDeref (ECBegin (EVec false 1))).
