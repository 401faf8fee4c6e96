(** Programs used as examples for C102 and C103. *)
From Coq Require Import ZArith.
From stdpp Require Import gmap list.
From Verif Require Import AnyModel DpvModel DpvSpec DpvExprModel DpvExprSpec DpvProgModel DpvProgSpec DpvAlgoModel DpvExamples DpvExprExamples.

(** a checker for [vruns]; statements that [vec_legalb] does not know are refused *)
Definition smallb (m : gmap nat (list row)) : bool := bool_decide (map_Forall (fun _ u => (Z.of_nat (length u) < 2 ^ 63)%Z) m).
Section Check.
  Context (N : nat) (dfl mf : nat -> nat) (cmp : nat -> nat -> nat -> option comparison) (eqf : nat -> nat -> nat -> bool).
  Fixpoint vrunb {A} (p : prog A) (m : gmap nat (list row)) : option (A * gmap nat (list row)) :=
    match p with
    | PRet a => Some (a, m)
    | POp o k => if vec_legalb N o m then vrunb (k (snd (vec_step N dfl o m))) (fst (vec_step N dfl o m)) else None
    | PEx e k => match vty N e with
                 | Some _ => if supported N e && forward_only e && smallb m then match vev N mf cmp eqf e m with Some (v, m1) => vrunb (k v) m1 | None => None end else None
                 | None => None
                 end
    | PAuto _ _ => None
    end.
  Lemma vrunb_ok {A} ndebug (p : prog A) : forall m a m', vrunb p m = Some (a, m') -> vruns N dfl mf ndebug cmp eqf false p m a m'.
  Proof.
    induction p as [a|o k IH|e k IH|e k IH]; intros m a' m' H; cbn in H.
    - injection H as <- <-. constructor.
    - destruct (vec_legalb N o m) eqn:E; [|done]. constructor; [by apply vec_legalb_ok|by apply IH].
    - destruct (vty N e) as [t|] eqn:Et; [|done]. destruct (supported N e && forward_only e && smallb m) eqn:E; [|done]. apply andb_true_iff in E as [E E3]. apply andb_true_iff in E as [E1 E2].
      destruct (vev N mf cmp eqf e m) as [[v m1]|] eqn:Ev; [|done]. apply bool_decide_eq_true in E3. eapply vr_ex; [done|done|by right| |done|by apply IH]. intros x u Hx. by apply (E3 x u).
    - done.
  Qed.
End Check.

(** makes a vector of four rows, sorts it, erases the rows that begin with 4 and gives the last row of the rest *)
Definition build_and_sort : prog xval :=
  POp (DNew 1) (fun _ => POp (DPush 1 [4; 5; 6]) (fun _ => POp (DPush 1 [1; 2; 3]) (fun _ => POp (DPush 1 [4; 0; 6]) (fun _ => POp (DInsert 1 0 [1; 9; 3]) (fun _ =>
  pbind (sort 1) (fun _ => pbind (erase_if 1 (fun r => bool_decide (head r = Some 4))) (fun _ => PEx (EValue (EBack (EVec false 1))) PRet))))))).
Definition built : gmap nat (list row) := match vrunb 3 zero zero by_value nat_eq build_and_sort ∅ with Some (_, m) => m | None => ∅ end.
Lemma by_value_total : total_order by_value.
Proof.
  split; [|split; [|split]]; unfold by_value.
  - intros. by eexists.
  - intros j x y. rewrite (Nat.compare_antisym y x). split; intros [= H]; by destruct (y ?= x).
  - intros j x y z [= H1] [= H2]. apply Nat.compare_lt_iff in H1, H2. f_equal. apply Nat.compare_lt_iff. lia.
  - intros j x y z [= H]. apply Nat.compare_eq_iff in H. by subst.
Qed.
