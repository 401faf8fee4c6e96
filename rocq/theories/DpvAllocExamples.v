(** Programs used as examples of the theorems about the allocators of data_parallel_vector. *)
From stdpp Require Import gmap list.
From Verif Require Import AnyModel DpvModel DpvAllocModel DpvAllocSpec.

(** allocators that propagate on nothing, on everything *)
Definition tr_no : atraits := ATraits false false false (fun a => a) (Some 0).
Definition tr_all : atraits := ATraits true true true (fun a => S a) (Some 0).
Definition tr_nodef : atraits := ATraits true true true (fun a => a) None.
Definition yes (_ : nat) : bool := true.
Definition none_left (_ : list nat) : list nat := [].
(** all allocations but one succeed *)
Definition only (k n : nat) : bool := negb (Nat.eqb k n).

Fixpoint run_a tr alloc reuse left (ops : list aop) (w : aworld) : ares :=
  match ops with
  | [] => AOk w
  | o :: tl => match astep tr alloc reuse left o w with AOk w' => run_a tr alloc reuse left tl w' | r => r end
  end.
Definition ok_world (r : ares) : aworld := match r with AOk w | AThrow w => w | ABad _ => AW ∅ 0 end.
Definition world_of tr alloc reuse left ops : aworld := ok_world (run_a tr alloc reuse left ops (AW ∅ 0)).

(** two vectors with two fields and the allocators 5 and 7 *)
Definition two_vectors : list aop := [ANew 0 [[1; 2]; [10; 20]] 5; ANew 1 [[3]; [30]] 7].
Lemma run_program tr alloc reuse left N ops : forall w w', a_program tr alloc reuse left N w -> Forall (aop_wf N) ops ->
  run_a tr alloc reuse left ops w = AOk w' -> a_program tr alloc reuse left N w'.
Proof.
  induction ops as [|o ops IH]; intros w w' P W E; cbn in E; [by injection E as <-|]. apply Forall_cons in W as [W1 W2].
  destruct (astep tr alloc reuse left o w) as [w1|w1|r] eqn:S; [|discriminate..]. apply (IH w1 w'); [by eapply ap_ok|done|done].
Qed.
