(** Programs that hand on values on the heap. *)
From stdpp Require Import gmap list.
From Verif Require Import TypeListSpec AnyModel AnyInv AnyHistory AnyFacts AnyExec AnyExamples PolyModel PolySpec PolyProofs PolyExamples FollowSpec.

(** a value on the heap is moved, changed by a method, swapped, copied, converted and assigned *)
Definition journey : list op :=
  [OMove 11 10; OInvoke 11 0 5; OSwap 11 2 9; OCopy 13 2 full; OEmplace 11 5 (AVal 3) true; OMoveAssign 0 2; OSwap 0 0 9; OTransMove 12 0 part; ODtor 10].
(** the same without the method *)
Definition quiet_journey : list op := [OMove 11 10; OSwap 11 2 9; OMoveAssign 0 2; OTransMove 12 0 part; OReset 0].
(** one that leaves the value in an any with the method, and a reference to it *)
Definition short_journey : list op := [OMove 11 10; OSwap 11 2 9; OMoveAssign 0 2; OReset 2].
Definition to_ten : cur := match bindM (start obs0 (OAddr 10)) (run_steps obs0 [ToPtr [MUser 0; MDestroy]; Deref]) (after tourE tour) with Ok c _ => c | _ => CState true 0 end.
(** two anys whose allocators neither compare equal nor propagate *)
Definition apartE : env := mkE 16 false false false [].
Definition apart : list op := [OValue 0 1 full 1 (AVal 10) false; ODefault 1 2 full].
(** values handed on there *)
Definition apart_journey : list op := [OMove 2 0; OCopyAssign 1 2 9; OInvoke 2 0 5; OMove 3 2; OSwap 1 2 9; OMoveAssign 2 1; ODtor 1].

Lemma apart_not_kept : exists E l w w' i j b, env_wf E /\ reachable E w /\ allowed_alloc E l w /\ exec E l w = Ok tt w' /\ follow l i = Some j /\
  address w i = Some (PHeap b) /\ content w' j = content w i /\ ~ kept w i w' j b.
Proof.
  exists apartE, [OMoveAssign 1 0], (after apartE apart), (after apartE (apart ++ [OMoveAssign 1 0])), 0, 1.
  eexists. split; [apply mkE_wf|]. split; [apply after_reachable; by vm_compute|]. split; [apply allowedb_sound; by vm_compute|].
  split; [cbn [exec]; rewrite (run_ok apartE apart (OMoveAssign 1 0)) by (by vm_compute); done|]. split; [by vm_compute|].
  split; [by vm_compute|]. split; [by vm_compute|]. intros [H _]. revert H. by vm_compute.
Qed.

(** the reference *)
Lemma ten_begins : begins (after tourE tour) (OAddr 10) (VView KPtr full) (Some (0, PHeap 16)).
Proof.
  apply (bg_addr _ 10 (Any (Some (addr_vtable_for 0 full)) (PHeap 16) (USize 4) 0 full)); [by vm_compute|].
  split; [by vm_compute|]. exists 50. by vm_compute.
Qed.
Lemma ten_chain : chain (VView KPtr full) [ToPtr [MUser 0; MDestroy]; Deref] (VView KRef [MUser 0; MDestroy]).
Proof.
  econstructor; [|econstructor; constructor]. constructor. exists 0. exists [], [MMove; MCopy true; MTypeInfo; MUser 1]. done.
Qed.
Lemma ten_obtained : obtained obs0 (after tourE tour) (OAddr 10) [ToPtr [MUser 0; MDestroy]; Deref] to_ten (after tourE tour).
Proof.
  assert (Hr : reachable tourE (after tourE tour)) by (apply after_reachable; by vm_compute).
  pose proof ten_begins as Hb. unfold to_ten, obtained. generalize dependent (after tourE tour). intros w Hr Hb.
  destruct (chain_ok tourE obs0 w _ _ _ _ _ (reachable_inv _ _ (mkE_wf _ _ _ _ _) Hr) Hb ten_chain) as (c & w' & Ho & (m & -> & Hm & Hn) & _); [done|split; [constructor|done]|].
  unfold obtained in Ho. rewrite Ho. f_equal. destruct w. unfold set_sref. cbn in *. f_equal. apply map_eq. intros r.
  destruct (w_sref !! r) as [s|] eqn:Hs; [by eapply lookup_weaken|]. destruct (m !! r) as [s|] eqn:Hmr; [|done].
  destruct (Hn r) as [[x Hx]|[]]; [by eexists|congruence].
Qed.
