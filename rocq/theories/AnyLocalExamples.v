(** Programs used by the examples of C94. *)
From stdpp Require Import gmap list sets.
From Verif Require Import TypeListModel TypeListSpec AnyModel AnyInv AnyHistory AnyExec AnyFacts AnyExamples AnyLocalSpec.

Definition calm : nat -> bool := fun _ => false.
Definition at_first : nat -> bool := fun k => k =? 0.

(** two programs that both copy the values of anys 6 and 10 (on the heap) and otherwise use different anys *)
Definition one : list ((nat -> bool) * op) :=
  [(calm, OCopy 11 10 part); (at_first, OCopy 13 6 part); (calm, OCopy 13 6 part); (calm, OEmplace 0 0 (AFrom 10) false); (calm, OSwap 0 4 9);
   (calm, OSref 1 4 [MCopy true; MDestroy]); (calm, OMaterialize 14 0 (RSref 1)); (calm, ODtor 7); (calm, ODropSref 0); (calm, OInvoke 0 1 7)].
Definition two : list ((nat -> bool) * op) :=
  [(calm, OCopy 12 10 part); (calm, OMoveAssign 2 3); (at_first, OEmplace 3 1 (AFrom 6) false); (calm, OEmplace 3 1 (AFrom 6) false);
   (calm, ODtor 12); (calm, ODtor 5)].
Definition S_one : gset nat := {[0; 4; 6; 7; 9; 10; 11; 13; 14]}.
Definition W_one : gset nat := {[0; 4; 7; 9; 11; 13; 14]}.
Definition S_two : gset nat := {[2; 3; 5; 6; 10; 12]}.
Definition W_two : gset nat := {[2; 3; 5; 12]}.

(** merge by turns *)
Fixpoint merge {A} (s : list bool) (l1 l2 : list A) : option (list A) :=
  match s, l1, l2 with
  | [], [], [] => Some []
  | true :: s, x :: l1, l2 => cons x <$> merge s l1 l2
  | false :: s, l1, x :: l2 => cons x <$> merge s l1 l2
  | _, _, _ => None
  end.
Lemma merge_interleaved {A} s (l1 l2 l : list A) : merge s l1 l2 = Some l -> interleaved l1 l2 s l.
Proof.
  revert l1 l2 l. induction s as [|[] s IH]; intros l1 l2 l H; cbn in H.
  - destruct l1, l2; try done. injection H as <-. constructor.
  - destruct l1 as [|x l1]; [done|]. destruct (merge s l1 l2) eqn:He; [|done]. injection H as <-. constructor. by apply IH.
  - destruct l2 as [|x l2]; [by destruct l1|]. destruct (merge s l1 l2) eqn:He; [|by destruct l1]. destruct l1; injection H as <-; constructor; by apply IH.
Qed.
Definition turns : list bool := [true; false; false; true; true; false; true; true; false; true; true; false; true; true; false; true].

(** two memories with the same any 1, at different addresses and beside different other anys *)
Definition alone : world := after tourE [OValue 1 0 full 1 (AVal 50) false].
Definition crowded : world := after (mkE 16 true false false []) [OForce 3 full 0 (AVal 7) false; OValue 1 0 full 1 (AVal 50) false; OReset 3].
Definition any_one : list ((nat -> bool) * op) := [(at_first, OCopy 2 1 part); (calm, OCopy 2 1 part); (calm, ODtor 1)].

Definition stays_inb (S R W X : gset nat) (l : list ((nat -> bool) * op)) : bool :=
  forallb (fun fo => bool_decide (names fo.2 ⊆ S /\ refs fo.2 ⊆ R /\ changes fo.2 ⊆ W /\ ref_changes fo.2 ⊆ X)) l.
Lemma stays_inb_sound S R W X l : stays_inb S R W X l = true -> stays_in S R W X l.
Proof. intros H f o Hin. apply (forallb_forall _ _) with (x := (f, o)) in H; [|done]. by apply bool_decide_eq_true in H. Qed.
Definition refs_withinb (S R : gset nat) (w : world) : bool :=
  forallb (fun r => match w_sref w !! r with
                    | Some s => match sr_ptr s with PData j => bool_decide (j ∈ S) | PHeap b =>
                        existsb (fun i => match w_any w !! i with Some a => match a_vp a with PHeap c => b =? c | _ => false end | None => false end) (elements S) end
                    | None => true end) (elements R) &&
  forallb (fun i => match w_any w !! i with
                    | Some a => match a_vt a with Some v => match vp_home v with Some r => bool_decide (r ∈ R) | None => true end | None => true end
                    | None => true end) (elements S).
Lemma refs_withinb_sound S R w : refs_withinb S R w = true -> refs_within S R w.
Proof.
  intros H. apply andb_prop in H as [H1 H2]. rewrite forallb_forall in H1, H2. split.
  - intros r s Hr Hs. specialize (H1 r). rewrite Hs in H1. assert (In r (elements R)) as Hin by (by apply elem_of_list_In, elem_of_elements).
    specialize (H1 Hin). destruct (sr_ptr s) as [j|b]; [by apply bool_decide_eq_true in H1|].
    apply existsb_exists in H1 as (i & Hi & Hb). exists i. split; [by apply elem_of_elements, elem_of_list_In|].
    destruct (w_any w !! i) as [a|] eqn:Ha; [|done]. exists a. split; [done|]. destruct (a_vp a) as [|c]; [done|]. apply Nat.eqb_eq in Hb. by subst.
  - intros i a v Hi Ha Hv. specialize (H2 i). rewrite Ha, Hv in H2. assert (In i (elements S)) as Hin by (by apply elem_of_list_In, elem_of_elements).
    specialize (H2 Hin). unfold home_in. destruct (vp_home v); [by apply bool_decide_eq_true in H2|done].
Qed.
Definition interleaving : list ((nat -> bool) * op) := match merge turns one two with Some l => l | None => [] end.
Lemma alone_crowded : alike {[1; 2]} ∅ (fun b b' => b = 0 /\ b' = 2) alone crowded.
Proof.
  split.
  - intros i Hi. assert (i = 1 \/ i = 2) as [-> | ->] by set_solver.
    + replace (w_any alone !! 1) with (Some (Any (Some (VPtr None (map (fun m => (1, m)) full) 0)) (PHeap 0) (USize 32) 0 full)) by (by vm_compute).
      replace (w_any crowded !! 1) with (Some (Any (Some (VPtr None (map (fun m => (1, m)) full) 0)) (PHeap 2) (USize 32) 0 full)) by (by vm_compute).
      repeat split.
    + replace (w_any alone !! 2) with (@None any) by (by vm_compute). by replace (w_any crowded !! 2) with (@None any) by (by vm_compute).
  - intros r Hr. exfalso. exact (not_elem_of_empty (C := gset nat) r Hr).
  - intros b b' [-> ->]. replace (w_heap alone !! 0) with (Some (Block 0 32 (Some (Obj 1 50 1)))) by (by vm_compute).
    by replace (w_heap crowded !! 2) with (Some (Block 0 32 (Some (Obj 1 50 3)))) by (by vm_compute).
  - intros b b' c c' [-> ->] [-> ->]. done.
  - intros b b' [-> ->]. replace (w_next alone) with 2 by (by vm_compute). replace (w_next crowded) with 4 by (by vm_compute). lia.
Qed.
