(** Examples for StdModel: one program compiled as C++17 and as C++20. *)
From stdpp Require Import list.
From Verif Require Import TypeListModel ConsModel ConsSpec ConsExamples StdModel StdSpec.

(** the types of ConsExamples; in C++17 TObj 1, which has an any that cannot be copied as a member, says that it can be copied;
    allocator 0 is std::allocator, allocator 1 is std::pmr::polymorphic_allocator *)
Definition ex_world : world := World ex_env (fun _ => true) (fun _ => true) (fun al => al =? 0).
(** any_with<move> with polymorphic_allocator; an any without a buffer, without move and copy, with polymorphic_allocator *)
Definition any_pmr : anyty := AnyT 1 64 [MMove; MDestroy].
Definition any_heap : anyty := AnyT 1 0 [MDestroy].
Lemma ex_consistent : consistent ex_world.
Proof. intros t. split; intros _; reflexivity. Qed.

Definition tag_of_any : list arg := [AExpr (TInPlace (TAny any_draw)) true true].
Lemma cpp20_stores_tag : exists W a xs m, consistent W /\ construct_in W CPP20 a xs = Done m /\ construct_in W CPP17 a xs = Ill.
Proof.
  exists ex_world, any_copy, tag_of_any, (Made (Holds (TInPlace (TAny any_draw)) tag_of_any) false FromDefault).
  split; [exact ex_consistent|]. split; vm_compute; reflexivity.
Qed.
Lemma traits17 : exists W a, consistent W /\
  says_constructible W CPP17 a true true = true /\ construct_in W CPP17 a [AExpr (TAny a) true true] = Ill /\
  says_assignable W CPP17 a true true = true /\ assign_in W CPP17 a (AExpr (TAny a) true true) = AIll.
Proof. exists ex_world, any_draw. split; [exact ex_consistent|]. repeat split; vm_compute; reflexivity. Qed.
Lemma pinned17 : exists W a, consistent W /\
  says_constructible W CPP17 a false false = true /\ construct_in W CPP17 a [AExpr (TAny a) false false] = Ill /\
  says_assignable W CPP17 a false false = true /\ assign_in W CPP17 a (AExpr (TAny a) false false) = AIll.
Proof. exists ex_world, any_pinned. split; [exact ex_consistent|]. repeat split; vm_compute; reflexivity. Qed.
Lemma exist_for17 : exists W a t, consistent W /\ says_exist_for W CPP17 t (at_ms a) = true /\ ~ suits (w_real W) a t /\
  forall xs, emplace_in W CPP17 a t xs = Ill.
Proof.
  exists ex_world, any_copy, (TAny any_draw). split; [exact ex_consistent|]. split; [vm_compute; reflexivity|]. split.
  - intros H. assert (Hm := H (MCopy 0 64) ltac:(now left)). destruct Hm as ((_ & Hc) & _). specialize (Hc any_draw eq_refl).
    destruct Hc as [Hc|[Hc|[Hc|[]]]]; discriminate Hc.
  - intros [|[t c lv|t] xs]; [vm_compute; reflexivity| |vm_compute; reflexivity]. destruct t; vm_compute; reflexivity.
Qed.
Lemma move_assignable : exists W a, consistent W /\ forall s,
  says_assignable W s a false false = true /\ assign_in W s a (AExpr (TAny a) false false) = AIll /\
  construct_in W s a [AExpr (TAny a) false false] = Done (Made MoveOf false FromMove).
Proof. exists ex_world, any_heap. split; [exact ex_consistent|]. intros []; repeat split; vm_compute; reflexivity. Qed.
Lemma growth17 : exists W a, consistent W /\ growth W CPP20 a = Done (Made MoveOf false FromMove) /\ growth W CPP17 a = Ill.
Proof. exists ex_world, any_pmr. split; [exact ex_consistent|]. split; vm_compute; reflexivity. Qed.
Lemma hash17 : exists h a, hash_enabled CPP17 h a = true /\ hash_body h a = false.
Proof. exists 9, any_draw. split; vm_compute; reflexivity. Qed.
