(** Examples for UsesModel: the types of ConsExamples, with a class that takes an allocator as its last argument. *)
From stdpp Require Import list.
From Verif Require Import TypeListSpec ConsModel ConsSpec ConsProofs ConsExamples UsesModel UsesSpec UsesProofs.

(** TObj 3 is made from a TObj 5, and from a TObj 5 and an allocator of class 0 *)
Definition us_env : env := Env (e_copy ex_env) (e_move ex_env) (e_destroy ex_env) (e_user ex_env)
  (fun t xs => match t, xs with
               | TObj 3, [AExpr (TObj 5) _ _] => true
               | TObj 3, [AExpr (TObj 5) _ _; AExpr (TAlloc 0) _ _] => true
               | t, xs => e_make ex_env t xs
               end).
Definition us_tag : arg := AExpr (TInPlace (TObj 3)) true true.
Definition us_arg : arg := AExpr (TObj 5) false true.

Lemma uses_copy_refuted : exists E a c lv m m', uses_construct E a (at_al a) [AExpr (TAny a) c lv] = Done m /\
  means E a (RWithAlloc false false true true (Some (WValue (TAny a) c lv))) m' /\ md_content m' = CopyOf /\ md_content m = Holds (TAny a) [AExpr (TAny a) c lv].
Proof.
  exists ex_env, any_copy, true, true. exists (Made (Holds (TAny any_copy) [AExpr (TAny any_copy) true true]) false FromArg), (Made CopyOf false FromArg).
  split; [vm_compute; reflexivity|]. split; [|done]. eapply mn_take_alloc, tk_copy; [now left|done|]. now left.
Qed.
Lemma uses_move_refuted : exists E a m m', uses_construct E a (at_al a) [AExpr (TAny a) false false] = Done m /\
  means E a (RWithAlloc false false true true (Some (WValue (TAny a) false false))) m' /\ md_content m' = MoveOf /\ md_content m = Holds (TAny a) [AExpr (TAny a) false false].
Proof.
  exists ex_env, any_copy. exists (Made (Holds (TAny any_copy) [AExpr (TAny any_copy) false false]) false FromArg), (Made MoveOf false FromArg).
  split; [vm_compute; reflexivity|]. split; [|done]. eapply mn_take_alloc, tk_move; [now left|]. left. right. exists 0, 64. now left.
Qed.
Lemma uses_in_place_refuted : exists E a t c lv x m m', uses_construct E a (at_al a) [AExpr (TInPlace t) c lv; x] = Done m /\
  means E a (RWithAlloc false false true true (Some (WInPlace t c lv [x]))) m' /\ md_alloc m' = FromArg /\ md_content m' = Holds t [x] /\
  md_alloc m = FromDefault /\ md_content m = Holds t [x; the_allocator a].
Proof.
  exists us_env, any_copy, (TObj 3), true, true, us_arg.
  exists (Made (Holds (TObj 3) [us_arg; the_allocator any_copy]) false FromDefault), (Made (Holds (TObj 3) [us_arg]) false FromArg).
  split; [vm_compute; reflexivity|]. split; [|done]. apply mn_with_alloc, st_in_place; [|done]. apply suits_spec. vm_compute. reflexivity.
Qed.
(** without a constructor that takes the allocator it does not compile *)
Lemma uses_in_place_ill_refuted : exists E a t c lv xs m', uses_construct E a (at_al a) (AExpr (TInPlace t) c lv :: xs) = Ill /\
  means E a (RWithAlloc false false true true (Some (WInPlace t c lv xs))) m'.
Proof.
  exists ex_env, any_copy, (TObj 0), true, true, [AExpr (TObj 5) false true; AExpr (TObj 5) false false]. eexists.
  split; [vm_compute; reflexivity|]. apply mn_with_alloc, st_in_place; [|done]. apply suits_spec. vm_compute. reflexivity.
Qed.
Lemma uses_tag_refuted : exists E a t c lv m m', uses_construct E a (at_al a) [AExpr (TInPlace t) c lv] = Done m /\
  means E a (RWithAlloc false false true true (Some (WInPlace t c lv []))) m' /\ md_content m' = Holds t [] /\
  md_content m = Holds (TInPlace t) [AExpr (TInPlace t) c lv].
Proof.
  exists ex_env, any_copy, (TObj 0), true, true.
  exists (Made (Holds (TInPlace (TObj 0)) [AExpr (TInPlace (TObj 0)) true true]) false FromArg), (Made (Holds (TObj 0) []) false FromArg).
  split; [vm_compute; reflexivity|]. split; [|done]. apply mn_with_alloc, st_in_place; [|done]. apply suits_spec. vm_compute. reflexivity.
Qed.
