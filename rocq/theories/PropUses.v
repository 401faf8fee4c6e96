(** Property C97: uses-allocator construction of anys. *)
From stdpp Require Import list.
From Verif Require Import TypeListSpec ConsModel ConsSpec ConsProofs ConsExamples UsesModel UsesSpec UsesProofs UsesExamples.

(** nothing or an ordinary value: as if written with the allocator *)
Theorem C97_values_get_the_allocator_partial :
  forall E a v m, ordinary v ->
  uses_construct E a (at_al a) (arguments a (RPlain v)) = Done m <-> means E a (RWithAlloc false false true true v) m.
Proof. exact uses_value. Qed.
Print Assumptions C97_values_get_the_allocator_partial.
Theorem C97_other_allocators_are_not_used :
  forall E a al r m, al <> at_al a -> proper r -> regular E a r ->
  uses_construct E a al (arguments a r) = Done m <-> means E a r m.
Proof. exact uses_other. Qed.
Print Assumptions C97_other_allocators_are_not_used.
Theorem C97_what_can_be_made :
  forall E a xs m, uses_construct E a (at_al a) xs = Done m -> given a xs m.
Proof. exact uses_outcomes. Qed.
Print Assumptions C97_what_can_be_made.
(** a value in place from arguments: the allocator is one more of them *)
Theorem C97_in_place_passes_the_allocator_on :
  forall E a t c lv x xs m, (forall y, In y (x :: xs) -> ~ is_brace y) -> ~ is_list x ->
  uses_construct E a (at_al a) (AExpr (TInPlace t) c lv :: x :: xs) = Done m <->
  means E a (RPlain (Some (WInPlace t c lv (x :: xs ++ [the_allocator a])))) m.
Proof. exact uses_in_place_arguments. Qed.
Print Assumptions C97_in_place_passes_the_allocator_on.
Theorem C97_anys_are_nested :
  forall E a t c lv m, polymorphic t ->
  uses_construct E a (at_al a) [AExpr t c lv] = Done m <->
  suits E a t /\ e_make E t [AExpr t c lv] = true /\ m = Made (Holds t [AExpr t c lv]) false FromArg.
Proof. exact uses_nests. Qed.
Print Assumptions C97_anys_are_nested.
Theorem C97_never_ambiguous :
  forall E a al xs, uses_construct E a al xs <> Ambiguous /\ uses_construct E a al xs <> Stuck.
Proof. exact uses_never_ambiguous. Qed.
Print Assumptions C97_never_ambiguous.
(** a copy or a move of an any with another allocator was asked for *)
Theorem C97_copying_an_any_refuted :
  exists E a c lv m m', uses_construct E a (at_al a) [AExpr (TAny a) c lv] = Done m /\
    means E a (RWithAlloc false false true true (Some (WValue (TAny a) c lv))) m' /\ md_content m' = CopyOf /\
    md_content m = Holds (TAny a) [AExpr (TAny a) c lv].
Proof. exact uses_copy_refuted. Qed.
Print Assumptions C97_copying_an_any_refuted.
Theorem C97_moving_an_any_refuted :
  exists E a m m', uses_construct E a (at_al a) [AExpr (TAny a) false false] = Done m /\
    means E a (RWithAlloc false false true true (Some (WValue (TAny a) false false))) m' /\ md_content m' = MoveOf /\
    md_content m = Holds (TAny a) [AExpr (TAny a) false false].
Proof. exact uses_move_refuted. Qed.
Print Assumptions C97_moving_an_any_refuted.
(** an object made in place, in an any with the allocator, was asked for *)
Theorem C97_in_place_arguments_refuted :
  exists E a t c lv x m m', uses_construct E a (at_al a) [AExpr (TInPlace t) c lv; x] = Done m /\
    means E a (RWithAlloc false false true true (Some (WInPlace t c lv [x]))) m' /\ md_alloc m' = FromArg /\ md_content m' = Holds t [x] /\
    md_alloc m = FromDefault /\ md_content m = Holds t [x; the_allocator a].
Proof. exact uses_in_place_refuted. Qed.
Print Assumptions C97_in_place_arguments_refuted.
Theorem C97_in_place_compiles_refuted :
  exists E a t c lv xs m', uses_construct E a (at_al a) (AExpr (TInPlace t) c lv :: xs) = Ill /\
    means E a (RWithAlloc false false true true (Some (WInPlace t c lv xs))) m'.
Proof. exact uses_in_place_ill_refuted. Qed.
Print Assumptions C97_in_place_compiles_refuted.
Theorem C97_in_place_without_arguments_refuted :
  exists E a t c lv m m', uses_construct E a (at_al a) [AExpr (TInPlace t) c lv] = Done m /\
    means E a (RWithAlloc false false true true (Some (WInPlace t c lv []))) m' /\ md_content m' = Holds t [] /\
    md_content m = Holds (TInPlace t) [AExpr (TInPlace t) c lv].
Proof. exact uses_tag_refuted. Qed.
Print Assumptions C97_in_place_without_arguments_refuted.

(** std::tuple<any_draw>(std::allocator_arg, alloc, x), an empty one, one that cannot hold x, one whose allocator is of another class *)
Example C97_ex :
  (ordinary (Some (WValue (TObj 0) false true)) /\
   uses_construct us_env any_draw 0 (arguments any_draw (RPlain (Some (WValue (TObj 0) false true)))) = Done (Made (Holds (TObj 0) [AExpr (TObj 0) false true]) false FromArg)) /\
  uses_construct us_env any_draw 0 [] = Done (Made Empty false FromArg) /\
  uses_construct us_env any_draw 0 [AExpr (TObj 1) false false] = Ill /\
  uses_construct us_env any_draw 1 [AExpr (TObj 0) false true] = Done (Made (Holds (TObj 0) [AExpr (TObj 0) false true]) false FromDefault).
Proof. repeat split; vm_compute; first [reflexivity|discriminate|exact id]. Qed.
(** in place: with arguments, and any_draw, whose method 7 the tag lacks, without *)
Example C97_ex_in_place :
  uses_construct us_env any_copy 0 [us_tag; us_arg] = Done (Made (Holds (TObj 3) [us_arg; the_allocator any_copy]) false FromDefault) /\
  uses_construct us_env any_copy 0 [us_tag] = Done (Made (Holds (TInPlace (TObj 3)) [us_tag]) false FromArg) /\
  uses_construct us_env any_draw 0 [AExpr (TInPlace (TObj 0)) true true] = Ill /\
  uses_construct us_env any_copy 0 [AExpr TForce true true; us_tag; us_arg] = Done (Made (Holds (TObj 3) [us_arg; the_allocator any_copy]) true FromDefault).
Proof. repeat split; vm_compute; reflexivity. Qed.
(** anys, also of other classes, are stored; without the method that is asked for they are not *)
Example C97_ex_anys :
  uses_construct us_env any_copy 0 [AExpr (TAny any_wide) false true] = Done (Made (Holds (TAny any_wide) [AExpr (TAny any_wide) false true]) false FromArg) /\
  uses_construct us_env any_draw 0 [AExpr (TAny any_draw) false false] = Ill /\
  construct us_env any_draw [AExpr (TAny any_draw) false false] = Done (Made MoveOf false FromMove).
Proof. repeat split; vm_compute; reflexivity. Qed.
