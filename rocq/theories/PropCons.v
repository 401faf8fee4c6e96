(** Properties C75, C76: which constructor and which assignment a call picks, and what the any then contains. *)
From stdpp Require Import list.
From Verif Require Import TypeListModel TypeListSpec ConsModel ConsSpec ConsResolve ConsProofs ConsExamples.

(** ** C75 *)
Theorem C75_construction_partial :
  forall E a r m, proper r -> regular E a r -> construct E a (arguments a r) = Done m <-> means E a r m.
Proof. exact construction. Qed.
Print Assumptions C75_construction_partial.
Theorem C75_nothing_else_compiles :
  forall E a xs m, construct E a xs = Done m -> exists r, proper r /\ xs = arguments a r.
Proof. exact only_requests. Qed.
Print Assumptions C75_nothing_else_compiles.
Theorem C75_never_ambiguous :
  forall E a xs, construct E a xs <> Ambiguous /\ construct E a xs <> Stuck.
Proof. exact never_ambiguous. Qed.
Print Assumptions C75_never_ambiguous.
Theorem C75_any_in_any_only_when_asked_partial :
  forall E a xs m t ys, construct E a xs = Done m -> md_content m = Holds t ys -> polymorphic t ->
  (exists c lv, In (AExpr (TInPlace t) c lv) xs) \/
  exists c lv ca lva ct lt, xs = [AExpr TAllocArg c lv; AExpr (TAlloc (at_al a)) ca lva; AExpr t ct lt].
Proof. exact no_any_in_any. Qed.
Print Assumptions C75_any_in_any_only_when_asked_partial.
(** copying and moving an any compiles when exist_for says that it does *)
Theorem C75_traits_agree :
  forall E a,
  ((exists m, construct E a [AExpr (TAny a) true true] = Done m) <-> copyable E (TAny a) = true) /\
  ((exists m, construct E a [AExpr (TAny a) false false] = Done m) <-> movable E (TAny a) = true).
Proof. exact traits_agree. Qed.
Print Assumptions C75_traits_agree.
(** the constructor with an allocator does not exclude anys *)
Theorem C75_allocator_nests_any_refuted :
  exists E a r m m', proper r /\ construct E a (arguments a r) = Done m /\ means E a r m' /\ m <> m' /\
    exists ys, md_content m = Holds (TAny a) ys.
Proof. exact alloc_nests. Qed.
Print Assumptions C75_allocator_nests_any_refuted.
(** there is no constructor with an allocator and in_place_type: the tag is stored *)
Theorem C75_allocator_in_place_refuted :
  exists E a r m m' t, proper r /\ construct E a (arguments a r) = Done m /\ means E a r m' /\
    (exists ys, md_content m = Holds (TInPlace t) ys) /\ exists ys, md_content m' = Holds t ys.
Proof. exact alloc_in_place. Qed.
Print Assumptions C75_allocator_in_place_refuted.
Theorem C75_allocator_in_place_arguments_refuted :
  exists E a r m', proper r /\ construct E a (arguments a r) = Ill /\ means E a r m'.
Proof. exact alloc_in_place_args. Qed.
Print Assumptions C75_allocator_in_place_arguments_refuted.
(** T lacks a method the tag has *)
Theorem C75_tag_taken_for_value_refuted :
  exists E a r m t, proper r /\ r = RPlain (Some (WInPlace t true true [])) /\ construct E a (arguments a r) = Done m /\
    (forall m', ~ means E a r m') /\ exists ys, md_content m = Holds (TInPlace t) ys.
Proof. exact tag_stored. Qed.
Print Assumptions C75_tag_taken_for_value_refuted.

(** Any(x), Any(in_place_type<T>, {1, 2}, x), Any(force_stable_pointers, std::move(x)), Any(any of another class), and a value that cannot be stored *)
Example C75_ex :
  (regular ex_env any_draw (RPlain (Some (WValue (TObj 0) false true))) /\
   construct ex_env any_draw (arguments any_draw (RPlain (Some (WValue (TObj 0) false true)))) = Done (Made (Holds (TObj 0) [AExpr (TObj 0) false true]) false FromDefault)) /\
  construct ex_env any_draw (arguments any_draw (RPlain (Some (WInPlaceList (TObj 2) true true (ABrace (TObj 5)) [AExpr (TObj 0) true true])))) =
    Done (Made (Holds (TObj 2) [AExpr (TIList (TObj 5)) false true; AExpr (TObj 0) true true]) false FromDefault) /\
  construct ex_env any_draw (arguments any_draw (RForced true true (WValue (TObj 0) false false))) = Done (Made (Holds (TObj 0) [AExpr (TObj 0) false false]) true FromDefault) /\
  construct ex_env any_draw (arguments any_draw (RPlain (Some (WValue (TAny any_wide) false false)))) = Done (Made MoveOf false FromDefault) /\
  construct ex_env any_wide (arguments any_wide (RPlain (Some (WValue (TAny any_draw) false false)))) = Ill /\
  construct ex_env any_wide (arguments any_wide (RPlain (Some (WValue (TObj 1) false false)))) = Ill /\
  construct ex_env any_draw (arguments any_draw (RPlain (Some (WValue (TSub 3 any_draw) false false)))) = Done (Made MoveOf false FromMove) /\
  construct ex_env any_draw (arguments any_draw (RPlain (Some (WValue (TAny any_draw) false true)))) = Ill.
Proof. split; [split; [intros H; exact H|]|]; vm_compute; repeat split; reflexivity. Qed.
(** an any in an any, asked for *)
Example C75_ex_nested :
  construct ex_env any_copy [AExpr (TInPlace (TAny any_copy)) true true; AExpr (TAny any_copy) false true] =
    Done (Made (Holds (TAny any_copy) [AExpr (TAny any_copy) false true]) false FromDefault).
Proof. vm_compute. reflexivity. Qed.

(** ** C76 *)
Theorem C76_assignment_partial :
  forall E a t c lv k, ~ is_in_place t -> assign E a (AExpr t c lv) = ADone k <-> assigns E a t c lv k.
Proof. exact assignment. Qed.
Print Assumptions C76_assignment_partial.
Theorem C76_never_ambiguous :
  forall E a x, assign E a x <> AAmbiguous /\ assign E a x <> AStuck.
Proof. exact assign_never_ambiguous. Qed.
Print Assumptions C76_never_ambiguous.
Theorem C76_no_any_in_any :
  forall E a x t ys, assign E a x = ADone (Holds t ys) -> polymorphic t -> exists c lv, x = AExpr (TInPlace t) c lv.
Proof. exact assign_no_any_in_any. Qed.
Print Assumptions C76_no_any_in_any.
Theorem C76_emplace :
  forall E a t xs m, emplace E a t xs = Done m <->
    suits E a t /\ e_make E t (passed AsRvalue xs) = true /\ m = Made (Holds t (passed AsRvalue xs)) false FromDefault.
Proof. exact emplace_spec. Qed.
Print Assumptions C76_emplace.
Theorem C76_assigned_tag_makes_object_refuted :
  exists E a t c lv, ~ suits E a (TInPlace t) /\ assign E a (AExpr (TInPlace t) c lv) = ADone (Holds t []) /\
    forall k, ~ assigns E a (TInPlace t) c lv k.
Proof. exact assign_tag_makes. Qed.
Print Assumptions C76_assigned_tag_makes_object_refuted.

(** any = x, any = other any (converted, then moved), any = any that cannot be copied, and an any that cannot be moved *)
Example C76_ex :
  assign ex_env any_draw (AExpr (TObj 0) true true) = ADone (Holds (TObj 0) [AExpr (TObj 0) true true]) /\
  assign ex_env any_draw (AExpr (TAny any_wide) false false) = ADone MoveOf /\
  assign ex_env any_draw (AExpr (TAny any_wide) false true) = ADone CopyOf /\
  assign ex_env any_draw (AExpr (TAny any_draw) false true) = AIll /\
  assign ex_env any_draw (AExpr (TView 4) false true) = AIll /\
  assign ex_env any_pinned (AExpr (TAny any_wide) false false) = AIll /\
  construct ex_env any_pinned [AExpr (TAny any_wide) false false] = Done (Made MoveOf false FromDefault) /\
  assign ex_env any_pinned (AExpr (TObj 2) false false) = ADone (Holds (TObj 2) [AExpr (TObj 2) false false]).
Proof. vm_compute. repeat split; reflexivity. Qed.
