(** Property C105: the library in C++17 and in C++20. *)
From stdpp Require Import list.
From Verif Require Import TypeListModel ConsModel ConsSpec ConsExamples StdModel StdSpec StdProofs StdExamples.

(** ** C105 *)
(** in both standards the same requests compile, with the same meaning *)
Theorem C105_construction_partial :
  forall W, consistent W -> forall s a r m, proper r -> regular (w_real W) a r ->
  construct_in W s a (arguments a r) = Done m <-> means (w_real W) a r m.
Proof. exact construction_in. Qed.
Print Assumptions C105_construction_partial.
Theorem C105_assignment :
  forall W, consistent W -> forall s a t c lv k, ~ is_in_place t ->
  assign_in W s a (AExpr t c lv) = ADone k <-> assigns (w_real W) a t c lv k /\ ((exists b, any_of t b) -> any_move_assignable W a).
Proof. exact assignment_in. Qed.
Print Assumptions C105_assignment.
Theorem C105_cpp17_is_cpp20 :
  forall W, consistent W -> forall a xs m, construct_in W CPP17 a xs = Done m -> construct_in W CPP20 a xs = Done m.
Proof. exact cpp17_is_cpp20. Qed.
Print Assumptions C105_cpp17_is_cpp20.
Theorem C105_cpp20_is_cpp17_partial :
  forall W, consistent W -> forall a xs, no_tag xs -> construct_in W CPP20 a xs = construct_in W CPP17 a xs.
Proof. exact cpp20_is_cpp17. Qed.
Print Assumptions C105_cpp20_is_cpp17_partial.
(** std::in_place_type<T> alone, T an any that cannot be copied: C++20 stores the tag (C75), in C++17 this does not compile *)
Theorem C105_cpp20_is_cpp17_refuted :
  exists W a xs m, consistent W /\ construct_in W CPP20 a xs = Done m /\ construct_in W CPP17 a xs = Ill.
Proof. exact cpp20_stores_tag. Qed.
Print Assumptions C105_cpp20_is_cpp17_refuted.
Theorem C105_never_ambiguous :
  forall W, consistent W -> forall s a xs, construct_in W s a xs <> Ambiguous /\ construct_in W s a xs <> Stuck.
Proof. exact in_never_ambiguous. Qed.
Print Assumptions C105_never_ambiguous.

(** is_copy_constructible_v and the other traits of anys *)
Theorem C105_traits_of_construction_cpp20 :
  forall W a c lv,
  says_constructible W CPP20 a c lv = true <-> compiles (construct_in W CPP20 a [AExpr (TAny a) c lv]).
Proof. exact traits_construct. Qed.
Print Assumptions C105_traits_of_construction_cpp20.
Theorem C105_traits_of_assignment_cpp20_partial :
  forall W, consistent W -> forall a c lv, w_movable W (at_al a) = true \/ at_soos a <> 0 \/ has_move_method (at_ms a) ->
  says_assignable W CPP20 a c lv = true <-> assign_compiles (assign_in W CPP20 a (AExpr (TAny a) c lv)).
Proof. exact traits_assign. Qed.
Print Assumptions C105_traits_of_assignment_cpp20_partial.
(** without a buffer an any is movable without a method for that, but its move assignment names that method if the allocator does not propagate *)
Theorem C105_move_assignable_refuted :
  exists W a, consistent W /\ forall s,
  says_assignable W s a false false = true /\ assign_in W s a (AExpr (TAny a) false false) = AIll /\
  construct_in W s a [AExpr (TAny a) false false] = Done (Made MoveOf false FromMove).
Proof. exact move_assignable. Qed.
Print Assumptions C105_move_assignable_refuted.
Theorem C105_traits_never_deny :
  forall W, consistent W -> forall s a c lv,
  (compiles (construct_in W s a [AExpr (TAny a) c lv]) -> says_constructible W s a c lv = true) /\
  (assign_compiles (assign_in W s a (AExpr (TAny a) c lv)) -> says_assignable W s a c lv = true).
Proof. exact traits_complete. Qed.
Print Assumptions C105_traits_never_deny.
(** in C++17 every any says that it can be copied and moved *)
Theorem C105_traits_of_copy_cpp17_refuted :
  exists W a, consistent W /\
  says_constructible W CPP17 a true true = true /\ construct_in W CPP17 a [AExpr (TAny a) true true] = Ill /\
  says_assignable W CPP17 a true true = true /\ assign_in W CPP17 a (AExpr (TAny a) true true) = AIll.
Proof. exact traits17. Qed.
Print Assumptions C105_traits_of_copy_cpp17_refuted.
Theorem C105_traits_of_move_cpp17_refuted :
  exists W a, consistent W /\
  says_constructible W CPP17 a false false = true /\ construct_in W CPP17 a [AExpr (TAny a) false false] = Ill /\
  says_assignable W CPP17 a false false = true /\ assign_in W CPP17 a (AExpr (TAny a) false false) = AIll.
Proof. exact pinned17. Qed.
Print Assumptions C105_traits_of_move_cpp17_refuted.
(** so does exist_for for an any inside an any *)
Theorem C105_exist_for_cpp17_refuted :
  exists W a t, consistent W /\ says_exist_for W CPP17 t (at_ms a) = true /\ ~ suits (w_real W) a t /\
  forall xs, emplace_in W CPP17 a t xs = Ill.
Proof. exact exist_for17. Qed.
Print Assumptions C105_exist_for_cpp17_refuted.

(** std::vector: in C++20 a vector of anys that can be moved can grow; in C++17 it copies if the allocator does not propagate *)
Theorem C105_vector_grows_cpp20 :
  forall W a, compiles (growth W CPP20 a) <-> any_movable a.
Proof. exact growth_20. Qed.
Print Assumptions C105_vector_grows_cpp20.
Theorem C105_vector_grows_cpp17_partial :
  forall W a, compiles (growth W CPP17 a) <-> if w_movable W (at_al a) then any_movable a else any_copyable a.
Proof. exact growth_17. Qed.
Print Assumptions C105_vector_grows_cpp17_partial.
Theorem C105_vector_grows_cpp17_refuted :
  exists W a, consistent W /\ growth W CPP20 a = Done (Made MoveOf false FromMove) /\ growth W CPP17 a = Ill.
Proof. exact growth17. Qed.
Print Assumptions C105_vector_grows_cpp17_refuted.

(** std::hash<basic_any> exists only for anys with aa::hash, in C++20 *)
Theorem C105_hash_cpp20 : forall h a, (hash_enabled CPP20 h a = true <-> In (MUser h) (at_ms a)) /\ (hash_body h a = true <-> In (MUser h) (at_ms a)).
Proof. exact hash_agrees. Qed.
Print Assumptions C105_hash_cpp20.
Theorem C105_hash_cpp17_refuted : exists h a, hash_enabled CPP17 h a = true /\ hash_body h a = false.
Proof. exact hash17. Qed.
Print Assumptions C105_hash_cpp17_refuted.

(** a copyable any, an any that can only be moved, and an any that cannot, under both standards *)
Example C105_ex :
  consistent ex_world /\
  (forall s, construct_in ex_world s any_wide [AExpr (TAny any_wide) false true] = Done (Made CopyOf false FromSelect)) /\
  (forall s, assign_in ex_world s any_draw (AExpr (TAny any_wide) false false) = ADone MoveOf) /\
  (forall s, construct_in ex_world s any_copy [AExpr (TObj 1) false false] = Ill) /\
  says_exist_for ex_world CPP17 (TObj 1) (at_ms any_copy) = true /\ says_exist_for ex_world CPP20 (TObj 1) (at_ms any_copy) = false /\
  says_constructible ex_world CPP20 any_draw true true = false /\ says_constructible ex_world CPP20 any_draw false false = true /\
  says_assignable ex_world CPP20 any_pinned false false = false /\
  assign_in ex_world CPP20 any_pinned (AExpr (TObj 2) false false) = ADone (Holds (TObj 2) [AExpr (TObj 2) false false]) /\
  growth ex_world CPP17 any_draw = Done (Made MoveOf false FromMove) /\
  hash_enabled CPP20 7 any_draw = true /\ hash_enabled CPP20 9 any_draw = false.
Proof.
  split; [exact ex_consistent|]. split; [intros []; vm_compute; reflexivity|]. split; [intros []; vm_compute; reflexivity|].
  split; [intros []; vm_compute; reflexivity|]. vm_compute. repeat split; reflexivity.
Qed.
