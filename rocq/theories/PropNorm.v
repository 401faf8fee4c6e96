(** Property C81: the storage of basic_any_with and of its copy method. *)
From stdpp Require Import list.
From Verif Require Import TypeListModel TypeListSpec ConsModel NormModel NormSpec NormProofs.

(** basic_any_with<Alloc, SooS, Methods...> exists for every allocator that can be rebound and every size ... *)
Theorem C81_any_exists :
  forall E fuel a n ts b, bytes_of E a b -> max_nesting ts < fuel -> exists t, basic_any_with E fuel a n ts = Some t.
Proof. exact basic_any_exists. Qed.
Print Assumptions C81_any_exists.

(** ... uses the allocator of bytes that belongs to Alloc and the smallest buffer that has SooS bytes and wastes no padding ... *)
Theorem C81_storage_of_an_any :
  forall E fuel a n ts t, basic_any_with E fuel a n ts = Some t ->
  bytes_of E a (at_al t) /\ buffer n (at_soos t) /\ any_with eqm MDestroy fuel ts = Some (at_ms t).
Proof. exact basic_any_parts. Qed.
Print Assumptions C81_storage_of_an_any.

(** ... and its static_asserts never fail *)
Theorem C81_static_asserts_hold :
  forall E fuel a n ts t, allocators_ok E -> basic_any_with E fuel a n ts = Some t -> asserts E t = true.
Proof. exact asserts_hold. Qed.
Print Assumptions C81_static_asserts_hold.

(** an any is copyable exactly when copy_with with its own arguments is among its methods (at any depth of nested lists); so
    the shorter condition used by the model of the constructors is the same *)
Theorem C81_copyable_iff_has_its_copy_method :
  forall E fuel a n ts t, allocators_ok E -> basic_any_with E fuel a n ts = Some t ->
  exists b, any_has_copy E t = Some b /\ b = has_copy t /\
    (b = true <-> exists m, copy_with E a n = Some m /\ In m (flat_map leaves ts)).
Proof. exact has_copy_iff. Qed.
Print Assumptions C81_copyable_iff_has_its_copy_method.

(** copy_with with other arguments is the same method exactly when they mean the same storage *)
Theorem C81_same_copy_method_iff_same_storage :
  forall E a n a' n' m, copy_with E a n = Some m ->
  (copy_with E a' n' = Some m <-> exists b k, bytes_of E a b /\ bytes_of E a' b /\ buffer n k /\ buffer n' k).
Proof. exact same_copy. Qed.
Print Assumptions C81_same_copy_method_iff_same_storage.

(** the parameters of the class name the same class again *)
Theorem C81_parameters_of_the_class :
  forall E fuel a n ts t, allocators_ok E -> basic_any_with E fuel a n ts = Some t ->
  basic_any_with E fuel (at_al t) (at_soos t) ts = Some t.
Proof. exact renamed. Qed.
Print Assumptions C81_parameters_of_the_class.

(** materialize of the reference type of a copyable any, with the parameters of that any, gives an any of the same type *)
Theorem C81_materialize_gives_back_the_type :
  forall E fuel a n ts t, allocators_ok E -> basic_any_with E fuel a n ts = Some t -> has_copy t = true ->
  materialize E (at_al t) (at_soos t) (at_ms t) = Some t.
Proof. exact materialize_back. Qed.
Print Assumptions C81_materialize_gives_back_the_type.

(** Full statement: for all arguments.  materialize does not adjust them in its return type *)
Theorem C81_materialize_partial :
  forall E a n ms t, allocators_ok E -> byte_allocator E a -> n = 0 \/ max_align <= n -> materialize E a n ms = Some t ->
  t = AnyT a n ms /\ asserts E t = true /\ any_has_copy E t = Some true /\ copy_with E a n = Some (MCopy (at_al t) (at_soos t)).
Proof. exact materialize_partial. Qed.
Print Assumptions C81_materialize_partial.
(** with another allocator its constraint accepts, and its return type breaks a static_assert *)
Theorem C81_materialize_ill_formed_refuted :
  exists E a n ms t, allocators_ok E /\ materialize E a n ms = Some t /\ asserts E t = false.
Proof. exact materialize_ill_formed. Qed.
Print Assumptions C81_materialize_ill_formed_refuted.
(** with a smaller buffer it compiles, but the copy function is one for a bigger buffer than the any has *)
Theorem C81_materialize_buffer_refuted :
  exists E a n ms t k, allocators_ok E /\ materialize E a n ms = Some t /\ asserts E t = true /\
  copy_with E a n = Some (MCopy a k) /\ at_soos t < k.
Proof. exact materialize_overfills. Qed.
Print Assumptions C81_materialize_buffer_refuted.

(** basic_any_with<std::allocator<T>, 4, list of copy_with<std::byte allocator, 16> and a method> is copyable,
    with `copy` (buffer 40) instead it is not *)
Example C81_ex :
  allocators_ok std_alloc /\ bytes_of std_alloc 5 0 /\ buffer 4 16 /\
  copy_with std_alloc 0 16 = Some (MCopy 0 16) /\ copy_with std_alloc 0 40 = Some (MCopy 0 40) /\
  basic_any_with std_alloc 3 5 4 [Leaf (MUser 1); TL [Leaf (MCopy 0 16)]] = Some (AnyT 0 16 [MDestroy; MUser 1; MCopy 0 16]) /\
  any_has_copy std_alloc (AnyT 0 16 [MDestroy; MUser 1; MCopy 0 16]) = Some true /\
  basic_any_with std_alloc 3 5 4 [Leaf (MUser 1); Leaf (MCopy 0 40)] = Some (AnyT 0 16 [MDestroy; MUser 1; MCopy 0 40]) /\
  any_has_copy std_alloc (AnyT 0 16 [MDestroy; MUser 1; MCopy 0 40]) = Some false /\
  materialize std_alloc 1 0 [MDestroy; MCopy 1 0] = Some (AnyT 1 0 [MDestroy; MCopy 1 0]).
Proof.
  split; [apply std_alloc_ok|]. split; [apply rebind_iff; by vm_compute|]. split; [apply buffer_iff; by vm_compute|]. by vm_compute.
Qed.
