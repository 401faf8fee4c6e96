(** Structured bindings of data_parallel_vectors: C83. *)
From stdpp Require Import list.
From Verif Require Import FieldsModel FieldsExamples BindModel BindSpec BindExamples BindProofs.

(** C83: the names are as many as there are fields; the I-th is a span over column I or a reference to field I of the element, with the type of
    field I, const exactly when the vector is const or the element is reached through const_reference.
    Missing: vectors of which neither the value type nor the allocator brings namespace std into the lookup (below) *)
Theorem C83_structured_bindings_partial : forall T Alloc ts b n l, structured_binding T Alloc ts b n = Some l <->
  match b with BVec _ => has_namespace NsStd T \/ has_namespace NsStd Alloc | BRef _ => True end /\
  0 < n /\ n = length ts /\ length l = n /\ forall I X, ts !! I = Some X -> l !! I = Some (match b with BVec c => BSpan X c | BRef c => BField X c end, I).
Proof. exact binding_iff. Qed.
Print Assumptions C83_structured_bindings_partial.
(** auto [a, b, c, d] = vector; fields int, bool, another type, int *)
Example C83_ex : let A := std_allocator user_struct in
  structured_binding user_struct A columns (BVec false) 4 = Some [(BSpan (TyOther 0) false, 0); (BSpan TyBool false, 1); (BSpan (TyOther 1) false, 2); (BSpan (TyOther 0) false, 3)] /\
  structured_binding user_struct A columns (BRef true) 4 = Some [(BField (TyOther 0) true, 0); (BField TyBool true, 1); (BField (TyOther 1) true, 2); (BField (TyOther 0) true, 3)] /\
  structured_binding user_struct A columns (BVec true) 3 = None.
Proof. vm_compute. repeat split. Qed.

(** a struct of the user's with std::pmr::polymorphic_allocator: get is not found, with std::allocator it is; elements can be bound with both *)
Theorem C83_other_allocators_refuted : exists T Alloc ts, 0 < length ts /\ (forall c n, structured_binding T Alloc ts (BVec c) n = None) /\
  (forall c, is_Some (structured_binding T (std_allocator T) ts (BVec c) (length ts))) /\ (forall c, is_Some (structured_binding T Alloc ts (BRef c) (length ts))).
Proof. exact pmr_not_bound. Qed.
Print Assumptions C83_other_allocators_refuted.
Example C83_tuple_case : is_Some (structured_binding std_tuple (pmr_allocator std_tuple) columns (BVec false) 4) /\ has_namespace NsStd (std_allocator user_struct).
Proof. split; [vm_compute; by eexists|]. left. by apply elem_of_list_singleton. Qed.
