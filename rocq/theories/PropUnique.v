(** Property C57 of std::unique_ptr to an interface. *)
From stdpp Require Import gmap list.
From Verif Require Import TypeListModel TypeListSpec AnyModel UniqueModel UniqueSpec UniqueProofs UniqueExamples.

(** no program deletes a dead object, with another type or through a missing vtable entry *)
Theorem C57_no_undefined_behaviour :
  forall dealloc l, u_allowed dealloc l u_init -> exists s, uexec dealloc l u_init = UOk s.
Proof. exact unique_safe. Qed.
Print Assumptions C57_no_undefined_behaviour.
(** at any point: an object was deleted at most once, with the type it was created with, and then nobody holds it; an object not deleted yet is
    alive and held by exactly one pointer *)
Theorem C57_deleted_once_with_own_type :
  forall dealloc l s, u_allowed dealloc l u_init -> uexec dealloc l u_init = UOk s ->
  NoDup (u_log s) /\
  (forall T a, In (T, a) (u_log s) -> In (T, a) (u_objects l) /\ u_heap s !! a = None /\ forall u, ~ u_owns s u a) /\
  (forall T a, In (T, a) (u_objects l) -> ~ In (T, a) (u_log s) -> u_heap s !! a = Some T /\ exists! u, u_owns s u a).
Proof. exact unique_once. Qed.
Print Assumptions C57_deleted_once_with_own_type.
(** once all pointers are gone, the deleted objects are the created ones *)
Theorem C57_everything_deleted :
  forall dealloc l s, u_allowed dealloc l u_init -> uexec dealloc l u_init = UOk s -> u_ptr s = ∅ -> u_log s ≡ₚ u_objects l.
Proof. exact unique_all. Qed.
Print Assumptions C57_everything_deleted.

Example C57_ex : u_allowed C57_dealloc C57_prog u_init /\ u_objects C57_prog = [(7, 0); (8, 1); (9, 2)] /\
  match uexec C57_dealloc C57_prog u_init with
  | UOk s => u_log s = [(8, 1); (7, 0); (9, 2)] /\ size (u_ptr s) = 0
  | UBad _ => False
  end.
Proof.
  split; [apply u_allowedb_ok; vm_compute; reflexivity|vm_compute; auto].
Qed.
(** self move assignment keeps the object *)
Example C57_self_ex : match uexec C57_dealloc C57_self u_init with UOk s => u_log s = [] /\ u_heap s !! 0 = Some 7 | UBad _ => False end.
Proof. vm_compute. auto. Qed.
