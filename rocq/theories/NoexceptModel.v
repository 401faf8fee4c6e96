(** Model: the noexcept specifications of basic_any, and construction through allocators that choose another constructor.
    Source: A = include/anyany/anyany.hpp.  The bodies are those of AnyModel, which calls std::terminate where an exception leaves a noexcept
    function; here the specifications are written once more, as what noexcept(...) and the type traits answer. *)
From stdpp Require Import gmap list.
From Verif Require Import AnyModel AnyHistory.

(** noexcept(operation), for the operations of basic_any.
    A 1281-1291, 1297-1298, 1303-1305, 1310-1311, 1318-1319, 1354-1371: is_nothrow_constructible_v<T, Args...> && any_is_small_for<T>, with or without
    force_stable_pointers; A 1215, 1219, 1346: movable_alloc(); A 1314, 1376, 1383, 1190-1194: noexcept; A 1198, 1253, 1326, 1391: nothing.
    std::swap: is_nothrow_move_constructible_v<basic_any> && is_nothrow_move_assignable_v<basic_any> *)
Definition declared (E : env) (o : op) : bool :=
  match o with
  | ODefault _ _ _ | OReset _ | ODestroy _ | ODtor _ => true
  | OValue _ _ _ T _ nt | OForce _ _ T _ nt | OEmplace _ T _ nt => nt && fits E T
  | OMove _ _ | OTransMove _ _ _ | OMoveAssign _ _ => movable_alloc E
  | OSwap _ _ _ => movable_alloc E && movable_alloc E
  | OCopy _ _ _ | OCopyAssign _ _ _ | OReplace _ _ => false
  | OInvoke _ _ _ | OSref _ _ _ | ODropSref _ | OMaterialize _ _ _ => false
  end.
(** alloc_traits::construct(alloc, p, args...) may call another constructor than T(args...): std::pmr::polymorphic_allocator appends itself to the
    arguments.  [said]: is_nothrow_constructible_v<T, Args...>; [is]: the constructor that is called is noexcept. *)
Section Env.
  Context (E : env).
  (** A 1457-1462 construct_value *)
  Definition construct_value_by (i T : nat) (s : src) (said is : bool) : M unit :=
    noexcept_if said
      (let! a := get_any i in
       construct E T (a_vp a) s is ;;;
       set_vt i (Some (addr_vtable_for T (a_ms a)))).
  (** A 1128-1148 emplace_in_empty *)
  Definition emplace_in_empty_by (i T : nat) (force : bool) (s : src) (said is : bool) : M unit :=
    if fits E T && negb force then construct_value_by i T s said is
    else
      let! a := get_any i in
      let! b := allocate E (a_alloc a) (ty_size (e_ty E T)) in
      set_vp i (PHeap b) ;;;
      set_size E i (ty_size (e_ty E T)) ;;;
      if said then construct_value_by i T s said is
      else on_exn (construct_value_by i T s said is)
                  (let! a := get_any i in
                   deallocate E (a_alloc a) (a_vp a) (ty_size (e_ty E T)) ;;;
                   set_vp i (PData i)).
  (** A 1295-1322 constructors from a value / in place / with allocator *)
  Definition value_ctor_by (i al : nat) (ms : list method) (T : nat) (s : src) (said is : bool) : M unit :=
    noexcept_if (said && fits E T) (ctor E i al ms (emplace_in_empty_by i T false s said is)).
End Env.
