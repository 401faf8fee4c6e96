(** Model: uses-allocator construction of anys, as std::tuple(std::allocator_arg, alloc, ...), std::make_obj_using_allocator and containers with
    scoped allocators do it ([allocator.uses.construction] of the standard).  Source: A = include/anyany/anyany.hpp.
    Which constructor runs is [ConsModel.construct]; its simplifications apply, and there are no braced lists, which cannot be forwarded. *)
From stdpp Require Import list.
From Verif Require Import ConsModel.

(** A 1957-1958: true for the allocator of the any and no other type (there is no member allocator_type) *)
Definition uses_allocator (a : anyty) (al : nat) : bool := bool_decide (al = at_al a).
Section Env.
  Context (E : env).
  (** std::is_constructible_v: overload resolution, not the body *)
  Definition is_constructible (a : anyty) (xs : list arg) : bool := match resolve E a xs with ChOne _ => true | _ => false end.
  (** the allocator is passed as const Alloc&, std::allocator_arg_t as an rvalue *)
  Definition allocator (al : nat) : arg := AExpr (TAlloc al) true true.
  Definition leading (al : nat) (xs : list arg) : list arg := AExpr TAllocArg false false :: allocator al :: xs.
  Definition trailing (al : nat) (xs : list arg) : list arg := xs ++ [allocator al].
  (** std::uses_allocator_construction_args, then the constructor *)
  Definition uses_construct (a : anyty) (al : nat) (xs : list arg) : outcome :=
    if uses_allocator a al then
      if is_constructible a (leading al xs) then construct E a (leading al xs)
      else if is_constructible a (trailing al xs) then construct E a (trailing al xs)
      else Ill
    else construct E a xs.
End Env.
