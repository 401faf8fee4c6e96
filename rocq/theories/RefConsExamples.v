(** Methods, types and expressions for the examples. *)
From stdpp Require Import list.
From Verif Require Import RefConsModel RefConsSpec.

(** type_info exists for every type, print for int and for pointers to it, call for pointers to functions *)
Definition type_info := 0. Definition print := 1. Definition call := 2. Definition hash := 3.
Definition methods : provides := fun m t =>
  match m, t with
  | 0, _ => true
  | 1, (TObj 0 | TPtr _ (TObj 0)) => true
  | 2, TPtr _ (TFun _) => true
  | _, _ => false
  end.
Definition int := TObj 0.
Definition str := TObj 1.
Definition int3 := TArr int 3.
Definition foo := TFun 0.
Definition any_print := TAny 0 [print].
Definition any_both := TAny 1 [type_info; print].
Definition lval (t : ty) : arg := Arg t false true.
Definition clval (t : ty) : arg := Arg t true true.
Definition rval (t : ty) : arg := Arg t false false.
Definition ptr (t : ty) : arg := rval (TPtr false t).
Definition cptr (t : ty) : arg := rval (TPtr true t).
