(** Model: std::vector<any_with<...>>, as far as it depends on basic_any.
    Source: A = include/anyany/anyany.hpp.  What the container does is prescribed by the C++ standard (vector.capacity, vector.modifiers,
    forward: move_if_noexcept) and written here in terms of the operations of AnyModel; a vector is the list of the names of its elements, new
    storage is a list of names without any. *)
From stdpp Require Import gmap list.
From Verif Require Import TypeListModel AnyModel AnyHistory NoexceptModel.

Section Env.
  Context (E : env) (ms : list method).
  (** is_copy_constructible_v<basic_any>, in C++20: the copy constructor (A 1198-1214) is constrained by has_copy; in C++17 it is not *)
  Definition copyable : bool := contains_v meqb (MCopy true) ms.
  (** std::move_if_noexcept: an rvalue unless !is_nothrow_move_constructible_v && is_copy_constructible_v; the first is what A 1215 declares *)
  Definition by_move : bool := negb (negb (declared E (OMove 0 0)) && copyable).
  (** one element is made in the new storage, A 1215-1218 or A 1198-1214 *)
  Definition relocate (n o : nat) : M unit := if by_move then move_ctor E n o else copy_ctor E n o ms.
  (** all of them; when one constructor throws, those made before are destroyed again (the standard leaves the order open) *)
  Fixpoint relocate_all (news olds : list nat) : M unit :=
    match news, olds with
    | n :: ns, o :: os => relocate n o ;;; on_exn (relocate_all ns os) (dtor E n)
    | _, _ => retM tt
    end.
  Fixpoint destroy_all (l : list nat) : M unit :=
    match l with [] => retM tt | i :: tl => dtor E i ;;; destroy_all tl end.
  (** reserve: other storage, then the old elements are destroyed *)
  Definition grow (olds news : list nat) : M unit := relocate_all news olds ;;; destroy_all olds.
  (** push_back(const T&) when the storage is full: the new element is made first, so that [src] may be an element of the vector *)
  Definition push_back (olds news : list nat) (x src : nat) : M unit :=
    copy_ctor E x src ms ;;; on_exn (relocate_all news olds) (dtor E x) ;;; destroy_all olds.
  (** push_back(T&&) *)
  Definition push_back_move (olds news : list nat) (x src : nat) : M unit :=
    move_ctor E x src ;;; on_exn (relocate_all news olds) (dtor E x) ;;; destroy_all olds.
  (** erase of [i], with [rest] behind it: each of [rest] is move-assigned (A 1219-1251) to the one before it, the last one is destroyed *)
  Fixpoint erase (i : nat) (rest : list nat) : M unit :=
    match rest with
    | [] => dtor E i
    | j :: tl => move_assign E i j ;;; erase j tl
    end.
End Env.
