(** Which storage one asks for with an allocator type and a buffer size, independently of the code. *)
From stdpp Require Import list.
From Verif Require Import ConsModel NormModel.

(** an allocator type that gives bytes *)
Definition byte_allocator (E : aenv) (a : nat) : Prop := a_value E a = VByte \/ a_value E a = VChar \/ a_value E a = VUChar.

(** the allocator of bytes that belongs to [a]: itself, or the allocator it is rebound to *)
Definition bytes_of (E : aenv) (a b : nat) : Prop :=
  (byte_allocator E a /\ b = a) \/ (~ byte_allocator E a /\ a_rebind E a = Some b).

(** the buffer one gets for [n]: none for 0, otherwise the smallest one that has [n] bytes and fills its alignment *)
Definition buffer (n k : nat) : Prop :=
  (n = 0 /\ k = 0) \/ (n <> 0 /\ n <= k /\ max_align <= k /\ forall k', n <= k' -> max_align <= k' -> k <= k').

(** Cpp17Allocator: rebind_alloc<std::byte> is an allocator of std::byte *)
Definition allocators_ok (E : aenv) : Prop := forall a b, a_rebind E a = Some b -> a_value E b = VByte.
