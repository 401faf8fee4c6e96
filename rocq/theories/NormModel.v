(** Model of how basic_any_with and copy_with adjust their allocator and buffer size, and of the type materialize returns.
    Source: A = include/anyany/anyany.hpp, D = include/anyany/noexport/anyany_details.hpp.

    Simplified: allocator types are names; two names are the same type iff they are equal. *)
From stdpp Require Import list.
From Verif Require Import TypeListModel ConsModel.

(** value types of allocators: the three that D 86-88 knows, and others *)
Inductive vtype : Set := VByte | VChar | VUChar | VOther (n : nat).

(** what allocator types offer *)
Record aenv : Type := AEnv {
  a_value : nat -> vtype;              (* allocator_traits<Alloc>::value_type *)
  a_rebind : nat -> option nat         (* allocator_traits<Alloc>::rebind_alloc<std::byte>; None: ill-formed *)
}.

(** alignof(std::max_align_t) and sizeof(size_t) on the supported 64-bit platforms *)
Definition max_align : nat := 16.
Definition size_of_size : nat := 8.

(** D 86-88 is_byte_like_v *)
Definition is_byte_like (v : vtype) : bool := match v with VByte | VChar | VUChar => true | VOther _ => false end.

(** D 388-391 soo_buffer_size *)
Definition soo_buffer_size (n : nat) : nat := if n =? 0 then 0 else Nat.max max_align n.

Section Env.
  Context (E : aenv).

  (** D 375-386 rebind_to_byte_t; None: the program is ill-formed *)
  Definition rebind_to_byte (a : nat) : option nat := if is_byte_like (a_value E a) then Some a else a_rebind E a.

  (** A 338-339 copy_with<Alloc, SooS> *)
  Definition copy_with (a n : nat) : option meth :=
    match rebind_to_byte a with Some b => Some (MCopy b (soo_buffer_size n)) | None => None end.

  (** A 1709-1716, 1729-1731 basic_any_with<Alloc, SooS, Methods...>, with the list of TypeListModel.any_with *)
  Definition basic_any_with (fuel a n : nat) (ts : list (TypeListModel.ty meth)) : option anyty :=
    match rebind_to_byte a, any_with eqm MDestroy fuel ts with
    | Some b, Some ms => Some (AnyT b (soo_buffer_size n) ms)
    | _, _ => None
    end.

  (** A 1113, 1167 the static_asserts of basic_any on its parameters: false makes naming its members ill-formed *)
  Definition asserts (t : anyty) : bool :=
    ((at_soos t =? 0) || (size_of_size <=? at_soos t)) && is_byte_like (a_value E (at_al t)).

  (** A 1164 basic_any::has_copy: copy_with is applied once more to the parameters of the class *)
  Definition any_has_copy (t : anyty) : option bool :=
    match copy_with (at_al t) (at_soos t) with Some m => Some (contains_v eqm m (at_ms t)) | None => None end.

  (** A 1512-1516 materialize<Alloc, SooS>(const_poly_ref<Methods...>): is there a candidate, and which type does it
      return?  The return type is basic_any, not basic_any_with *)
  Definition materialize (a n : nat) (ms : list meth) : option anyty :=
    match copy_with a n with
    | Some m => if contains_v eqm m ms && contains_v eqm MDestroy ms then Some (AnyT a n ms) else None
    | None => None
    end.
End Env.
