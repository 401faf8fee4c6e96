(** Models of vtable::change (A 366-385), vtable::invoke (A 387-403) and of the byte layout that
    subtable_ptr_fn (A 417-442) relies on.
    Sources: A = include/anyany/anyany.hpp, D = include/anyany/noexport/anyany_details.hpp. *)
From Coq Require Import List Arith Bool.
From Verif Require Import TypeListModel.
Import ListNotations.
Set Implicit Arguments.

Section Values.
  Context {A V : Type} (eqb : A -> A -> bool).

  (** vtable<Methods...> holds one value per method; entries of different methods have different types in
      C++, here the tag [A] of a value stands for its type *)

  (** A 367-378 change_impl: a fold over the index sequence, each element assigned iff the method is the same *)
  Fixpoint change_from (m : A) (v : V) (ms : list A) (tab : list V) : list V :=
    match ms, tab with
    | x :: ms', t :: tab' => (if eqb m x then v else t) :: change_from m v ms' tab'
    | _, _ => tab
    end.
  (** A 382-385 change *)
  Definition change (m : A) (v : V) (ms : list A) (tab : list V) : list V := change_from m v ms tab.

  (** A 387-403 invoke: the entry at the first occurrence; None: no such method (static_assert) *)
  Definition vt_get (m : A) (ms : list A) (tab : list V) : option V :=
    match number_of_first eqb m ms with Some k => nth_error tab k | None => None end.
End Values.

Section Layout.
  Context {A : Type} (eqb : A -> A -> bool).
  (** sizeof and alignof of an entry *)
  Context (lay : A -> nat * nat).

  Definition align_up (o a : nat) : nat := (o + (a - 1)) / a * a.

  (** D 30-63 tuple: the bases value_in_tuple<T, I> are laid out in order at the next suitably aligned
      offset (Itanium and MSVC rule for non-empty bases) *)
  Fixpoint layout (o : nat) (ms : list A) : list nat :=
    match ms with
    | [] => []
    | m :: tl => let p := align_up o (snd (lay m)) in p :: layout (p + fst (lay m)) tl
    end.

  (** the entries of a vtable object at address [B]: where each one is and which method it is for *)
  Definition entries (B : nat) (ms : list A) : list (nat * A) := combine (map (Nat.add B) (layout 0 ms)) ms.

  (** A 417-442: the address of the element where the sublist begins, reinterpreted as a vtable<To...>;
      for the same list the pointer itself *)
  Definition subtable_addr (B : nat) (to from : list A) : option nat :=
    if list_same eqb to from then Some B
    else match find_subsequence eqb to from with
         | CtOk (Some n) => option_map (Nat.add B) (nth_error (layout 0 from) n)
         | _ => None
         end.

  (** the address invoke<m> reads through a [const vtable<ms...>*] with value [S] *)
  Definition slot_addr (S : nat) (ms : list A) (m : A) : option nat :=
    match number_of_first eqb m ms with
    | Some k => option_map (Nat.add S) (nth_error (layout 0 ms) k)
    | None => None
    end.
End Layout.

(** entries of the library itself on a 64-bit platform: function pointers and descriptor_t are pointers,
    equal_to / spaceship hold a function pointer and a descriptor (A 1792-1795, A 1838-1841),
    visitor_interface_tag holds an empty struct (utility.hpp 151-156) *)
Inductive libmethod : Set := LFun (n : nat) | LTypeInfo | LEqual | LSpaceship | LVisitorTag.
Definition liblay (m : libmethod) : nat * nat :=
  match m with LFun _ | LTypeInfo => (8, 8) | LEqual | LSpaceship => (16, 8) | LVisitorTag => (1, 1) end.
Definition libeqb (a b : libmethod) : bool :=
  match a, b with
  | LFun n, LFun m => Nat.eqb n m
  | LTypeInfo, LTypeInfo | LEqual, LEqual | LSpaceship, LSpaceship | LVisitorTag, LVisitorTag => true
  | _, _ => false
  end.
