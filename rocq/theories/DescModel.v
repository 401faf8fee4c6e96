(** Model of type descriptors.
    Sources: T = include/anyany/type_descriptor.hpp, TD = include/anyany/noexport/type_descriptor_details.hpp.

    A [const char*] is the memory from the pointed-to character on, a list of character codes (codes may be
    negative: char may be signed); reading past its end is [None].  A descriptor is such a pointer together
    with its address. *)
From Coq Require Import String Ascii ZArith List Bool.
Import ListNotations.
Local Open Scope Z_scope.

Notation chars := (list Z).

(** TD 16-20 starts_with(part, all) *)
Fixpoint starts_with (part all : chars) : option bool :=
  match part, all with
  | p :: part', a :: all' => if (p =? a) && negb (p =? 0) then starts_with part' all' else Some (p =? 0)
  | p :: _, [] => None
  | [], _ => None
  end.

(** TD 22-30 strcmp, C++20 version: ordering of the first characters where the loop stops *)
Fixpoint strcmp (l r : chars) : option comparison :=
  match l, r with
  | a :: l', b :: r' => if (a =? b) && negb (a =? 0) then strcmp l' r' else Some (a ?= b)
  | _, _ => None
  end.

(** TD 22-30 strcmp, C++17 version: equality only *)
Fixpoint strcmp17 (l r : chars) : option bool :=
  match l, r with
  | a :: l', b :: r' => if (a =? b) && negb (a =? 0) then strcmp17 l' r' else Some (a =? b)
  | _, _ => None
  end.

(** T 25-35 descriptor_t: the pointer *)
Record descriptor : Set := Desc { d_addr : nat; d_mem : chars }.

(** T 40-55 operator==, at run time in C++20 mode: equal pointers are equal, otherwise compare the names *)
Definition desc_eq (a b : descriptor) : option bool :=
  if Nat.eqb (d_addr a) (d_addr b) then Some true
  else match strcmp (d_mem a) (d_mem b) with
       | Some Eq => Some true
       | Some _ => Some false
       | None => None
       end.

(** the same in a constant expression (no pointer comparison), and in C++17 mode (T 52) *)
Definition desc_eq_const (a b : descriptor) : option bool :=
  match strcmp (d_mem a) (d_mem b) with Some Eq => Some true | Some _ => Some false | None => None end.
Definition desc_eq17 (a b : descriptor) : option bool := strcmp17 (d_mem a) (d_mem b).

(** T 56-63 operator<=> *)
Definition desc_cmp (a b : descriptor) : option comparison := strcmp (d_mem a) (d_mem b).

(** T 127-136 std::hash: hash of string_view(ptr), which counts characters up to the terminator;
    [h] is the standard library's hash of a character sequence *)
Fixpoint string_view (l : chars) : option chars :=
  match l with
  | [] => None
  | c :: l' => if c =? 0 then Some [] else match string_view l' with Some s => Some (c :: s) | None => None end
  end.
Definition desc_hash (h : chars -> nat) (a : descriptor) : option nat :=
  match string_view (d_mem a) with Some s => Some (h s) | None => None end.

(** ** Names *)

(** a string literal, with terminator *)
Definition code (c : ascii) : Z := Z.of_nat (nat_of_ascii c).
Definition cs (s : string) : chars := map code (list_ascii_of_string s).
Definition lit (s : string) : chars := cs s ++ [0].
(** sizeof of a literal counts the terminator; pointer + k skips k characters *)
Definition sizeof_lit (s : string) : nat := S (String.length s).

(** How compilers spell __PRETTY_FUNCTION__ / __FUNCSIG__ inside n<T>() for a type whose name is [nm]
    (assumption about the compilers, not part of the library). *)
Definition pretty_gcc (nm : chars) : chars := cs "constexpr const char* aa::noexport::n() [with T = " ++ nm ++ lit "]".
Definition pretty_clang (nm : chars) : chars := cs "const char *aa::noexport::n() [T = " ++ nm ++ lit "]".
Definition funcsig_msvc (nm : chars) : chars := cs "const char *__cdecl aa::noexport::n<" ++ nm ++ lit ">(void)".

(** TD 33-38 *)
Definition n_gcc (pretty : chars) : chars := skipn (sizeof_lit "consteval const char* aa::noexport::n() [with T =") pretty.
Definition n_clang (pretty : chars) : chars := skipn (sizeof_lit "const char *aa::noexport::n() [T =") pretty.
(** TD 39-48 *)
Definition n_msvc (pretty : chars) : option chars :=
  let res := skipn (sizeof_lit "const char *__cdecl aa::noexport::n<" - 1) pretty in
  match starts_with (lit "class") res with
  | None => None
  | Some true => Some (skipn (sizeof_lit "class") res)
  | Some false =>
      match starts_with (lit "struct") res with
      | None => None
      | Some true => Some (skipn (sizeof_lit "struct") res)
      | Some false => Some res
      end
  end.

(** ** Types, as far as std::decay_t distinguishes them *)
Inductive ctype : Set :=
| CBase (n : nat)                       (* class, enumeration, fundamental type *)
| CPtr (t : ctype)
| CConst (t : ctype) | CVolatile (t : ctype)
| CRef (t : ctype) | CRRef (t : ctype)
| CArray (t : ctype) (n : nat)
| CFun (n : nat).                       (* function type *)

Definition remove_reference (t : ctype) : ctype := match t with CRef u | CRRef u => u | _ => t end.
Fixpoint remove_cv (t : ctype) : ctype := match t with CConst u | CVolatile u => remove_cv u | _ => t end.
(** std::decay_t *)
Definition decay (t : ctype) : ctype :=
  match remove_reference t with
  | CArray u _ => CPtr u
  | CFun n => CPtr (CFun n)
  | u => remove_cv u
  end.

Inductive compiler : Set := Gcc | Clang | Msvc.
(** TD 33-57 n<T>() with the branch the compiler selects *)
Definition name_of (cc : compiler) (nm : chars) : option chars :=
  match cc with
  | Gcc => Some (n_gcc (pretty_gcc nm))
  | Clang => Some (n_clang (pretty_clang nm))
  | Msvc => n_msvc (funcsig_msvc nm)
  end.
(** A translation unit (or shared library): how the compiler spells a type there and where it put the literal.  Other
    units may have another copy of the literal and, with MSVC, another class key in the name (comment TD 41-42). *)
Record unit_of : Set := Unit { u_addr : ctype -> nat; u_name : ctype -> chars }.
(** T 71-72 descriptor_v<T> = descriptor_t{n<decay_t<T>>()} *)
Definition descriptor_v (cc : compiler) (un : unit_of) (t : ctype) : option descriptor :=
  option_map (Desc (u_addr un (decay t))) (name_of cc (u_name un (decay t))).
(** T 36-37 descriptor_t(): the descriptor of void, which is not decayed *)
Definition descriptor_default (cc : compiler) (un : unit_of) (void : ctype) : option descriptor :=
  option_map (Desc (u_addr un void)) (name_of cc (u_name un void)).
(** a == b and a <=> b of two of them *)
Definition both {A} (f : descriptor -> descriptor -> option A) (a b : option descriptor) : option A :=
  match a, b with Some a, Some b => f a b | _, _ => None end.

(** ** Builds without type names (AA_CANT_GET_TYPENAME, file_begin.hpp 26-34) *)
(** TD 12-14, T 71-72: the address of the variable descriptor<decay_t<T>>, T 42 ==, T 59 <=>, T 130-131 hash *)
Definition pdescriptor_v (addr : ctype -> nat) (t : ctype) : nat := addr (decay t).
Definition pdesc_eq (a b : nat) : bool := Nat.eqb a b.
Definition pdesc_cmp (a b : nat) : comparison := Nat.compare a b.
Definition pdesc_hash (h : nat -> nat) (a : nat) : nat := h a.
