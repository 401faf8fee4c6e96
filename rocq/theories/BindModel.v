(** Model of structured bindings of data_parallel_vectors and of references to their elements.
    Sources: P = include/anyany/data_parallel_vector.hpp, PD = include/anyany/noexport/data_parallel_vector_details.hpp.
    A value type is the list of the types of its fields. *)
From stdpp Require Import list.
From Verif Require Import FieldsModel.

(** what is bound: a vector, a reference or const_reference to an element; const or not (for a reference: const_reference) *)
Inductive bindable : Type := BVec (c : bool) | BRef (c : bool).
(** types of the names: std::span<X>, std::span<const X>, X&, const X& *)
Inductive btype : Type := BSpan (X : ftype) (c : bool) | BField (X : ftype) (c : bool).
Global Instance btype_dec : EqDecision btype. Proof. solve_decision. Defined.

(** P 69-72, 177-180 tie(): std::tie of static_cast<element_t<Is>&>, static_cast<const element_t<Is>&>; the column each refers to *)
Definition tie (ts : list ftype) (c : bool) : list (btype * nat) := imap (fun i X => (BField X c, i)) ts.
(** P 730-732 tuple_size of the vector: that of the value type (PD 252-263); P 766-767 of a reference: that of tie() *)
Definition tuple_size_of (ts : list ftype) (b : bindable) : nat :=
  match b with BVec _ => length ts | BRef c => length (tie ts c) end.
(** P 734-743 tuple_element of the vector, const vector; P 769-770 of a reference: that of tie() *)
Definition tuple_element_of (ts : list ftype) (b : bindable) (I : nat) : option btype :=
  match b with
  | BVec c => match ts !! I with Some X => Some (BSpan X c) | None => None end
  | BRef c => fst <$> tie ts c !! I
  end.
(** P 747-762 std::get of the vector; P 73-76, 181-184 get of a reference: auto&, const auto& of what the proxy's tie() has.
    None: does not compile *)
Definition get_of (ts : list ftype) (b : bindable) (I : nat) : option (btype * nat) :=
  match b with
  | BVec c => match tuple_get ts c I with Some s => Some (BSpan (s_elem s) (s_const s), s_col s) | None => None end
  | BRef c => match tie ts false !! I with Some (BField X _, i) => Some (BField X c, i) | _ => None end
  end.
(** ** Which get is found.  Structured bindings look get up by argument dependent lookup only, in the namespaces associated with the type.
    A type: not a class, or a class with the innermost namespaces of the class, of the class it is a member of and of its bases, and its template
    arguments, whose namespaces are associated too; the template arguments of bases are not *)
Inductive nspace : Type := NsStd | NsStdPmr | NsAa | NsNoexport | NsUser (n : nat).
Global Instance nspace_dec : EqDecision nspace. Proof. solve_decision. Defined.
Inductive cty : Type := CNoClass | CClass (own : list nspace) (args : list cty).
Fixpoint associated (t : cty) : list nspace :=
  match t with
  | CNoClass => []
  | CClass own args => own ++ (fix all l := match l with [] => [] | a :: tl => associated a ++ all tl end) args
  end.
(** P 688-691: a class template of aa with the arguments T and Alloc; its base is aa::noexport::data_parallel_impl, P 34-35 *)
Definition vector_class (T Alloc : cty) : cty := CClass [NsAa; NsNoexport] [T; Alloc].
(** P 745-762: get of vectors is in std; P 73-76, 181-184: get of references is a friend, found through their own class *)
Definition get_found (T Alloc : cty) (b : bindable) : bool :=
  match b with BVec _ => bool_decide (NsStd ∈ associated (vector_class T Alloc)) | BRef _ => true end.
(** auto [x0, ..., xn-1] = e: at least one name, as many as tuple_size says; each is of the type tuple_element says, initialised by get.
    A reference is a prvalue here, as v[i] and *it are; a named one cannot be copied (P 105-107 deletes the copy constructor).
    The names with their types and columns; None: does not compile *)
Definition structured_binding (T Alloc : cty) (ts : list ftype) (b : bindable) (n : nat) : option (list (btype * nat)) :=
  if (0 <? n) && (n =? tuple_size_of ts b) && get_found T Alloc b
  then mapM (fun I => match tuple_element_of ts b I, get_of ts b I with
                      | Some t, Some (t', i) => if bool_decide (t = t') then Some (t, i) else None
                      | _, _ => None
                      end) (seq 0 n)
  else None.
