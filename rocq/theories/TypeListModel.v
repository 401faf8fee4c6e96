(** Model of the type-list metaprogramming of AnyAny.
    Sources: include/anyany/noexport/anyany_details.hpp (D), include/anyany/anyany.hpp (A).
    A parameter pack / type_list<Ts...> is a [list]; type identity (std::is_same) is
    decidable equality on the elements.  [npos] is [None].  A call for which no C++ overload exists
    (compile error) is [CtErr]; the properties show where that cannot happen. *)
From Coq Require Import List Bool Arith.
Import ListNotations.
Set Implicit Arguments.

(** Result of a consteval call. [CtErr]: the call does not compile. *)
Inductive ct (A : Type) : Type := CtOk (a : A) | CtErr.
Arguments CtOk {A}. Arguments CtErr {A}.

Section Pack.
  Variable A : Type.
  Variable eqb : A -> A -> bool.      (* std::is_same_v *)

  (** D 66-77 number_of_impl<I, T, Args...> *)
  Fixpoint number_of_impl (i : nat) (t : A) (args : list A) : option nat :=
    match args with
    | [] => None
    | h :: tl => if eqb t h then Some i else number_of_impl (S i) t tl
    end.

  (** D 80-81 number_of_first *)
  Definition number_of_first (t : A) (args : list A) : option nat := number_of_impl 0 t args.

  (** D 83-84 contains_v *)
  Definition contains_v (t : A) (args : list A) : bool :=
    match number_of_first t args with Some _ => true | None => false end.

  (** std::is_same_v on two type lists *)
  Fixpoint list_same (l1 l2 : list A) : bool :=
    match l1, l2 with
    | [], [] => true
    | x :: l1', y :: l2' => eqb x y && list_same l1' l2'
    | _, _ => false
    end.

  (** D 126-138 starts_with (three overloads) *)
  Fixpoint starts_with (needle haystack : list A) : bool :=
    match needle with
    | [] => true
    | h1 :: ts1 =>
        match haystack with
        | [] => false
        | h2 :: ts2 => if eqb h1 h2 then starts_with ts1 ts2 else false
        end
    end.

  (** D 142-151 find_subsequence_impl; the second parameter must be type_list<Head, Ts2...>,
      so a call with an empty haystack does not compile. *)
  Fixpoint find_subsequence_impl (needle haystack : list A) (n : nat) : ct (option nat) :=
    match haystack with
    | [] => CtErr
    | head :: ts2 =>
        if length ts2 + 1 <=? length needle
        then CtOk (if list_same needle (head :: ts2) then Some n else None)
        else if starts_with needle (head :: ts2) then CtOk (Some n)
        else find_subsequence_impl needle ts2 (n + 1)
    end.

  (** D 155-161 find_subsequence *)
  Definition find_subsequence (needle haystack : list A) : ct (option nat) :=
    match haystack with
    | [] => CtOk (match needle with [] => Some 0 | _ => None end)
    | _ => find_subsequence_impl needle haystack 0
    end.

  (** D 162-165 has_subsequence *)
  Definition has_subsequence (needle haystack : list A) : ct bool :=
    match find_subsequence needle haystack with
    | CtOk (Some _) => CtOk true
    | CtOk None => CtOk false
    | CtErr => CtErr
    end.

  (** D 166-169 has_subset: fold of && over the needle pack *)
  Definition has_subset (needle haystack : list A) : bool :=
    fold_right (fun x acc => contains_v x haystack && acc) true needle.

  (** D 335-343 filter_types: left fold of operator+ over type lists *)
  Definition filter_types (pred : A -> bool) (types : list A) : list A :=
    fold_left (fun acc t => acc ++ (if pred t then [t] else [])) types [].

  (** D 345-356 remove_duplicates(list, out) *)
  Fixpoint remove_duplicates (types out : list A) : list A :=
    match types with
    | [] => out
    | h :: tl => if contains_v h out then remove_duplicates tl out
                 else remove_duplicates tl (out ++ [h])
    end.

  (** A 151-155 runtime_concept::without_duplicates *)
  Definition without_duplicates (methods : list A) : list A := remove_duplicates methods [].

  (** A 156-168 runtime_concept::filtered_by *)
  Definition filtered_by (pred : A -> bool) (methods : list A) : list A := filter_types pred methods.
End Pack.

(** D 189-200 inherit_without_duplicates.  [None] is [void] (a method without plugin);
    [base_of b d] is std::is_base_of_v<b, d> (true for b = d). *)
Section Plugins.
  Variable P : Type.
  Variable base_of : P -> P -> bool.

  Definition base_of_o (h : P) (t : option P) : bool :=
    match t with Some p => base_of h p | None => false end.

  Fixpoint inherit_without_duplicates (l : list (option P)) (results : list P) : list P :=
    match l with
    | [] => results
    | None :: tail => inherit_without_duplicates tail results
    | Some head :: tail =>
        if existsb (base_of head) results || existsb (base_of_o head) tail
        then inherit_without_duplicates tail results
        else inherit_without_duplicates tail (results ++ [head])
    end.

  (** A 527-528 construct_interface *)
  Definition construct_interface (plugins : list (option P)) : list P :=
    inherit_without_duplicates plugins [].
End Plugins.

(** Types as trees: a leaf is a simple method, [TL] is type_list<...> or runtime_concept<...>
    (both satisfy is_type_list, A 171-172). *)
Inductive ty (A : Type) : Type :=
| Leaf (a : A)
| TL (l : list (ty A)).
Arguments Leaf {A}. Arguments TL {A}.

Section Flatten.
  Variable A : Type.

  (** is_type_list<T>::value *)
  Definition is_type_list (t : ty A) : bool := match t with TL _ => true | Leaf _ => false end.

  (** D 318-322: conditional_t<is_type_list, T, type_list<T>>{} + ... + type_list<>{}
      (a right fold of concatenation). *)
  Definition flatten_one_layer (ts : list (ty A)) : list (ty A) :=
    fold_right (fun t acc => (match t with TL l => l | Leaf a => [Leaf a] end) ++ acc) [] ts.

  (** D 324-327 contains_second_layer_list *)
  Definition contains_second_layer_list (ts : list (ty A)) : bool := existsb is_type_list ts.

  (** D 397-403 flatten_types: template recursion; [fuel] bounds the instantiation depth and
      running out of it is [None] (the compiler's depth limit), never a result. *)
  Fixpoint flatten_types (fuel : nat) (ts : list (ty A)) : option (list (ty A)) :=
    match fuel with
    | 0 => None
    | S f => if contains_second_layer_list ts
             then flatten_types f (flatten_one_layer ts)
             else Some ts
    end.
End Flatten.

(** A runtime_concept<Methods...> is the list of its (simple) methods; template arguments that are
    again lists are flattened by insert_flatten_into (A 119-120).  [fuel] as above. *)
Section Concept.
  Variable A : Type.
  Variable eqb : A -> A -> bool.

  (** the leaves of an already flat list; a remaining list would violate
      anyany_simple_method_concept *)
  Fixpoint as_simple (ts : list (ty A)) : option (list A) :=
    match ts with
    | [] => Some []
    | Leaf a :: tl => match as_simple tl with Some r => Some (a :: r) | None => None end
    | TL _ :: _ => None
    end.

  (** A 119-120 insert_flatten_into *)
  Definition insert_flatten (fuel : nat) (ts : list (ty A)) : option (list A) :=
    match flatten_types fuel ts with Some l => as_simple l | None => None end.

  (** A 131-135 runtime_concept::append *)
  Definition rc_append (fuel : nat) (methods : list A) (m2 : list (ty A)) : option (list A) :=
    insert_flatten fuel (map Leaf methods ++ m2).

  (** A 136-139 runtime_concept::equivalent_to *)
  Definition rc_equivalent_to (fuel : nat) (methods : list A) (m2 : list (ty A)) : option bool :=
    match insert_flatten fuel m2 with
    | Some l => Some (list_same eqb methods l)
    | None => None
    end.

  (** A 141-144 runtime_concept::subsumes *)
  Definition rc_subsumes (fuel : nat) (methods : list A) (m2 : list (ty A)) : option (ct bool) :=
    match insert_flatten fuel m2 with
    | Some l => Some (has_subsequence eqb l methods)
    | None => None
    end.
End Concept.

(** Which method list an any_with really uses, and what interface_of reports. *)
Section AnyWith.
  Variable A : Type.
  Variable eqb : A -> A -> bool.
  Variable destroy : A.

  (** A 1696-1708 insert_into_basic_any (the overload for a leading [destroy] is more specialised) *)
  Definition insert_into_basic_any (methods : list A) : list A :=
    match methods with
    | h :: tl => if eqb h destroy then destroy :: destroy :: tl
                 else if contains_v eqb destroy methods then methods
                 else destroy :: methods
    | [] => if contains_v eqb destroy methods then methods else destroy :: methods
    end.

  (** A 1710-1713, 1733-1737 any_with / basic_any_with *)
  Definition any_with (fuel : nat) (ms : list (ty A)) : option (list A) :=
    match insert_flatten fuel ms with
    | Some l => Some (insert_into_basic_any l)
    | None => None
    end.

  (** A 1724-1729 get_interface_of for basic_any: a leading [destroy] is stripped *)
  Definition get_interface_of (methods : list A) : list A :=
    match methods with
    | h :: tl => if eqb h destroy then tl else methods
    | [] => []
    end.
End AnyWith.
