(** How data_parallel_vector reaches the fields of an aggregate, and its columns by type.
    P = include/anyany/data_parallel_vector.hpp, PD = include/anyany/noexport/data_parallel_vector_details.hpp. *)
From stdpp Require Import list.

(** ** Types, as far as they matter *)
(** a field: declared X, X& or X&&; [f_const]: declared const; [f_default]: it can be left out of an initialiser *)
Inductive fref := FObj | FLref | FRref.
Record fld := Fld { f_ref : fref; f_const : bool; f_default : bool }.
(** an aggregate: its fields, in order *)
Notation agg := (list fld).
(** how a reference to an object or field is obtained: lvalue or xvalue *)
Inductive vcat := Lvalue | Xvalue.

Section Fields.
(** whether one any_type initialises the aggregate itself, through its copy or move constructor: up to overload resolution between
    the two constructors and the two conversions of any_type (PD 9-14) *)
Context (self : bool).

(** ** Counting fields *)
(** is_constructible_v<T, any_type...> with k arguments (PD 9-31): any_type converts to every type.  As many initialisers as
    fields, or fewer if the rest can be left out *)
Definition constructible (T : agg) (k : nat) : bool :=
  self && (k =? 1) || (k <=? length T) && forallb f_default (drop k T).
(** PD 32-38 field_count: from k downwards; None: sizeof...(Is) - 1 wraps around, make_index_sequence of it does not compile *)
Fixpoint field_count (T : agg) (k : nat) : option nat :=
  if constructible T k then Some k else match k with 0 => None | S k => field_count T k end.
(** PD 39-41 *)
Definition fields_count (F : agg) : option nat := field_count F 30.

(** ** magic_tie *)
(** PD 43-53 forward_save_prvalues<T, Field>(val): [rv]: T&& is an rvalue reference *)
Definition forward_save (rv : bool) (f : fref) : vcat :=
  if rv then (* std::forward<Field>(val) *) match f with FLref => Lvalue | _ => Xvalue end
  else match f with
       | FObj => (* static_cast<Field&>(val) *) Lvalue
       | FLref => (* static_cast<Field&&>(val) *) Lvalue
       | FRref => Xvalue
       end.
(** PD 61-220: for each sz the names in the structured binding and the names in forward_as_tuple, copied from the code by a script *)
Definition branches : list (nat * list nat * list nat) := [
  (1, [0], [0]);
  (2, [0;1], [0;1]);
  (3, [0;1;2], [0;1;2]);
  (4, [0;1;2;3], [0;1;2;3]);
  (5, [0;1;2;3;4], [0;1;2;3;4]);
  (6, [0;1;2;3;4;5], [0;1;2;3;4;5]);
  (7, [0;1;2;3;4;5;6], [0;1;2;3;4;5;6]);
  (8, [0;1;2;3;4;5;6;7], [0;1;2;3;4;5;6;7]);
  (9, [0;1;2;3;4;5;6;7;8], [0;1;2;3;4;5;6;7;8]);
  (10, [0;1;2;3;4;5;6;7;8;9], [0;1;2;3;4;5;6;7;8;9]);
  (11, [0;1;2;3;4;5;6;7;8;9;10], [0;1;2;3;4;5;6;7;8;9;10]);
  (12, [0;1;2;3;4;5;6;7;8;9;10;11], [0;1;2;3;4;5;6;7;8;9;10;11]);
  (13, [0;1;2;3;4;5;6;7;8;9;10;11;12], [0;1;2;3;4;5;6;7;8;9;10;11;12]);
  (14, [0;1;2;3;4;5;6;7;8;9;10;11;12;13], [0;1;2;3;4;5;6;7;8;9;10;11;12;13]);
  (15, [0;1;2;3;4;5;6;7;8;9;10;11;12;13;14], [0;1;2;3;4;5;6;7;8;9;10;11;12;13;14]);
  (16, [0;1;2;3;4;5;6;7;8;9;10;11;12;13;14;15], [0;1;2;3;4;5;6;7;8;9;10;11;12;13;14;15]);
  (17, [0;1;2;3;4;5;6;7;8;9;10;11;12;13;14;15;16], [0;1;2;3;4;5;6;7;8;9;10;11;12;13;14;15;16]);
  (18, [0;1;2;3;4;5;6;7;8;9;10;11;12;13;14;15;16;17], [0;1;2;3;4;5;6;7;8;9;10;11;12;13;14;15;16;17]);
  (19, [0;1;2;3;4;5;6;7;8;9;10;11;12;13;14;15;16;17;18], [0;1;2;3;4;5;6;7;8;9;10;11;12;13;14;15;16;17;18]);
  (20, [0;1;2;3;4;5;6;7;8;9;10;11;12;13;14;15;16;17;18;19], [0;1;2;3;4;5;6;7;8;9;10;11;12;13;14;15;16;17;18;19]);
  (21, [0;1;2;3;4;5;6;7;8;9;10;11;12;13;14;15;16;17;18;19;20], [0;1;2;3;4;5;6;7;8;9;10;11;12;13;14;15;16;17;18;19;20]);
  (22, [0;1;2;3;4;5;6;7;8;9;10;11;12;13;14;15;16;17;18;19;20;21], [0;1;2;3;4;5;6;7;8;9;10;11;12;13;14;15;16;17;18;19;20;21]);
  (23, [0;1;2;3;4;5;6;7;8;9;10;11;12;13;14;15;16;17;18;19;20;21;22], [0;1;2;3;4;5;6;7;8;9;10;11;12;13;14;15;16;17;18;19;20;21;22]);
  (24, [0;1;2;3;4;5;6;7;8;9;10;11;12;13;14;15;16;17;18;19;20;21;22;23], [0;1;2;3;4;5;6;7;8;9;10;11;12;13;14;15;16;17;18;19;20;21;22;23]);
  (25, [0;1;2;3;4;5;6;7;8;9;10;11;12;13;14;15;16;17;18;19;20;21;22;23;24], [0;1;2;3;4;5;6;7;8;9;10;11;12;13;14;15;16;17;18;19;20;21;22;23;24]);
  (26, [0;1;2;3;4;5;6;7;8;9;10;11;12;13;14;15;16;17;18;19;20;21;22;23;24;25], [0;1;2;3;4;5;6;7;8;9;10;11;12;13;14;15;16;17;18;19;20;21;22;23;24;25]);
  (27, [0;1;2;3;4;5;6;7;8;9;10;11;12;13;14;15;16;17;18;19;20;21;22;23;24;25;26], [0;1;2;3;4;5;6;7;8;9;10;11;12;13;14;15;16;17;18;19;20;21;22;23;24;25;26]);
  (28, [0;1;2;3;4;5;6;7;8;9;10;11;12;13;14;15;16;17;18;19;20;21;22;23;24;25;26;27], [0;1;2;3;4;5;6;7;8;9;10;11;12;13;14;15;16;17;18;19;20;21;22;23;24;25;26;27]);
  (29, [0;1;2;3;4;5;6;7;8;9;10;11;12;13;14;15;16;17;18;19;20;21;22;23;24;25;26;27;28], [0;1;2;3;4;5;6;7;8;9;10;11;12;13;14;15;16;17;18;19;20;21;22;23;24;25;26;27;28])].
Fixpoint branch (sz : nat) (bs : list (nat * list nat * list nat)) : option (list nat * list nat) :=
  match bs with
  | [] => None
  | (n, names, fwd) :: bs => if n =? sz then Some (names, fwd) else branch sz bs
  end.
Fixpoint position (x : nat) (l : list nat) : option nat :=
  match l with [] => None | y :: l => if x =? y then Some 0 else S <$> position x l end.
(** a reference to a field: which one, category, const through the object or the field's own type *)
Record fieldref := FieldRef { r_field : nat; r_cat : vcat; r_const : bool }.
(** PD 57-222 magic_tie(T&& value): [rv] value category of the argument, [c] its constness.  None: does not compile: a structured binding needs
    as many names as fields; no branch for this number of fields *)
Definition tie1 (T : agg) (rv c : bool) (names : list nat) (x : nat) : option fieldref :=
  match position x names with
  | Some i => match T !! i with
              | Some f => Some (FieldRef i (forward_save rv (f_ref f)) (f_const f || (match f_ref f with FObj => c | _ => false end)))
              | None => None
              end
  | None => None
  end.
Definition magic_tie (T : agg) (rv c : bool) : option (list fieldref) :=
  match fields_count T with
  | None => None
  | Some sz => match branch sz branches with
               | Some (names, fwd) => if length names =? length T then mapM (tie1 T rv c names) fwd else None
               | None => None
               end
  end.
(** PD 225-228 magic_get<I>, used by PD 270-275 tl_traits::get for aggregates *)
Definition magic_get (I : nat) (T : agg) (rv c : bool) : option fieldref :=
  match magic_tie T rv c with Some l => l !! I | None => None end.

End Fields.

(** ** Columns by type *)
(** the type of a field after remove_cvref (PD 229-231, 262-264): bool, aa::noexport::bool_, others *)
Inductive ftype := TyBool | TyBoolWrapper | TyOther (n : nat).
Global Instance ftype_dec : EqDecision ftype. Proof. solve_decision. Defined.
(** P 47-55 container_for: std::vector<bool_> for bool, else std::vector<X>; named by its element type *)
Definition container_for (t : ftype) : ftype := match t with TyBool => TyBoolWrapper | t => t end.
(** std::get<C>(tuple): only if C occurs once *)
Definition get_by_type (C : ftype) (cs : list ftype) : option nat :=
  match List.filter (fun p => bool_decide (snd p = C)) (imap (fun i t => (i, t)) cs) with
  | [(i, _)] => Some i
  | _ => None
  end.
(** a span: the column and the type of its elements *)
Record span := Span { s_col : nat; s_elem : ftype; s_const : bool }.
(** P 464-481 get_span<X>(), X possibly const ([xc]), the vector const or not ([vc]).  None: does not compile *)
Definition get_span (ts : list ftype) (vc xc : bool) (X : ftype) : option span :=
  match get_by_type (container_for X) (map container_for ts) with
  | Some i => Some (Span i (match X with TyBool => TyBool | X => X end) (vc || xc))
  | None => None
  end.
(** P 482-497 get_span<I>() *)
Definition get_span_n (ts : list ftype) (vc : bool) (I : nat) : option span :=
  match ts !! I with
  | Some X => Some (Span I (match X with TyBool => TyBool | X => container_for X end) vc)
  | None => None
  end.
(** P 500-515 view_only<X>(), view<Types...>(); P 516-523 view<Nbs...>() *)
Definition view_types (ts : list ftype) (vc : bool) (Xs : list (bool * ftype)) : option (list span) := mapM (fun '(xc, X) => get_span ts vc xc X) Xs.
Definition view_numbers (ts : list ftype) (vc : bool) (Is : list nat) : option (list span) := mapM (get_span_n ts vc) Is.
(** P 747-762 std::get<I> of the vector: the first span of view<I>() *)
Definition tuple_get (ts : list ftype) (vc : bool) (I : nat) : option span :=
  match view_numbers ts vc [I] with Some (s :: _) => Some s | _ => None end.
