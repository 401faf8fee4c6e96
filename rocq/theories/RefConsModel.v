(** Model of the construction of poly_ref, const_poly_ref, poly_ptr, const_poly_ptr, stateful::ref and stateful::cref:
    which constructor [R<Methods...> r(x)] and [R<Methods...> r = x] select, what r then refers to and whose table it has;
    and which Methods [R r = x] deduces.
    Source: A = include/anyany/anyany.hpp, T = include/anyany/type_descriptor.hpp, B = include/anyany/noexport/file_begin.hpp.
    The rules are those of the language ([over.best.ics], [over.ics.rank], [over.match.best], [over.match.class.deduct], [dcl.init]).

    Simplified: classes derived from the six templates, volatile, bit-fields, braced lists and conversion functions of the user's classes
    are left out; a class derived from a basic_any is treated as that any (its methods_list and base_any_type are inherited, A 1169-1170). *)
From stdpp Require Import list.
From Verif Require Import TypeListModel.

Inductive kind : Set := KRef | KCRef | KPtr | KCPtr | KSRef | KSCRef.
Definition kind_eqb (k l : kind) : bool :=
  match k, l with KRef, KRef | KCRef, KCRef | KPtr, KPtr | KCPtr, KCPtr | KSRef, KSRef | KSCRef, KSCRef => true | _, _ => false end.
Inductive ty : Set :=
| TObj (n : nat)                        (* a type that is none of the following *)
| TVoid
| TNull                                 (* std::nullptr_t *)
| TPtr (const : bool) (t : ty)          (* t* or const t* *)
| TArr (t : ty) (n : nat)               (* t[n]; const when its elements are *)
| TFun (n : nat)                        (* a function *)
| TAny (n : nat) (ms : list nat)        (* basic_any with these methods, or a class derived from it *)
| TView (k : kind) (ms : list nat).
(** an expression of type [a_ty], const or not, lvalue or not *)
Record arg : Set := Arg { a_ty : ty; a_const : bool; a_lvalue : bool }.
(** is the type of the expression the view of kind k with these methods *)
Definition same_list (l1 l2 : list nat) : bool := list_same Nat.eqb l1 l2.
Definition is_view (x : arg) (k : kind) (ms : list nat) : bool :=
  match a_ty x with TView k' ms' => kind_eqb k' k && same_list ms' ms | _ => false end.

(** does do_invoke<T> or do_value<T> of the method exist, for a decayed T *)
Definition provides : Type := nat -> ty -> bool.

(** std::decay_t of a type deduced as [t] or [const t] *)
Definition decay (const : bool) (t : ty) : ty :=
  match t with TArr u _ => TPtr const u | TFun _ => TPtr false t | _ => t end.
(** T 88-90, B 54-69 is_polymorphic: the tag of the decayed type (A 534, 548, 657, 739, 865, 932, 1110) *)
Definition is_polymorphic (t : ty) : bool := match t with TAny _ _ | TView _ _ => true | _ => false end.
(** A 211 is_any: the decayed type has base_any_type *)
Definition is_any (t : ty) : bool := match t with TAny _ _ => true | _ => false end.
Definition is_void (t : ty) : bool := match t with TVoid => true | _ => false end.
Definition is_fun (t : ty) : bool := match t with TFun _ => true | _ => false end.
(** A 421, 431: has_subsequence in a constraint *)
Definition narrower (ms from : list nat) : bool := match has_subsequence Nat.eqb ms from with CtOk b => b | CtErr => false end.
(** A 878, 888, 964, 974, 980, 986: contains_v<Methods, Methods2...> && ... *)
Definition all_in (ms from : list nat) : bool := forallb (fun m => contains_v Nat.eqb m from) ms.

(** ** Constructors *)
Inductive ctor : Set :=
| CCopy               (* const R& : A 579, implicit for pointers *)
| CMove               (* R&& : A 580, implicit for pointers *)
| CLvalue             (* T& : A 589-595, 900-907 *)
| CConstRef           (* const T& : A 626-630, 945-949 *)
| CNull               (* nullptr_t : A 665-666, 747-748 *)
| CPointer            (* T* : A 673-679 *)
| CConstPointer       (* const T* : A 754-759 *)
| CAnyPointer         (* Any* : A 681-690 *)
| CConstAnyPointer    (* const Any* : A 761-770 *)
| CSame (k : kind)    (* a view of kind k with the same list: A 632-634, 772-775, 909-911, 951-960; not a template *)
| CFrom (k : kind)    (* a view of kind k with a list that is deduced: A 597-602, 635-646, 691-699, 776-792 *)
| CPick.              (* const X& for which FOO(X) exists: A 877-895, 915-918, 963-989, 995-998 *)
Definition ctor_eqb (c d : ctor) : bool :=
  match c, d with
  | CCopy, CCopy | CMove, CMove | CLvalue, CLvalue | CConstRef, CConstRef | CNull, CNull | CPointer, CPointer | CConstPointer, CConstPointer
  | CAnyPointer, CAnyPointer | CConstAnyPointer, CConstAnyPointer | CPick, CPick => true
  | CSame k, CSame l | CFrom k, CFrom l => kind_eqb k l
  | _, _ => false
  end.
Definition ctors (k : kind) : list ctor :=
  [CCopy; CMove] ++
  match k with
  | KRef => [CLvalue; CFrom KRef]
  | KCRef => [CConstRef; CSame KRef; CFrom KCRef; CFrom KRef]
  | KPtr => [CNull; CPointer; CAnyPointer; CFrom KPtr]
  | KCPtr => [CNull; CConstPointer; CConstAnyPointer; CSame KPtr; CFrom KCPtr; CFrom KPtr]
  | KSRef => [CLvalue; CSame KRef; CPick]
  | KSCRef => [CConstRef; CSame KCRef; CSame KRef; CSame KSRef; CPick]
  end.
Definition is_template (c : ctor) : bool := match c with CCopy | CMove | CNull | CSame _ => false | _ => true end.
(** the kinds of views FOO takes: A 879, 889; A 965, 975, 981, 987 *)
Definition pickable (k : kind) : list kind :=
  match k with KSRef => [KRef; KSRef] | KSCRef => [KSCRef; KSRef; KRef; KCRef] | _ => [] end.

(** a conversion of the argument: a user-defined one or not; the class it converts to; the reference bound (rvalue reference, to const),
    None: by value *)
Record ics : Set := ICS { ic_user : bool; ic_to : option kind; ic_ref : option (bool * bool) }.
Definition same_class (k l : option kind) : bool := match k, l with Some k, Some l => kind_eqb k l | None, None => true | _, _ => false end.
Definition by_value : ics := ICS false None None.

(** where the new reference or pointer refers to: the object x names; what the pointer x points to; the value in the any x points to; what the
    view x refers to; nothing.  And the table: of a type, of the value in the any, of the view x *)
Inductive target : Set := AtSelf | AtPointee | AtContent | AtSame | Nowhere.
Inductive table : Set := TableOf (t : ty) | TableOfContent | TableOfSource | NoTable.
Inductive result : Set := Made (p : target) (t : table) | HardError | NoViable | Ambiguous.

Section Cons.
  Context (E : provides).
  (** A 216-228 exist_for<X, Methods...>: X is decayed *)
  Definition exist_for (const : bool) (t : ty) (ms : list nat) : bool := forallb (fun m => E m (decay const t)) ms.

  (** array-to-pointer and function-to-pointer conversion of an argument for a parameter by value *)
  Definition as_pointer (x : arg) : option (bool * ty) :=
    match a_ty x with
    | TPtr c t => Some (c, t)
    | TArr t _ => Some (a_const x, t)
    | TFun n => Some (false, TFun n)
    | _ => None
    end.
  (** const R& or R&& bound to the argument itself *)
  Definition bind_self (rref : bool) (x : arg) : bool := if rref then negb (a_lvalue x) && negb (a_const x) else true.

  (** the conversion of x to the constructor's parameter without user-defined conversions; constraints included *)
  Definition bind (k : kind) (ms : list nat) (c : ctor) (x : arg) : option ics :=
    let when (b : bool) (i : ics) := if b then Some i else None in
    match c with
    | CCopy => when (is_view x k ms) (ICS false (Some k) (Some (false, true)))
    | CMove => when (is_view x k ms && bind_self true x) (ICS false (Some k) (Some (true, false)))
    | CLvalue => (* not_const_type<T>, is_not_polymorphic<T>, exist_for<T, Methods...>; functions are lvalues *)
        when (negb (a_const x) && (a_lvalue x || is_fun (a_ty x)) && negb (is_void (a_ty x)) && negb (is_polymorphic (a_ty x)) && exist_for false (a_ty x) ms)
          (ICS false None (Some (false, false)))
    | CConstRef => (* T is deduced without const *)
        when (negb (is_void (a_ty x)) && negb (is_polymorphic (a_ty x)) && exist_for false (a_ty x) ms) (ICS false None (Some (false, true)))
    | CNull => when (match a_ty x with TNull => true | _ => false end) by_value
    | CPointer => match as_pointer x with
                  | Some (c, t) => when (negb c && negb (is_any t) && exist_for c t ms) by_value
                  | None => None
                  end
    | CConstPointer => match as_pointer x with
                       | Some (c, t) => when (negb (is_polymorphic t) && exist_for false t ms) by_value
                       | None => None
                       end
    | CAnyPointer => match as_pointer x with
                     | Some (c, TAny _ any_ms) => when (negb c && narrower ms any_ms) by_value
                     | _ => None
                     end
    | CConstAnyPointer => match as_pointer x with
                          | Some (c, TAny _ any_ms) => when (narrower any_ms ms) by_value
                          | _ => None
                          end
    | CSame k' => when (is_view x k' ms) (match k' with KSRef => ICS false (Some KSRef) (Some (false, true)) | _ => by_value end)
    | CFrom k' => match a_ty x with
                  | TView k'' from =>
                      (* a template is not instantiated to a constructor that takes its own class by value *)
                      when (kind_eqb k' k'' && negb (kind_eqb k k' && same_list from ms) && narrower ms from) by_value
                  | _ => None
                  end
    | CPick => match a_ty x with
               | TView k' from => when (existsb (kind_eqb k') (pickable k) && all_in ms from) (ICS false None (Some (false, true)))
               | _ => None
               end
    end.

  (** is the first conversion of the argument better than the second *)
  Definition conv_better (x : arg) (i j : ics) : bool :=
    if negb (Bool.eqb (ic_user i) (ic_user j)) then negb (ic_user i)
    else if ic_user i && negb (same_class (ic_to i) (ic_to j)) then false
    else match ic_ref i, ic_ref j with
         | Some (r, c), Some (r', c') =>
             if (ic_user i || negb (a_lvalue x)) && negb (Bool.eqb r r') then r
             else Bool.eqb r r' && negb c && c'
         | _, _ => false
         end.
  Definition better (x : arg) (c d : ctor * ics) : bool :=
    conv_better x (snd c) (snd d) || (negb (conv_better x (snd d) (snd c)) && negb (is_template (fst c)) && is_template (fst d)).

  (** what a constructor does.  A 594, 629, 905, 948: std::addressof(value) becomes value_ptr; A 678, 758: the pointer becomes value_ptr; a
      pointer to a function does not convert to void*.  The table is that of the decayed type (A 458, 594, 629, 677, 757, 906, 948) *)
  Definition body (ms : list nat) (c : ctor) (x : arg) : result :=
    match c with
    | CLvalue | CConstRef => if is_fun (a_ty x) then HardError else Made AtSelf (TableOf (decay false (a_ty x)))
    | CPointer | CConstPointer =>
        match as_pointer x with
        | Some (_, t) => if is_fun t then HardError else Made AtPointee (TableOf (decay false t))
        | None => HardError
        end
    | CAnyPointer | CConstAnyPointer => (* A 687, 767: subtable_ptr<Methods...> of the any's table, which must contain them *)
        match as_pointer x with
        | Some (_, TAny _ any_ms) => if narrower ms any_ms then Made AtContent TableOfContent else HardError
        | _ => HardError
        end
    | CNull => Made Nowhere NoTable
    | CCopy | CMove | CSame _ | CFrom _ | CPick => Made AtSame TableOfSource
    end.

  Definition select (x : arg) (v : list (ctor * ics)) : (ctor * ics) + result :=
    match v with
    | [] => inr NoViable
    | _ => match List.filter (fun c => forallb (fun d => ctor_eqb (fst c) (fst d) || better x c d) v) v with
           | [c] => inl c
           | _ => inr Ambiguous
           end
    end.
  (** R<ms> r = x: no user-defined conversion of x to a parameter *)
  Definition viable_now (k : kind) (ms : list nat) (x : arg) : list (ctor * ics) :=
    omap (fun c => option_map (pair c) (bind k ms c x)) (ctors k).
  Definition copy_init (k : kind) (ms : list nat) (x : arg) : result :=
    match select x (viable_now k ms x) with
    | inl (c, _) => body ms c x
    | inr r => r
    end.
  (** can x be converted to R<ms>: also when it then turns out to be ambiguous or not to compile *)
  Definition convertible (k : kind) (ms : list nat) (x : arg) : bool := match copy_init k ms x with NoViable => false | _ => true end.

  (** R<ms> r(x): parameters of class type that are not deduced can also be reached by a user-defined conversion of x *)
  Definition bind_user (k : kind) (ms : list nat) (c : ctor) (x : arg) : option ics :=
    match c with
    | CCopy => if convertible k ms x then Some (ICS true (Some k) (Some (false, true))) else None
    | CMove => if convertible k ms x then Some (ICS true (Some k) (Some (true, false))) else None
    | CSame KSRef => if convertible KSRef ms x then Some (ICS true (Some KSRef) (Some (false, true))) else None
    | CSame k' => if convertible k' ms x then Some (ICS true (Some k') None) else None
    | _ => None
    end.
  Definition bind_any (k : kind) (ms : list nat) (x : arg) (c : ctor) : option (ctor * ics) :=
    match bind k ms c x with
    | Some i => Some (c, i)
    | None => option_map (pair c) (bind_user k ms c x)
    end.
  Definition viable_all (k : kind) (ms : list nat) (x : arg) : list (ctor * ics) := omap (bind_any k ms x) (ctors k).
  (** a converted argument is the view made from x *)
  Definition body_user (k : kind) (ms : list nat) (c : ctor) (x : arg) : result :=
    match c with CCopy | CMove => copy_init k ms x | CSame k' => copy_init k' ms x | _ => HardError end.
  Definition direct_init (k : kind) (ms : list nat) (x : arg) : result :=
    match select x (viable_all k ms x) with
    | inl (c, i) => if ic_user i then body_user k ms c x else body ms c x
    | inr r => r
    end.
  Definition init (direct : bool) : kind -> list nat -> arg -> result := if direct then direct_init else copy_init.

  (** ** R r = x: deduction of Methods *)
  Inductive guide : Set :=
  | GCtor (c : ctor)  (* from a constructor *)
  | GCopy             (* the copy deduction candidate, R<Methods...> by value *)
  | GUser (k : kind). (* A 651-652, 829-830: a view of kind k *)
  Definition guide_eqb (g h : guide) : bool :=
    match g, h with GCtor c, GCtor d => ctor_eqb c d | GCopy, GCopy => true | GUser k, GUser l => kind_eqb k l | _, _ => false end.
  Definition guides (k : kind) : list guide :=
    map GCtor (ctors k) ++ [GCopy] ++ match k with KCRef => [GUser KRef] | KCPtr => [GUser KPtr] | _ => [] end.
  (** the Methods a guide gives and how x is converted: a pack that is not deduced is empty (also where the constructor's own parameters
      follow it, as compilers have it) *)
  Definition deduces (k : kind) (x : arg) (g : guide) : option (list nat * ics) :=
    let view (k' : kind) (i : ics) := match a_ty x with TView k'' ms => if kind_eqb k' k'' then Some (ms, i) else None | _ => None end in
    match g with
    | GCtor CCopy => view k (ICS false (Some k) (Some (false, true)))
    | GCtor CMove => if bind_self true x then view k (ICS false (Some k) (Some (true, false))) else None
    | GCtor (CSame k') => view k' (match k' with KSRef => ICS false (Some KSRef) (Some (false, true)) | _ => by_value end)
    | GCtor (CFrom k') => match view k' by_value with Some (_, i) => Some ([], i) | None => None end
    | GCtor c => option_map (pair []) (bind k [] c x)
    | GCopy => view k by_value
    | GUser k' => view k' by_value
    end.
  (** a parameter naming one of the class templates is more specialised than T& or const X& *)
  Definition names_class (g : guide) : bool :=
    match g with GCtor (CCopy | CMove | CSame _ | CFrom _) | GCopy | GUser _ => true | GCtor _ => false end.
  Definition is_user_guide (g : guide) : bool := match g with GUser _ => true | _ => false end.
  Definition is_copy_candidate (g : guide) : bool := match g with GCopy => true | _ => false end.
  Definition of_template_ctor (g : guide) : bool := match g with GCtor c => is_template c | _ => false end.
  (** [over.match.best]: conversion; more specialised; user's guide; copy deduction candidate; from a constructor that is not a template *)
  Definition better_guide (x : arg) (g h : guide * (list nat * ics)) : bool :=
    let gt := conv_better x (snd (snd g)) (snd (snd h)) in
    let lt := conv_better x (snd (snd h)) (snd (snd g)) in
    let prefer (p : guide -> bool) (rest : bool) := if Bool.eqb (p (fst g)) (p (fst h)) then rest else p (fst g) in
    if gt then true else if lt then false
    else prefer names_class (prefer is_user_guide (prefer is_copy_candidate (prefer (fun g => negb (of_template_ctor g)) false))).
  Definition deduce (k : kind) (x : arg) : option (list nat) :=
    let v := omap (fun g => option_map (pair g) (deduces k x g)) (guides k) in
    match List.filter (fun g => forallb (fun h => guide_eqb (fst g) (fst h) || better_guide x g h) v) v with
    | [(_, (ms, _))] => Some ms
    | _ => None
    end.
  (** R r = x *)
  Definition deduced_init (k : kind) (x : arg) : option (list nat * result) :=
    match deduce k x with Some ms => Some (ms, copy_init k ms x) | None => None end.
End Cons.
