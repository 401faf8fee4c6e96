(** Model of overload resolution among the constructors, the assignment operators and emplace of basic_any: which one
    [Any(args...)], [any = x] and [any.emplace<T>(args...)] run, and what the any then contains.
    Source: A = include/anyany/anyany.hpp, D = include/anyany/noexport/anyany_details.hpp,
    T = include/anyany/type_descriptor.hpp, B = include/anyany/noexport/file_begin.hpp.

    Simplified: C++20 (the requires clauses are active) and bodies that compile (C++17 and the bodies: StdModel, C105); argument types have no conversion functions of their own; an
    argument in the place of Alloc has that type; Alloc has a default constructor; a braced list is not empty and only
    appears after in_place_type; the type in in_place_type_t is written decayed. *)
From stdpp Require Import list.
From Verif Require Import TypeListModel.

(** ** Types and expressions *)

(** methods: copy_with<Alloc, SooS> carries its parameters (A 338-339) *)
Inductive meth : Set := MDestroy | MMove | MCopy (al soos : nat) | MUser (n : nat).
(** basic_any<Alloc, SooS, Methods...> *)
Record anyty : Set := AnyT { at_al : nat; at_soos : nat; at_ms : list meth }.
Inductive ty : Set :=
| TObj (n : nat)                  (* a type of the user, not polymorphic *)
| TAny (a : anyty)
| TSub (n : nat) (a : anyty)      (* a class with the public base a *)
| TView (n : nat)                 (* poly_ref, poly_ptr, stateful::ref, ...: has aa_polymorphic_tag (A 534, 548, 657, 739, 865, 932) *)
| TInPlace (t : ty)               (* std::in_place_type_t<t> *)
| TForce                          (* force_stable_pointers_t, A 1081-1083 *)
| TAllocArg                       (* std::allocator_arg_t *)
| TAlloc (al : nat)
| TIList (t : ty).                (* std::initializer_list<t> *)
(** an expression of a type, const or not, lvalue or rvalue; or a braced list of elements *)
Inductive arg : Set := AExpr (t : ty) (const lvalue : bool) | ABrace (t : ty).

Global Instance meth_dec : EqDecision meth. Proof. solve_decision. Defined.
Global Instance anyty_dec : EqDecision anyty. Proof. solve_decision. Defined.
Global Instance ty_dec : EqDecision ty. Proof. solve_decision. Defined.
Global Instance arg_dec : EqDecision arg. Proof. solve_decision. Defined.
Definition eqm (x y : meth) : bool := bool_decide (x = y).

(** what the program's own types offer: std::is_copy_constructible_v and so on, whether do_invoke<T> or do_value<T> of a
    method of the user exists, whether T(args...) compiles *)
Record env : Type := Env {
  e_copy : ty -> bool; e_move : ty -> bool; e_destroy : ty -> bool;
  e_user : nat -> ty -> bool;
  e_make : ty -> list arg -> bool
}.

(** ** Traits *)

(** A 319-327 some_copy_method, A 330-332 noexport::has_move *)
Definition is_copy_method (m : meth) : bool := match m with MCopy _ _ => true | _ => false end.
Definition has_move_ms (ms : list meth) : bool := existsb is_copy_method ms || contains_v eqm MMove ms.
(** A 1164, A 1165 basic_any::has_copy, has_move *)
Definition has_copy (a : anyty) : bool := contains_v eqm (MCopy (at_al a) (at_soos a)) (at_ms a).
Definition has_move (a : anyty) : bool := has_move_ms (at_ms a) || bool_decide (at_soos a = 0).
(** D 162-165 has_subsequence; a call that does not compile in a constraint removes the candidate *)
Definition narrower (ms other : list meth) : bool := match has_subsequence eqm ms other with CtOk b => b | CtErr => false end.

(** the any an expression's class is or is derived from *)
Definition base_of (t : ty) : option anyty := match t with TAny a | TSub _ a => Some a | _ => None end.
(** T 88-90, B 54-69 is_polymorphic: does the decayed type have aa_polymorphic_tag (A 1110 for basic_any; inherited) *)
Definition is_polymorphic (t : ty) : bool := match t with TAny _ | TSub _ _ | TView _ => true | _ => false end.

Section Env.
  Context (E : env).

  (** std::is_copy_constructible_v, is_move_constructible_v, is_nothrow_destructible_v *)
  Definition copyable (t : ty) : bool :=
    match t with TAny a => has_copy a | TObj _ | TSub _ _ | TView _ => e_copy E t | _ => true end.
  Definition movable (t : ty) : bool :=
    match t with TAny a => has_move a | TObj _ | TSub _ _ | TView _ => e_move E t | _ => true end.
  Definition destroyable (t : ty) : bool :=
    match t with TObj _ | TSub _ _ | TView _ => e_destroy E t | _ => true end.

  (** the constraints of do_value: A 243-245 destroy, A 262-265 move, A 308-312 copy_method *)
  Definition exists_one (t : ty) (m : meth) : bool :=
    match m with
    | MDestroy => destroyable t
    | MMove => movable t && destroyable t
    | MCopy _ _ => copyable t && movable t && destroyable t
    | MUser n => e_user E n t
    end.
  (** A 216-228 exist_for<X, Methods...>; X is decayed *)
  Definition exist_for (t : ty) (ms : list meth) : bool := forallb (exists_one t) ms.

  (** ** Constructors *)

  (** parameters: a type without template parameters by value; in_place_type_t<T>; std::initializer_list<U>; T&&;
      const basic_any<Alloc, SooS, Other...>& or basic_any<Alloc, SooS, Other...>&&; const basic_any& or basic_any&& *)
  Inductive pat : Set := PTag (t : ty) | PInPlace | PIList | PFwd | PAny (rref : bool) | PSelf (rref : bool).
  Global Instance pat_dec : EqDecision pat. Proof. solve_decision. Defined.
  Inductive ctor : Set :=
  | KDefault       (* A 1190 basic_any() *)
  | KCopy          (* A 1198-1209 basic_any(const basic_any&) *)
  | KMove          (* A 1215-1218 basic_any(basic_any&&) *)
  | KInPlace       (* A 1295-1300 basic_any(in_place_type_t<T>, Args&&...) *)
  | KInPlaceList   (* A 1301-1307 basic_any(in_place_type_t<T>, initializer_list<U>, Args&&...) *)
  | KValue         (* A 1308-1313 basic_any(T&&) *)
  | KAlloc         (* A 1314-1315 basic_any(allocator_arg_t, Alloc) *)
  | KAllocValue    (* A 1316-1322 basic_any(allocator_arg_t, Alloc, T&&) *)
  | KTransCopy     (* A 1326-1341 basic_any(const basic_any<Alloc, SooS, OtherMethods...>&) *)
  | KTransMove     (* A 1342-1348 basic_any(basic_any<Alloc, SooS, OtherMethods...>&&) *)
  | KForceIn       (* A 1352-1357 basic_any(force_stable_pointers_t, in_place_type_t<T>, Args&&...) *)
  | KForceInList   (* A 1358-1365 basic_any(force_stable_pointers_t, in_place_type_t<T>, initializer_list<U>, Args&&...) *)
  | KForceValue.   (* A 1366-1372 basic_any(force_stable_pointers_t, T&&) *)
  Global Instance ctor_dec : EqDecision ctor. Proof. solve_decision. Defined.
  Definition ctors : list ctor :=
    [KDefault; KCopy; KMove; KInPlace; KInPlaceList; KValue; KAlloc; KAllocValue; KTransCopy; KTransMove; KForceIn; KForceInList; KForceValue].

  (** parameters, and whether a pack Args&&... follows *)
  Definition params (a : anyty) (k : ctor) : list pat * bool :=
    match k with
    | KDefault => ([], false)
    | KCopy => ([PSelf false], false)
    | KMove => ([PSelf true], false)
    | KInPlace => ([PInPlace], true)
    | KInPlaceList => ([PInPlace; PIList], true)
    | KValue => ([PFwd], false)
    | KAlloc => ([PTag TAllocArg; PTag (TAlloc (at_al a))], false)
    | KAllocValue => ([PTag TAllocArg; PTag (TAlloc (at_al a)); PFwd], false)
    | KTransCopy => ([PAny false], false)
    | KTransMove => ([PAny true], false)
    | KForceIn => ([PTag TForce; PInPlace], true)
    | KForceInList => ([PTag TForce; PInPlace; PIList], true)
    | KForceValue => ([PTag TForce; PFwd], false)
    end.
  Definition is_template (k : ctor) : bool := match k with KDefault | KCopy | KMove | KAlloc => false | _ => true end.

  (** a conversion of an argument to a parameter: to a base class or not; the reference it binds, None: by value *)
  Record ics : Set := ICS { ic_base : bool; ic_ref : option (bool * bool) (* rvalue reference, to const *) }.
  Definition is_sub (t : ty) : bool := match t with TSub _ _ => true | _ => false end.
  (** const C& or C&& from an expression of class C or derived from it *)
  Definition bind_class (rref sub const lvalue : bool) : option ics :=
    if rref then if lvalue || const then None else Some (ICS sub (Some (true, false)))
    else Some (ICS sub (Some (false, true))).
  Definition bind (a : anyty) (p : pat) (x : arg) : option ics :=
    match x with
    | ABrace _ => match p with PIList => Some (ICS false None) | _ => None end
    | AExpr t const lvalue =>
        match p with
        | PTag t' => if bool_decide (t = t') then Some (ICS false None) else None
        | PInPlace => match t with TInPlace _ => Some (ICS false None) | _ => None end
        | PIList => match t with TIList _ => Some (ICS false None) | _ => None end
        | PFwd => Some (ICS false (Some (negb lvalue, const)))
        | PAny rref =>
            match base_of t with
            | Some b => if bool_decide (at_al b = at_al a) && bool_decide (at_soos b = at_soos a) then bind_class rref (is_sub t) const lvalue else None
            | None => None
            end
        | PSelf rref =>
            match base_of t with
            | Some b => if bool_decide (b = a) then bind_class rref (is_sub t) const lvalue else None
            | None => None
            end
        end
    end.
  Fixpoint bind_all (a : anyty) (ps : list pat) (pack : bool) (xs : list arg) : option (list ics) :=
    match ps, xs with
    | [], [] => Some []
    | [], x :: xs => if pack then match bind a PFwd x, bind_all a [] pack xs with Some i, Some is => Some (i :: is) | _, _ => None end else None
    | p :: ps, x :: xs => match bind a p x, bind_all a ps pack xs with Some i, Some is => Some (i :: is) | _, _ => None end
    | _ :: _, [] => None
    end.

  (** enable_if_t and requires clauses, after deduction *)
  Definition constraint (a : anyty) (k : ctor) (xs : list arg) : bool :=
    match k, xs with
    | KCopy, _ => has_copy a
    | KMove, _ => has_move a
    | KInPlace, AExpr (TInPlace t) _ _ :: _ | KInPlaceList, AExpr (TInPlace t) _ _ :: _ => exist_for t (at_ms a)
    | KValue, AExpr t _ _ :: _ => negb (is_polymorphic t) && exist_for t (at_ms a)
    | KAllocValue, _ :: _ :: AExpr t _ _ :: _ => exist_for t (at_ms a)
    | KTransCopy, AExpr t _ _ :: _ =>
        match base_of t with
        | Some b => contains_v eqm (MCopy (at_al a) (at_soos a)) (at_ms b) && narrower (at_ms a) (at_ms b)
        | None => false
        end
    | KTransMove, AExpr t _ _ :: _ =>
        match base_of t with Some b => has_move_ms (at_ms b) && narrower (at_ms a) (at_ms b) | None => false end
    | KForceIn, _ :: AExpr (TInPlace t) _ _ :: _ | KForceInList, _ :: AExpr (TInPlace t) _ _ :: _ => exist_for t (at_ms a)
    | KForceValue, _ :: AExpr t _ _ :: _ => negb (is_polymorphic t) && exist_for t (at_ms a)
    | KDefault, _ | KAlloc, _ => true
    | _, _ => false
    end.

  (** ** Overload resolution *)

  Definition rvalue (x : arg) : bool := match x with AExpr _ _ lvalue => negb lvalue | ABrace _ => false end.
  (** [over.ics.rank]: no conversion to a base; an rvalue reference for an rvalue; a less const referenced type *)
  Definition conv_better (x : arg) (i j : ics) : bool :=
    if negb (Bool.eqb (ic_base i) (ic_base j)) then negb (ic_base i)
    else match ic_ref i, ic_ref j with
         | Some (r1, c1), Some (r2, c2) =>
             if rvalue x && negb (Bool.eqb r1 r2) then r1 else Bool.eqb r1 r2 && negb c1 && c2
         | _, _ => false
         end.
  Fixpoint some_better (xs : list arg) (is js : list ics) : bool :=
    match xs, is, js with x :: xs, i :: is, j :: js => conv_better x i j || some_better xs is js | _, _, _ => false end.
  (** [temp.deduct.partial]: parameters for the arguments of the call, each with a mark if it comes from the pack *)
  Fixpoint expand (ps : list pat) (n : nat) : list (pat * bool) :=
    match n, ps with
    | 0, _ => []
    | S n, [] => (PFwd, true) :: expand [] n
    | S n, p :: ps => (p, false) :: expand ps n
    end.
  Definition covers (p q : pat * bool) : bool :=
    negb (snd q && negb (snd p)) &&
    match fst p, fst q with
    | PFwd, _ | PAny _, PAny _ => true
    | p', q' => bool_decide (p' = q')
    end.
  Definition at_least (a : anyty) (n : nat) (k l : ctor) : bool :=
    forallb (fun pq => covers (fst pq) (snd pq)) (zip (expand (fst (params a l)) n) (expand (fst (params a k)) n)).
  Definition more_specialised (a : anyty) (n : nat) (k l : ctor) : bool := at_least a n k l && negb (at_least a n l k).
  (** [over.match.best] *)
  Definition better (a : anyty) (xs : list arg) (f g : ctor * list ics) : bool :=
    negb (some_better xs (snd g) (snd f)) &&
    (some_better xs (snd f) (snd g)
     || (negb (is_template (fst f)) && is_template (fst g))
     || (is_template (fst f) && is_template (fst g) && more_specialised a (length xs) (fst f) (fst g))).

  Definition viable (a : anyty) (xs : list arg) (k : ctor) : option (ctor * list ics) :=
    match bind_all a (fst (params a k)) (snd (params a k)) xs with
    | Some is => if constraint a k xs then Some (k, is) else None
    | None => None
    end.
  Inductive choice (A : Type) : Type := ChNone | ChOne (x : A) | ChAmbiguous.
  Global Arguments ChNone {A}. Global Arguments ChOne {A} _. Global Arguments ChAmbiguous {A}.
  Definition best {A} (bt : A -> A -> bool) (same : A -> A -> bool) (l : list A) : choice A :=
    match l with
    | [] => ChNone
    | _ => match List.filter (fun f => forallb (fun g => same f g || bt f g) l) l with [f] => ChOne f | _ => ChAmbiguous end
    end.
  Definition resolve (a : anyty) (xs : list arg) : choice ctor :=
    match best (better a xs) (fun f g => bool_decide (fst f = fst g)) (omap (viable a xs) ctors) with
    | ChOne f => ChOne (fst f)
    | ChNone => ChNone
    | ChAmbiguous => ChAmbiguous
    end.

  (** ** What the constructors do *)

  (** the content: none; a copy of the argument's content, or that content moved; an object made from arguments *)
  Inductive content : Set := Empty | CopyOf | MoveOf | Holds (t : ty) (xs : list arg).
  (** where alloc comes from: default, select_on_container_copy_construction, moved, the argument *)
  Inductive source : Set := FromDefault | FromSelect | FromMove | FromArg.
  Record made : Set := Made { md_content : content; md_forced : bool; md_alloc : source }.
  (** [Stuck]: a constructor that delegates has delegated to one that delegates *)
  Inductive outcome : Set := Ill | Ambiguous | Stuck | Done (m : made).

  Definition hold (t : ty) (xs : list arg) (forced : bool) (s : source) : outcome :=
    if e_make E t xs then Done (Made (Holds t xs) forced s) else Ill.
  (** std::forward<Args>(args)...: the same types and categories; a parameter list passed by name is an lvalue *)
  Definition list_param (x : arg) : arg :=
    match x with AExpr (TIList t) _ _ | ABrace t => AExpr (TIList t) false true | x => x end.
  Definition run_direct (k : ctor) (xs : list arg) : outcome :=
    match k, xs with
    | KDefault, _ => Done (Made Empty false FromDefault)
    | KCopy, _ => Done (Made CopyOf false FromSelect)
    | KMove, _ => Done (Made MoveOf false FromMove)
    | KInPlace, AExpr (TInPlace t) _ _ :: rest => hold t rest false FromDefault
    | KInPlaceList, AExpr (TInPlace t) _ _ :: l :: rest => hold t (list_param l :: rest) false FromDefault
    | KAlloc, _ => Done (Made Empty false FromArg)
    | KAllocValue, _ :: _ :: AExpr t c lv :: _ => hold t [AExpr t c lv] false FromArg
    | KTransCopy, _ => Done (Made CopyOf false FromSelect)
    | KTransMove, _ => Done (Made MoveOf false FromDefault)
    | KForceIn, _ :: AExpr (TInPlace t) _ _ :: rest => hold t rest true FromDefault
    | KForceInList, _ :: AExpr (TInPlace t) _ _ :: l :: rest => hold t (list_param l :: rest) true FromDefault
    | _, _ => Stuck
    end.
  (** A 1312, 1371: std::in_place_type is a constant *)
  Definition in_place (t : ty) : arg := AExpr (TInPlace t) true true.
  Definition delegated (a : anyty) (xs : list arg) : outcome :=
    match resolve a xs with ChOne k => run_direct k xs | ChNone => Ill | ChAmbiguous => Ambiguous end.
  Definition construct (a : anyty) (xs : list arg) : outcome :=
    match resolve a xs with
    | ChNone => Ill
    | ChAmbiguous => Ambiguous
    | ChOne KValue => match xs with [AExpr t c lv] => delegated a [in_place t; AExpr t c lv] | _ => Stuck end
    | ChOne KForceValue => match xs with [f; AExpr t c lv] => delegated a [AExpr TForce true true; in_place t; AExpr t c lv] | _ => Stuck end
    | ChOne k => run_direct k xs
    end.

  (** ** emplace *)

  (** A 1280-1286 emplace<T>(Args&&...) and A 1287-1294 emplace<T>(initializer_list<U>, Args&&...), which calls the first
      with std::move(list); the second is chosen when the first argument is a list: as for the constructors *)
  Definition emplace (a : anyty) (t : ty) (xs : list arg) : outcome :=
    if exist_for t (at_ms a) then
      match xs with
      | (AExpr (TIList u) _ _ | ABrace u) :: rest => hold t (AExpr (TIList u) false false :: rest) false FromDefault
      | _ => hold t xs false FromDefault
      end
    else Ill.

  (** ** Assignment [any = x] *)

  Inductive asg : Set :=
  | OCopy     (* A 1253-1264 operator=(const basic_any&) *)
  | OMove     (* A 1219-1251 operator=(basic_any&&) *)
  | OValue.   (* A 1271-1275 operator=(V&&) *)
  Global Instance asg_dec : EqDecision asg. Proof. solve_decision. Defined.
  Definition asgs : list asg := [OCopy; OMove; OValue].
  Definition asg_pat (o : asg) : pat := match o with OCopy => PSelf false | OMove => PSelf true | OValue => PFwd end.
  Definition asg_constraint (a : anyty) (o : asg) (x : arg) : bool :=
    match o, x with
    | OCopy, _ => has_copy a
    | OMove, _ => has_move a
    | OValue, AExpr t _ _ => negb (is_polymorphic t) && exist_for t (at_ms a)
    | OValue, ABrace _ => false
    end.
  (** the conversion of x: itself, or through a converting constructor, which makes a temporary; no temporary is made of
      an any of the same class or of a class derived from it *)
  Record aics : Set := AICS { ai_user : bool; ai_std : ics }.
  Definition same_class (a : anyty) (x : arg) : bool :=
    match x with AExpr t _ _ => bool_decide (base_of t = Some a) | ABrace _ => false end.
  Definition asg_bind (a : anyty) (o : asg) (x : arg) : option aics :=
    match bind a (asg_pat o) x with
    | Some i => Some (AICS false i)
    | None =>
        match asg_pat o with
        | PSelf rref =>
            if same_class a x then None
            else match resolve a [x] with
                 | ChNone => None
                 | _ => Some (AICS true (ICS false (Some (rref, negb rref))))
                 end
        | _ => None
        end
    end.
  Definition asg_conv_better (x : arg) (i j : aics) : bool :=
    if negb (Bool.eqb (ai_user i) (ai_user j)) then negb (ai_user i)
    else conv_better (if ai_user i then AExpr (TObj 0) false false else x) (ai_std i) (ai_std j).
  Definition asg_template (o : asg) : bool := match o with OValue => true | _ => false end.
  Definition asg_better (x : arg) (f g : asg * aics) : bool :=
    negb (asg_conv_better x (snd g) (snd f)) &&
    (asg_conv_better x (snd f) (snd g) || (negb (asg_template (fst f)) && asg_template (fst g))).
  Definition asg_viable (a : anyty) (x : arg) (o : asg) : option (asg * aics) :=
    match asg_bind a o x with
    | Some i => if asg_constraint a o x then Some (o, i) else None
    | None => None
    end.
  Definition asg_resolve (a : anyty) (x : arg) : choice (asg * aics) :=
    best (asg_better x) (fun f g => bool_decide (fst f = fst g)) (omap (asg_viable a x) asgs).

  (** what the any contains after [any = x]; A 1274: emplace<V>(std::forward<V>(val)) *)
  Inductive assigned : Set := AIll | AAmbiguous | AStuck | ADone (c : content).
  Definition contents (o : outcome) : assigned :=
    match o with Ill => AIll | Ambiguous => AAmbiguous | Stuck => AStuck | Done m => ADone (md_content m) end.
  Definition assign (a : anyty) (x : arg) : assigned :=
    match asg_resolve a x with
    | ChNone => AIll
    | ChAmbiguous => AAmbiguous
    | ChOne (OValue, _) => match x with AExpr t _ _ => contents (emplace a t [x]) | ABrace _ => AStuck end
    | ChOne (OCopy, i) => if ai_user i then contents (construct a [x]) else ADone CopyOf
    | ChOne (OMove, i) => if ai_user i then contents (construct a [x]) else ADone MoveOf
    end.
End Env.
