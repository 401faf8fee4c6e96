(** Model: the same program compiled as C++17 and as C++20.  basic_any and std::hash constrain members with requires clauses that only exist in C++20
    (B 3-11: AA_IF_HAS_CPP20); in C++17 a call of such a member is chosen all the same and its body does not compile.
    Source: A = include/anyany/anyany.hpp, B = include/anyany/noexport/file_begin.hpp.  Overload resolution as in ConsModel (expressions, binding,
    ranking), with the same simplifications; here the bodies of the chosen members are checked too. *)
From stdpp Require Import list.
From Verif Require Import TypeListModel ConsModel.

Inductive std : Set := CPP17 | CPP20.

(** [w_real]: what compiles for the program's own types, which is what the type traits say in C++20; [w_copy], [w_move]: what
    is_copy_constructible_v and is_move_constructible_v say in C++17 (a class with an any as member or base is as copyable as its any claims to be);
    [w_movable]: movable_alloc() of an allocator type (A 1158-1161) *)
Record world : Type := World { w_real : env; w_copy : ty -> bool; w_move : ty -> bool; w_movable : nat -> bool }.

Section World.
  Context (W : world).
  Notation E := (w_real W).

  (** ** Traits *)

  (** is_copy_constructible_v, is_move_constructible_v: A 1198, 1215 are constrained in C++20 only *)
  Definition says_copyable (s : std) (t : ty) : bool :=
    match s, t with
    | CPP20, _ => copyable E t
    | CPP17, TAny _ => true
    | CPP17, (TObj _ | TSub _ _ | TView _) => w_copy W t
    | CPP17, _ => true
    end.
  Definition says_movable (s : std) (t : ty) : bool :=
    match s, t with
    | CPP20, _ => movable E t
    | CPP17, TAny _ => true
    | CPP17, (TObj _ | TSub _ _ | TView _) => w_move W t
    | CPP17, _ => true
    end.
  (** the constraints of do_value: A 243-245 destroy, A 262-265 move, A 308-312 copy_method; A 216-228 exist_for *)
  Definition says_one (s : std) (t : ty) (m : meth) : bool :=
    match m with
    | MDestroy => destroyable E t
    | MMove => says_movable s t && destroyable E t
    | MCopy _ _ => says_copyable s t && says_movable s t && destroyable E t
    | MUser n => e_user E n t
    end.
  Definition says_exist_for (s : std) (t : ty) (ms : list meth) : bool := forallb (says_one s t) ms.

  (** ** Overload resolution *)

  (** as ConsModel.constraint; A 1198, 1215: requires(has_copy), requires(has_move) in C++20 *)
  Definition constraint_in (s : std) (a : anyty) (k : ctor) (xs : list arg) : bool :=
    match k, xs with
    | KCopy, _ => match s with CPP17 => true | CPP20 => has_copy a end
    | KMove, _ => match s with CPP17 => true | CPP20 => has_move a end
    | KInPlace, AExpr (TInPlace t) _ _ :: _ | KInPlaceList, AExpr (TInPlace t) _ _ :: _ => says_exist_for s t (at_ms a)
    | KValue, AExpr t _ _ :: _ => negb (is_polymorphic t) && says_exist_for s t (at_ms a)
    | KAllocValue, _ :: _ :: AExpr t _ _ :: _ => says_exist_for s t (at_ms a)
    | KForceIn, _ :: AExpr (TInPlace t) _ _ :: _ | KForceInList, _ :: AExpr (TInPlace t) _ _ :: _ => says_exist_for s t (at_ms a)
    | KForceValue, _ :: AExpr t _ _ :: _ => negb (is_polymorphic t) && says_exist_for s t (at_ms a)
    | k, xs => constraint E a k xs
    end.
  Definition viable_in (s : std) (a : anyty) (xs : list arg) (k : ctor) : option (ctor * list ics) :=
    match bind_all a (fst (params a k)) (snd (params a k)) xs with
    | Some is => if constraint_in s a k xs then Some (k, is) else None
    | None => None
    end.
  Definition resolve_in (s : std) (a : anyty) (xs : list arg) : choice ctor :=
    match best (better a xs) (fun f g => bool_decide (fst f = fst g)) (omap (viable_in s a xs) ctors) with
    | ChOne f => ChOne (fst f)
    | ChNone => ChNone
    | ChAmbiguous => ChAmbiguous
    end.

  (** ** Bodies *)

  (** A 1430-1435 get_move_fn: invoke<move>, or the copy method's move_fn; without both the type of that method is void *)
  Definition get_move_fn_compiles (a : anyty) : bool := has_move_ms (at_ms a).
  (** A 1465-1495 move_value_from: if constexpr (SooS == 0) nothing is moved *)
  Definition move_value_from_compiles (a : anyty) : bool := bool_decide (at_soos a = 0) || get_move_fn_compiles a.
  (** A 1198-1209: invoke<copy_with<Alloc, SooS>>(other), a method of basic_any *)
  Definition copy_body (a : anyty) : bool := contains_v eqm (MCopy (at_al a) (at_soos a)) (at_ms a).
  (** addr_vtable_for<T, Methods...> (A 1461): the functions of the methods are instantiated for T *)
  Definition vtable_compiles (t : ty) (ms : list meth) : bool := exist_for E t ms.
  Definition hold_in (a : anyty) (t : ty) (xs : list arg) (forced : bool) (src : source) : outcome :=
    if vtable_compiles t (at_ms a) then hold E t xs forced src else Ill.
  (** as ConsModel.run_direct *)
  Definition run_direct_in (a : anyty) (k : ctor) (xs : list arg) : outcome :=
    match k, xs with
    | KCopy, _ => if copy_body a then Done (Made CopyOf false FromSelect) else Ill
    | KMove, _ => if move_value_from_compiles a then Done (Made MoveOf false FromMove) else Ill
    | KInPlace, AExpr (TInPlace t) _ _ :: rest => hold_in a t rest false FromDefault
    | KInPlaceList, AExpr (TInPlace t) _ _ :: l :: rest => hold_in a t (list_param l :: rest) false FromDefault
    | KAllocValue, _ :: _ :: AExpr t c lv :: _ => hold_in a t [AExpr t c lv] false FromArg
    | KForceIn, _ :: AExpr (TInPlace t) _ _ :: rest => hold_in a t rest true FromDefault
    | KForceInList, _ :: AExpr (TInPlace t) _ _ :: l :: rest => hold_in a t (list_param l :: rest) true FromDefault
    | k, xs => run_direct E k xs
    end.
  Definition delegated_in (s : std) (a : anyty) (xs : list arg) : outcome :=
    match resolve_in s a xs with ChOne k => run_direct_in a k xs | ChNone => Ill | ChAmbiguous => Ambiguous end.
  Definition construct_in (s : std) (a : anyty) (xs : list arg) : outcome :=
    match resolve_in s a xs with
    | ChNone => Ill
    | ChAmbiguous => Ambiguous
    | ChOne KValue => match xs with [AExpr t c lv] => delegated_in s a [in_place t; AExpr t c lv] | _ => Stuck end
    | ChOne KForceValue => match xs with [f; AExpr t c lv] => delegated_in s a [AExpr TForce true true; in_place t; AExpr t c lv] | _ => Stuck end
    | ChOne k => run_direct_in a k xs
    end.

  (** A 1280-1294 emplace, as ConsModel.emplace *)
  Definition emplace_in (s : std) (a : anyty) (t : ty) (xs : list arg) : outcome :=
    if says_exist_for s t (at_ms a) then
      match xs with
      | (AExpr (TIList u) _ _ | ABrace u) :: rest => hold_in a t (AExpr (TIList u) false false :: rest) false FromDefault
      | _ => hold_in a t xs false FromDefault
      end
    else Ill.

  (** ** Assignment *)

  (** A 1219-1220, 1253: requires(has_move), requires(has_copy) in C++20 *)
  Definition asg_constraint_in (s : std) (a : anyty) (o : asg) (x : arg) : bool :=
    match o, x with
    | OCopy, _ => match s with CPP17 => true | CPP20 => has_copy a end
    | OMove, _ => match s with CPP17 => true | CPP20 => has_move a end
    | OValue, AExpr t _ _ => negb (is_polymorphic t) && says_exist_for s t (at_ms a)
    | OValue, ABrace _ => false
    end.
  (** as ConsModel.asg_bind *)
  Definition asg_bind_in (s : std) (a : anyty) (o : asg) (x : arg) : option aics :=
    match bind a (asg_pat o) x with
    | Some i => Some (AICS false i)
    | None =>
        match asg_pat o with
        | PSelf rref =>
            if same_class a x then None
            else match resolve_in s a [x] with
                 | ChNone => None
                 | _ => Some (AICS true (ICS false (Some (rref, negb rref))))
                 end
        | _ => None
        end
    end.
  Definition asg_viable_in (s : std) (a : anyty) (x : arg) (o : asg) : option (asg * aics) :=
    match asg_bind_in s a o x with
    | Some i => if asg_constraint_in s a o x then Some (o, i) else None
    | None => None
    end.
  Definition asg_resolve_in (s : std) (a : anyty) (x : arg) : choice (asg * aics) :=
    best (asg_better x) (fun f g => bool_decide (fst f = fst g)) (omap (asg_viable_in s a x) asgs).
  (** A 1219-1251: an allocator that is always equal or propagates only needs move_value_from; the last branch names get_move_fn whatever SooS is *)
  Definition move_assign_body (a : anyty) : bool :=
    if w_movable W (at_al a) then move_value_from_compiles a else get_move_fn_compiles a && move_value_from_compiles a.
  (** A 1253-1264: basic_any value = other; *this = std::move(value) *)
  Definition copy_assign_body (a : anyty) : bool := copy_body a && move_assign_body a.
  Definition assign_in (s : std) (a : anyty) (x : arg) : assigned :=
    match asg_resolve_in s a x with
    | ChNone => AIll
    | ChAmbiguous => AAmbiguous
    | ChOne (OValue, _) => match x with AExpr t _ _ => contents (emplace_in s a t [x]) | ABrace _ => AStuck end
    | ChOne (OCopy, i) => if copy_assign_body a then if ai_user i then contents (construct_in s a [x]) else ADone CopyOf else AIll
    | ChOne (OMove, i) => if move_assign_body a then if ai_user i then contents (construct_in s a [x]) else ADone MoveOf else AIll
    end.

  (** ** What the type traits say of anys *)

  (** is_copy_constructible_v, is_move_constructible_v, is_copy_assignable_v, is_move_assignable_v: only declarations are looked at *)
  Definition says_constructible (s : std) (a : anyty) (const lvalue : bool) : bool :=
    match resolve_in s a [AExpr (TAny a) const lvalue] with ChOne _ => true | _ => false end.
  Definition says_assignable (s : std) (a : anyty) (const lvalue : bool) : bool :=
    match asg_resolve_in s a (AExpr (TAny a) const lvalue) with ChOne _ => true | _ => false end.
  (** A 1979-2012: std::hash<basic_any> exists if the any has aa::hash, in C++20; in C++17 always, and invoke<aa::hash>(any) is in its body.
      aa::hash is the method of the user with number [h] here *)
  Definition hash_enabled (s : std) (h : nat) (a : anyty) : bool :=
    match s with CPP17 => true | CPP20 => contains_v eqm (MUser h) (at_ms a) end.
  Definition hash_body (h : nat) (a : anyty) : bool := contains_v eqm (MUser h) (at_ms a).
  (** how std::vector<basic_any> transfers its elements when it grows: std::move_if_noexcept ([utility]): const T& if
      !is_nothrow_move_constructible_v<T> && is_copy_constructible_v<T>, T&& otherwise; A 1215 noexcept(movable_alloc()) *)
  Definition growth_argument (s : std) (a : anyty) : arg :=
    let nothrow_move := says_constructible s a false false && w_movable W (at_al a) in
    if negb nothrow_move && says_constructible s a true true then AExpr (TAny a) true true else AExpr (TAny a) false false.
  Definition growth (s : std) (a : anyty) : outcome := construct_in s a [growth_argument s a].
End World.
