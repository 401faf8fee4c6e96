(** What [Any(args...)] and [any = x] should mean, without overload resolution: the README and the comments in the class
    (A 1265-1270: "disables implicit creating any in any") say what is stored.
    Uses only the datatypes of ConsModel and the compiler's answers about the program's types. *)
From stdpp Require Import list.
From Verif Require Import TypeListSpec ConsModel.

(** a value to be stored: given as an expression; made in place from arguments; made in place from a list and arguments *)
Inductive wish : Set :=
| WValue (t : ty) (const lvalue : bool)
| WInPlace (t : ty) (tag_const tag_lvalue : bool) (xs : list arg)
| WInPlaceList (t : ty) (tag_const tag_lvalue : bool) (l : arg) (xs : list arg).
(** an any that is empty or gets a value; with force_stable_pointers; with an allocator *)
Inductive request : Set := RPlain (v : option wish) | RForced (c lv : bool) (v : wish) | RWithAlloc (c lv ca lva : bool) (v : option wish).

(** the expressions written between the parentheses *)
Definition written (v : wish) : list arg :=
  match v with
  | WValue t c lv => [AExpr t c lv]
  | WInPlace t c lv xs => AExpr (TInPlace t) c lv :: xs
  | WInPlaceList t c lv l xs => AExpr (TInPlace t) c lv :: l :: xs
  end.
Definition arguments (a : anyty) (r : request) : list arg :=
  match r with
  | RPlain v => from_option written [] v
  | RForced c lv v => AExpr TForce c lv :: written v
  | RWithAlloc c lv ca lva v => AExpr TAllocArg c lv :: AExpr (TAlloc (at_al a)) ca lva :: from_option written [] v
  end.

Definition is_list (x : arg) : Prop := match x with AExpr (TIList _) _ _ | ABrace _ => True | _ => False end.
Definition is_brace (x : arg) : Prop := match x with ABrace _ => True | _ => False end.
(** the request is written as it can be written: expressions, and a list in the place of the list *)
Definition proper_wish (v : wish) : Prop :=
  match v with
  | WValue _ _ _ => True
  | WInPlace _ _ _ xs => (forall x, In x xs -> ~ is_brace x) /\ match xs with x :: _ => ~ is_list x | [] => True end
  | WInPlaceList _ _ _ l xs => is_list l /\ forall x, In x xs -> ~ is_brace x
  end.
Definition proper (r : request) : Prop :=
  match r with RPlain v | RWithAlloc _ _ _ _ v => from_option proper_wish True v | RForced _ _ v => proper_wish v end.

(** how a leading list reaches the object's constructor: as it is, as an lvalue or as an rvalue; other arguments as they are *)
Inductive list_as : Set := AsIs | AsLvalue | AsRvalue.
Definition passed (h : list_as) (xs : list arg) : list arg :=
  match h, xs with
  | AsIs, xs => xs
  | AsLvalue, (AExpr (TIList t) _ _ | ABrace t) :: xs => AExpr (TIList t) false true :: xs
  | AsRvalue, (AExpr (TIList t) _ _ | ABrace t) :: xs => AExpr (TIList t) false false :: xs
  | _, xs => xs
  end.

(** ** Properties of types *)

Definition polymorphic (t : ty) : Prop := match t with TAny _ | TSub _ _ | TView _ => True | _ => False end.
Definition any_of (t : ty) (a : anyty) : Prop := t = TAny a \/ exists n, t = TSub n a.
Definition own_type (t : ty) : Prop := match t with TObj _ | TSub _ _ | TView _ => True | _ => False end.
Definition has_copy_method (al soos : nat) (ms : list meth) : Prop := In (MCopy al soos) ms.
Definition has_move_method (ms : list meth) : Prop := In MMove ms \/ exists al soos, In (MCopy al soos) ms.
Definition any_copyable (a : anyty) : Prop := has_copy_method (at_al a) (at_soos a) (at_ms a).
Definition any_movable (a : anyty) : Prop := has_move_method (at_ms a) \/ at_soos a = 0.
Definition can_copy (E : env) (t : ty) : Prop :=
  (own_type t -> e_copy E t = true) /\ forall a, t = TAny a -> any_copyable a.
Definition can_move (E : env) (t : ty) : Prop :=
  (own_type t -> e_move E t = true) /\ forall a, t = TAny a -> any_movable a.
Definition can_destroy (E : env) (t : ty) : Prop := own_type t -> e_destroy E t = true.
(** type t has what the interface asks for *)
Definition offers (E : env) (t : ty) (m : meth) : Prop :=
  match m with
  | MDestroy => can_destroy E t
  | MMove => can_move E t /\ can_destroy E t
  | MCopy _ _ => can_copy E t /\ can_move E t /\ can_destroy E t
  | MUser n => e_user E n t = true
  end.
Definition suits (E : env) (a : anyty) (t : ty) : Prop := forall m, In m (at_ms a) -> offers E t m.

(** ** Meaning *)

(** which value is stored *)
Inductive stores (E : env) (a : anyty) (h : list_as) : wish -> content -> Prop :=
| st_value t c lv : ~ polymorphic t -> suits E a t -> e_make E t (passed h [AExpr t c lv]) = true ->
    stores E a h (WValue t c lv) (Holds t (passed h [AExpr t c lv]))
| st_in_place t c lv xs : suits E a t -> e_make E t xs = true -> stores E a h (WInPlace t c lv xs) (Holds t xs)
| st_list t c lv l xs : suits E a t -> e_make E t (passed h (l :: xs)) = true -> stores E a h (WInPlaceList t c lv l xs) (Holds t (passed h (l :: xs))).

(** an any of class b may become one of class a *)
Definition converts (a b : anyty) : Prop := at_al b = at_al a /\ at_soos b = at_soos a /\ contiguous (at_ms a) (at_ms b).
(** a value comes from an any: moved from an rvalue, copied otherwise *)
Inductive takes (a : anyty) : wish -> content -> source -> Prop :=
| tk_move t : any_of t a -> any_movable a -> takes a (WValue t false false) MoveOf FromMove
| tk_copy t c lv : any_of t a -> c || lv = true -> any_copyable a -> takes a (WValue t c lv) CopyOf FromSelect
| tk_move_conv t b : any_of t b -> b <> a -> converts a b -> has_move_method (at_ms b) -> takes a (WValue t false false) MoveOf FromDefault
| tk_copy_conv t b c lv : any_of t b -> b <> a -> converts a b -> c || lv = true -> has_copy_method (at_al a) (at_soos a) (at_ms b) ->
    takes a (WValue t c lv) CopyOf FromSelect.

Inductive means (E : env) (a : anyty) : request -> made -> Prop :=
| mn_empty : means E a (RPlain None) (Made Empty false FromDefault)
| mn_alloc c lv ca lva : means E a (RWithAlloc c lv ca lva None) (Made Empty false FromArg)
| mn_plain v k : stores E a AsLvalue v k -> means E a (RPlain (Some v)) (Made k false FromDefault)
| mn_forced c lv v k : stores E a AsLvalue v k -> means E a (RForced c lv v) (Made k true FromDefault)
| mn_with_alloc c lv ca lva v k : stores E a AsIs v k -> means E a (RWithAlloc c lv ca lva (Some v)) (Made k false FromArg)
| mn_take v k s : takes a v k s -> means E a (RPlain (Some v)) (Made k false s)
| mn_take_alloc c lv ca lva v k s : takes a v k s -> means E a (RWithAlloc c lv ca lva (Some v)) (Made k false FromArg).

(** [any = x]; an any of another class is converted first, then moved *)
Inductive assigns (E : env) (a : anyty) : ty -> bool -> bool -> content -> Prop :=
| as_value t c lv k : stores E a AsRvalue (WValue t c lv) k -> assigns E a t c lv k
| as_same t c lv k s : any_of t a -> takes a (WValue t c lv) k s -> assigns E a t c lv k
| as_conv t c lv k s : ~ any_of t a -> any_movable a -> takes a (WValue t c lv) k s -> assigns E a t c lv k.

(** ** The cases in which the tag of in_place_type is taken for a value *)

Definition is_in_place (t : ty) : Prop := match t with TInPlace _ => True | _ => False end.
Definition tag_safe (E : env) (a : anyty) (v : wish) : Prop :=
  match v with
  | WValue t _ _ => ~ is_in_place t
  | WInPlace t _ _ [] => suits E a t \/ ~ suits E a (TInPlace t)
  | _ => True
  end.
(** with an allocator: only values that are neither anys, nor references and pointers of the library, nor tags *)
Definition plain_value (v : wish) : Prop := match v with WValue t _ _ => ~ is_in_place t /\ ~ polymorphic t | _ => False end.
Definition regular (E : env) (a : anyty) (r : request) : Prop :=
  match r with
  | RPlain v => from_option (tag_safe E a) True v
  | RForced _ _ v => tag_safe E a v
  | RWithAlloc _ _ _ _ v => from_option plain_value True v
  end.
