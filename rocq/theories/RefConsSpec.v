(** What references and pointers to interfaces can be made from: independent of overload resolution. *)
From stdpp Require Import list.
From Verif Require Import TypeListModel TypeListSpec RefConsModel.

(** every method exists for the type *)
Definition has_all (E : provides) (ms : list nat) (t : ty) : Prop := forall m, m ∈ ms -> E m t = true.
(** the type std::decay gives *)
Inductive decayed : bool -> ty -> ty -> Prop :=
| decayed_array c t n : decayed c (TArr t n) (TPtr c t)
| decayed_function c n : decayed c (TFun n) (TPtr false (TFun n))
| decayed_other c t : (forall u n, t <> TArr u n) -> (forall n, t <> TFun n) -> decayed c t t.

(** an object that is not itself an any or a view *)
Definition plain (t : ty) : Prop :=
  match t with TAny _ _ | TView _ _ | TFun _ | TVoid => False | _ => True end.
(** the expression is a pointer, or an array used as one, to t or const t *)
Definition points_to (x : arg) (c : bool) (t : ty) : Prop :=
  a_ty x = TPtr c t \/ exists n, a_ty x = TArr t n /\ a_const x = c.

(** which views can be made from which: mutable ones from mutable ones, const ones from both; references from references, pointers from
    pointers; stateful ones also from stateful ones *)
Definition view_from (k k' : kind) : bool :=
  match k, k' with
  | KRef, KRef | KCRef, (KRef | KCRef) | KPtr, KPtr | KCPtr, (KPtr | KCPtr)
  | KSRef, (KRef | KSRef) | KSCRef, (KRef | KCRef | KSRef | KSCRef) => true
  | _, _ => false
  end.
(** stateful references take any methods of the source, the others a contiguous part *)
Definition part_of (k : kind) (ms from : list nat) : Prop :=
  match k with KSRef | KSCRef => incl ms from | _ => contiguous ms from end.
Definition mutable (k : kind) : bool := match k with KRef | KPtr | KSRef => true | _ => false end.
Definition reference (k : kind) : bool := match k with KPtr | KCPtr => false | _ => true end.

(** [made_from E direct k ms x p t]: a k with methods ms can be made from x, by R r(x) if [direct], by R r = x otherwise *)
Inductive made_from (E : provides) (direct : bool) : kind -> list nat -> arg -> target -> table -> Prop :=
(* a reference to an object: a mutable one needs an lvalue that is not const *)
| from_object k ms x d :
    reference k = true -> plain (a_ty x) -> (mutable k = true -> a_const x = false /\ a_lvalue x = true) ->
    decayed false (a_ty x) d -> has_all E ms d ->
    made_from E direct k ms x AtSelf (TableOf d)
(* a pointer to where a pointer points; void and views count as objects here *)
| from_pointer k ms x c t d :
    reference k = false -> points_to x c t -> (mutable k = true -> c = false) ->
    (match t with TAny _ _ | TFun _ => False | TView _ _ => mutable k = true \/ direct = true /\ c = false | _ => True end) ->
    decayed false t d -> has_all E ms d ->
    made_from E direct k ms x AtPointee (TableOf d)
(* a pointer to the content of an any *)
| from_any k ms x c n any_ms :
    reference k = false -> points_to x c (TAny n any_ms) -> (mutable k = true -> c = false) ->
    contiguous ms any_ms -> (mutable k = true \/ ms = any_ms \/ direct = true /\ c = false) ->
    made_from E direct k ms x AtContent TableOfContent
| from_null k ms x : reference k = false -> a_ty x = TNull -> made_from E direct k ms x Nowhere NoTable
| from_view k ms x k' from :
    a_ty x = TView k' from -> view_from k k' = true -> part_of k ms from ->
    made_from E direct k ms x AtSame TableOfSource.

(** the type of the object a reference or pointer made from x refers to, where it is known *)
Definition object_type (p : target) (x : arg) (t : ty) : Prop :=
  match p with AtSelf => a_ty x = t | AtPointee => exists c, points_to x c t | _ => False end.

(** x is a function, or points to one *)
Definition function (x : arg) : Prop := exists n, a_ty x = TFun n.
Definition points_to_function (x : arg) (c : bool) (n : nat) : Prop :=
  points_to x c (TFun n) \/ a_ty x = TFun n /\ c = false.
(** [doomed E direct k ms x]: a constructor is chosen whose body does not compile *)
Inductive doomed (E : provides) (direct : bool) : kind -> list nat -> arg -> Prop :=
| doomed_function k ms x n :
    reference k = true -> a_ty x = TFun n -> (mutable k = true -> a_const x = false) -> has_all E ms (TPtr false (TFun n)) -> doomed E direct k ms x
| doomed_function_pointer k ms x c n :
    reference k = false -> points_to_function x c n -> (mutable k = true -> c = false) -> has_all E ms (TPtr false (TFun n)) -> doomed E direct k ms x
(* a const pointer with strictly more methods than the any has *)
| doomed_wider ms x c n any_ms :
    points_to x c (TAny n any_ms) -> contiguous any_ms ms -> any_ms <> ms -> doomed E direct KCPtr ms x.

(** x allows changing what it names or points to *)
Definition gives_access (p : target) (x : arg) : Prop :=
  match p with
  | AtSelf => a_const x = false /\ a_lvalue x = true
  | AtPointee | AtContent => exists t, points_to x false t
  | AtSame => exists k ms, a_ty x = TView k ms /\ mutable k = true
  | Nowhere => True
  end.
(** the const kind of the same sort *)
Definition const_kind (k : kind) : kind := match k with KRef => KCRef | KPtr => KCPtr | KSRef => KSCRef | k => k end.
