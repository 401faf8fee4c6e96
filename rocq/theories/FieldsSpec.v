(** Specification of access to fields and columns. *)
From stdpp Require Import list.
From Verif Require Import FieldsModel.

(** the comment at PD 43-44: "returns lvalue ref to Field if T is not rvalue, otherwise behaves as std::forward":
    std::forward<X&> gives an lvalue, std::forward<X> and std::forward<X&&> an xvalue *)
Definition documented_category (rv : bool) (f : fref) (k : vcat) : Prop :=
  k = Xvalue <-> rv = true /\ f <> FLref.
(** const as seen through the member access value.field: a reference field does not inherit it *)
Definition access_const (c : bool) (f : fld) (k : bool) : Prop :=
  k = true <-> f_const f = true \/ c = true /\ f_ref f = FObj.
(** [r] refers to field [I] of an aggregate with fields [T] *)
Definition refers_to_field (T : agg) (I : nat) (c : bool) (r : fieldref) : Prop :=
  r_field r = I /\ exists f, T !! I = Some f /\ access_const c f (r_const r).

(** field number [i] is the only one of type [X] *)
Definition only_field (ts : list ftype) (X : ftype) (i : nat) : Prop :=
  ts !! i = Some X /\ forall j, ts !! j = Some X -> j = i.
(** the wrapper for bool is not itself the type of a field *)
Definition no_wrapper (ts : list ftype) : Prop := forall i, ts !! i <> Some TyBoolWrapper.
(** the span [s] shows column [i] as elements of type X *)
Definition shows (s : span) (i : nat) (X : ftype) (c : bool) : Prop := s_col s = i /\ s_elem s = X /\ s_const s = c.
