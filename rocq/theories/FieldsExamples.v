(** Concrete aggregates used by the examples beside the theorems about fields. *)
From stdpp Require Import list.
From Verif Require Import FieldsModel FieldsSpec.

Definition obj : fld := Fld FObj false true.
(** struct { int a; int& b; int&& c; const X d; }: b and c have to be initialised *)
Definition mixed : agg := [obj; Fld FLref false false; Fld FRref false false; Fld FObj true true].
Definition plain (n : nat) : agg := replicate n obj.
(** struct { int; bool; float; int; } *)
Definition columns : list ftype := [TyOther 0; TyBool; TyOther 1; TyOther 0].
