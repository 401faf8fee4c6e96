(** Which class an argument goes to: independent of overload resolution. *)
From stdpp Require Import list.
From Verif Require Import OverloadModel.

(** base classes are ordered; only types without bases have standard conversions to other types *)
Definition sane (K : classes) : Prop :=
  (forall c, base K c c = false) /\
  (forall a b c, base K a b = true -> base K b c = true -> base K a c = true) /\
  (forall a t r b, conv K a t = Some r -> r <> UserDefined -> base K a b = false).
(** A itself or one of its bases *)
Definition is_a (K : classes) (A T : nat) : Prop := T = A \/ base K A T = true.
(** of the types in the list that A is, T is the one nearest to A: each other is a base of T *)
Definition nearest_class (K : classes) (Ts : list nat) (A T : nat) : Prop :=
  T ∈ Ts /\ is_a K A T /\ forall T', T' ∈ Ts -> is_a K A T' -> is_a K T T'.

(** how far T is from A: itself, a base, a type it converts to *)
Inductive distance : Type := Same | Base | Converts (r : conv_rank).
Definition distant (K : classes) (A T : nat) (d : distance) : Prop :=
  match d with
  | Same => T = A
  | Base => T <> A /\ base K A T = true
  | Converts r => T <> A /\ base K A T = false /\ conv K A T = Some r
  end.
(** promotions before other conversions before user-defined ones, bases like other conversions *)
Definition closer (d e : distance) : Prop :=
  match d, e with
  | Same, Same => False
  | Same, _ => True
  | Converts Promotion, (Base | Converts (Conversion | UserDefined)) => True
  | (Base | Converts Conversion), Converts UserDefined => True
  | _, _ => False
  end.
(** the only nearest type: each other is farther, or as far and a base of T *)
Definition nearest_type (K : classes) (Ts : list nat) (A T : nat) : Prop :=
  T ∈ Ts /\ exists d, distant K A T d /\
  forall T' e, T' ∈ Ts -> T' <> T -> distant K A T' e ->
    closer d e \/ (d = Base /\ e = Base \/ exists r, r <> UserDefined /\ d = Converts r /\ e = Converts r) /\ base K T T' = true.
(** does the argument serve as it is, or is a temporary made *)
Definition leaves_argument (K : classes) (a : arg) (T : nat) : Prop :=
  is_a K (a_type a) T /\ (a_const a = true \/ a_lvalue a = true).

(** a call of a const lvalue compiles *)
Definition callable_const (f : callable) : Prop := exists r, call_expr f true = Some r.
(** a class whose call operators have no reference qualifiers: its const lvalues and rvalues are called alike *)
Definition ordinary (f : callable) : Prop := exists r, f = CClass r r.
