(** Independent vocabulary for the type-list properties: apart from the datatype [ty] of nested
    type lists nothing here mentions the model. *)
From Coq Require Import List Arith.
From Verif Require Import TypeListModel.
Import ListNotations.
Set Implicit Arguments.

(** a correct equality test *)
Definition decides {A} (eqb : A -> A -> bool) : Prop := forall x y, eqb x y = true <-> x = y.

(** [xs] occurs in [ys] contiguously, starting at position [n]. *)
Definition occurs_at {A} (xs ys : list A) (n : nat) : Prop :=
  exists pre post, ys = pre ++ xs ++ post /\ length pre = n.

(** [xs] is a contiguous sublist of [ys]. *)
Definition contiguous {A} (xs ys : list A) : Prop := exists n, occurs_at xs ys n.

(** [n] is the first index where [P] holds. *)
Definition first_such (P : nat -> Prop) (n : nat) : Prop := P n /\ forall m, m < n -> ~ P m.

(** Order-preserving selection: [xs] is obtained from [ys] by deleting elements. *)
Inductive sublist {A} : list A -> list A -> Prop :=
| sub_nil : sublist [] []
| sub_keep x xs ys : sublist xs ys -> sublist (x :: xs) (x :: ys)
| sub_drop x xs ys : sublist xs ys -> sublist xs (x :: ys).

(** [x] occurs before [y] in [l] when looking at first occurrences. *)
Definition before {A} (x y : A) (l : list A) : Prop :=
  exists l1 l2, l = l1 ++ x :: l2 /\ ~ In y (l1 ++ [x]).

(** In-order leaves (simple methods) of a nested type list. *)
Fixpoint leaves {A} (t : ty A) : list A :=
  match t with Leaf a => [a] | TL l => flat_map leaves l end.

(** Nesting depth of type lists (what a compiler's template depth limit bounds). *)
Fixpoint nesting {A} (t : ty A) : nat :=
  match t with
  | Leaf _ => 0
  | TL l => S (fold_right (fun t n => Nat.max (nesting t) n) 0 l)
  end.
Definition max_nesting {A} (ts : list (ty A)) : nat := fold_right (fun t n => Nat.max (nesting t) n) 0 ts.
