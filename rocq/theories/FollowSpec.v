(** Where a value on the heap is after a program: which any holds it, read off the program. *)
From stdpp Require Import gmap list.
From Verif Require Import AnyModel AnyInv AnyHistory AnyFacts.

(** the any that holds what any i held, after the operation; None if the operation may end its life *)
Definition carries (o : op) (i : nat) : option nat :=
  match o with
  | OMove a b | OTransMove a b _ | OMoveAssign a b => if decide (i = b) then Some a else if decide (i = a) then None else Some i
  | OSwap a b _ => if decide (i = a) then Some b else if decide (i = b) then Some a else Some i
  | OValue a _ _ _ _ _ | OForce a _ _ _ _ | ODefault a _ _ | OCopy a _ _ | OMaterialize a _ _
  | OCopyAssign a _ _ | OEmplace a _ _ _ | OReset a | ODestroy a | OReplace a _ | ODtor a => if decide (i = a) then None else Some i
  | OInvoke _ _ _ | OSref _ _ _ | ODropSref _ => Some i
  end.
(** the same without move assignments and swaps, which for some allocators make another object *)
Definition carries_constructing (o : op) (i : nat) : option nat :=
  match o with
  | OMoveAssign a b | OSwap a b _ => if decide (i = a \/ i = b) then None else Some i
  | _ => carries o i
  end.
Fixpoint follow (l : list op) (i : nat) : option nat :=
  match l with
  | [] => Some i
  | o :: l => match carries o i with Some j => follow l j | None => None end
  end.
Fixpoint follow_constructing (l : list op) (i : nat) : option nat :=
  match l with
  | [] => Some i
  | o :: l => match carries_constructing o i with Some j => follow_constructing l j | None => None end
  end.
(** the methods called may change values *)
Definition calls_no_method (l : list op) : Prop := forall i n x, ~ In (OInvoke i n x) l.
(** any i held an object in block b, and any j holds that object there, perhaps with another value *)
Definition kept (w : world) (i : nat) (w' : world) (j b : nat) : Prop :=
  address w' j = Some (PHeap b) /\ exists o o', contained w i = Some o /\ contained w' j = Some o' /\ o_id o' = o_id o /\ o_ty o' = o_ty o.
(** no operation throws *)
Fixpoint no_exception (E : env) (l : list op) (w : world) : Prop :=
  match l with
  | [] => True
  | o :: l => match run E o w with Ok _ w' => no_exception E l w' | _ => False end
  end.
