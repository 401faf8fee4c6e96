(** Specification for C106: objects of a class with any members, seen from outside. *)
From stdpp Require Import gmap list.
From Verif Require Import AnyModel AnyInv AnyHistory AnyLogSpec AnyFacts VectorSpec.

(** the members exist, each is of the class with the method list at its place in [mss] *)
Definition object (mss : list (list method)) (w : world) (l : list nat) : Prop :=
  Forall2 (fun ms i => has_any w i (fun a => a_ms a = ms)) mss l.
(** every member is of a copyable, of a move constructible, of a move assignable class *)
Definition all_copyable (mss : list (list method)) : Prop := Forall (fun ms => In (MCopy true) ms) mss.
Definition all_movable (E : env) (mss : list (list method)) : Prop := Forall (fun ms => has_move E ms = true) mss.
Definition all_move_assignable (E : env) (mss : list (list method)) : Prop := Forall (fun ms => has_move_assign E ms = true) mss.
(** different objects *)
Definition apart (l l' : list nat) : Prop := forall k, In k l -> ~ In k l'.
Definition all_empty (w : world) (l : list nat) : Prop := forall i, In i l -> is_empty w i.
(** of two members with a value that has a destructor to run, the later one is destroyed while the earlier one is not yet *)
Definition in_reverse (E : env) (w w' : world) (l : list nat) : Prop :=
  forall n m i j x y, n < m -> l !! n = Some i -> l !! m = Some j -> contained w i = Some x -> contained w j = Some y ->
  ty_tdestr (e_ty E (o_ty x)) = false -> ty_tdestr (e_ty E (o_ty y)) = false ->
  exists later earlier, w_log w' = later ++ earlier /\ dtors_of (o_id y) earlier = 1 /\ dtors_of (o_id x) earlier = 0.
