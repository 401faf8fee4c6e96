(** What operations write and what they cost: specifications used by C90 and C91. *)
From stdpp Require Import gmap list.
From Verif Require Import AnyModel AnyInv AnyHistory AnyFacts PolyModel.

(** no memory is written and nothing is created, whether the result is a value or an exception *)
Definition writes_nothing {A} (m : M A) : Prop :=
  forall w, match m w with Ok _ w' | Exn w' => w' = w | UB _ | Term => True end.

(** operations that make a new any (or stateful reference) out of things they only read *)
Definition only_creates (o : op) : Prop :=
  match o with
  | ODefault _ _ _ | OValue _ _ _ _ _ _ | OForce _ _ _ _ _ | OCopy _ _ _ | OSref _ _ _ | OMaterialize _ _ _ => True
  | _ => False
  end.

(** every byte that existed is as it was: the anys, the blocks, the stateful references *)
Definition old_memory_kept (w w' : world) : Prop :=
  (forall k a, w_any w !! k = Some a -> w_any w' !! k = Some a) /\
  (forall b x, w_heap w !! b = Some x -> w_heap w' !! b = Some x) /\
  (forall r s, w_sref w !! r = Some s -> w_sref w' !! r = Some s).

(** the steps that create no stateful reference *)
Definition plain_step (s : step) : Prop := match s with ToSref _ _ | ToScref _ _ => False | _ => True end.
Definition plain_origin (o : origin) : Prop := match o with OState _ _ _ _ _ => False | _ => True end.

(** objects constructed so far (identifiers are given to blocks and to objects only) *)
Definition made (w : world) : Z := (Z.of_nat (w_next w) - Z.of_nat (allocs w))%Z.
(** constructor calls so far of types with a destructor: what an instrumented type can count *)
Definition is_ctor (e : event) : bool := match e with EvCtor _ _ => true | _ => false end.
Definition ctors (w : world) : nat := length (List.filter is_ctor (w_log w)).

(** the most objects an operation may construct, and the most blocks it may ask for *)
Definition most_objects (o : op) : nat :=
  match o with
  | OValue _ _ _ _ _ _ | OForce _ _ _ _ _ | OEmplace _ _ _ _ => 1      (* the value itself *)
  | OCopy _ _ _ | OMaterialize _ _ _ => 1                             (* one copy *)
  | OMove _ _ | OTransMove _ _ _ | OMoveAssign _ _ => 1               (* one move *)
  | OCopyAssign _ _ _ => 2                                            (* one copy, one move *)
  | OSwap _ _ _ => 3
  | _ => 0
  end.
Definition most_blocks (o : op) : nat :=
  match o with
  | OValue _ _ _ _ _ _ | OForce _ _ _ _ _ | OEmplace _ _ _ _ | OCopy _ _ _ | OMaterialize _ _ _ | OReplace _ _ => 1
  | OMoveAssign _ _ => 1
  | OCopyAssign _ _ _ | OSwap _ _ _ => 2
  | _ => 0
  end.
(** operations that construct exactly one object when they succeed *)
Definition makes_one (w : world) (o : op) : Prop :=
  match o with
  | OValue _ _ _ _ _ _ | OForce _ _ _ _ _ | OEmplace _ _ _ _ | OMaterialize _ _ _ => True
  | OCopy _ j _ => exists a, w_any w !! j = Some a /\ has_val a = true
  | _ => False
  end.
