(** Specification for C98: what it means that an operation can throw. *)
From stdpp Require Import gmap list.
From Verif Require Import AnyModel AnyInv AnyHistory.

(** the same class basic_any<Alloc, SooS, ...>: buffer and allocator; the types of the values and what fails may differ *)
Definition same_class (E E' : env) : Prop :=
  e_soos E' = e_soos E /\ e_always_eq E' = e_always_eq E /\ e_pocma E' = e_pocma E /\ e_pocca E' = e_pocca E /\ e_socc E' = e_socc E /\
  e_copy_req_alloc E' = e_copy_req_alloc E /\ e_def_alloc E' = e_def_alloc E.
(** some legal call of such an operation throws *)
Definition can_throw (E : env) (kind : op -> Prop) : Prop :=
  exists E' w o w', same_class E E' /\ env_wf E' /\ reachable E' w /\ kind o /\ pre E' w o /\ run E' o w = Exn w'.
Definition is_copy_ctor (o : op) : Prop := match o with OCopy _ _ _ => True | _ => False end.
Definition is_move_ctor (o : op) : Prop := match o with OMove _ _ => True | _ => False end.
Definition is_converting_move (o : op) : Prop := match o with OTransMove _ _ _ => True | _ => False end.
Definition is_copy_assign (o : op) : Prop := match o with OCopyAssign _ _ _ => True | _ => False end.
Definition is_move_assign (o : op) : Prop := match o with OMoveAssign _ _ => True | _ => False end.
Definition is_swap (o : op) : Prop := match o with OSwap _ _ _ => True | _ => False end.
Definition is_replace (o : op) : Prop := match o with OReplace _ _ => True | _ => False end.
(** construction from a value of the given type by a constructor that is noexcept or not; emplace; construction with force_stable_pointers *)
Definition is_value_ctor (T : nat) (nt : bool) (o : op) : Prop := exists i al ms s, o = OValue i al ms T s nt.
Definition is_force_ctor (T : nat) (nt : bool) (o : op) : Prop := exists i ms s, o = OForce i ms T s nt.
Definition is_emplace (T : nat) (nt : bool) (o : op) : Prop := exists i s, o = OEmplace i T s nt.
(** the types are those of [E] *)
Definition can_throw_here (E : env) (kind : op -> Prop) : Prop :=
  exists E' w o w', same_class E E' /\ e_ty E' = e_ty E /\ reachable E' w /\ kind o /\ pre E' w o /\ run E' o w = Exn w'.
