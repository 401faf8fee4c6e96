(** Overload resolution among the constructors and assignments of anys against what the project's tests compile: X = tests/test_anyany.cpp.
    Tests of the model, not theorems about it. *)
From stdpp Require Import list.
From Verif Require Import TypeListModel ConsModel.

(** user methods: 0 equal_to, 1 Kekab; TObj 0 std::vector<int>, TObj 1 kekabl1 (X 738-743), TObj 2 std::string, TObj 3 a list of arguments *)
Definition types : env := Env (fun _ => true) (fun _ => true) (fun _ => true)
  (fun n t => match n, t with 0, (TObj 0 | TObj 2) => true | 0, TAny a => existsb (eqm (MUser 0)) (at_ms a) | 1, TObj 1 => true | _, _ => false end)
  (fun t xs => match xs with [] => true | [AExpr t' _ _] => bool_decide (t = t') | _ => false end).
Definition copy := MCopy 0 64.
Definition with_copy := AnyT 0 64 [MDestroy; copy].
Definition with_copy_eq := AnyT 0 64 [MDestroy; copy; MUser 0].
Definition move_eq := AnyT 0 64 [MDestroy; MMove; MUser 0].
Definition kekable := AnyT 0 64 [MDestroy; MUser 1].
Definition constructible (a : anyty) (t : ty) : bool := match construct types a [AExpr t false false] with Done _ => true | _ => false end.
Definition assignable (a : anyty) (t : ty) : bool := match assign types a (AExpr t false false) with ADone _ => true | _ => false end.

(** X 456-458 *)
Example x456 : constructible with_copy (TView 0) = false. Proof. by vm_compute. Qed.
(* the allocator of the new any is default constructed (C17) *)
Example x458 : construct types with_copy [AExpr (TAny with_copy_eq) false false] = Done (Made MoveOf false FromDefault). Proof. by vm_compute. Qed.
(** X 1398-1402 *)
Example x1398 : constructible kekable (TObj 1) = true /\ assignable kekable (TObj 1) = true /\
  constructible kekable (TObj 2) = false /\ assignable kekable (TObj 2) = false.
Proof. by vm_compute. Qed.
(** X 758-762, 464-470: five ways to make an any of a vector *)
Definition vec : arg := AExpr (TObj 0) true true.
Definition in_place_vec : arg := AExpr (TInPlace (TObj 0)) true true.
Definition force : arg := AExpr TForce true true.
Definition holds_vec (l : list arg) (forced : bool) : bool :=
  match construct types move_eq l with Done (Made (Holds (TObj 0) [x]) f _) => bool_decide (x = vec) && Bool.eqb f forced | _ => false end.
Example x758 :
  holds_vec [vec] false = true /\
  holds_vec [AExpr TAllocArg true true; AExpr (TAlloc 0) false false; vec] false = true /\
  holds_vec [in_place_vec; vec] false = true /\
  holds_vec [force; vec] true = true /\
  holds_vec [force; in_place_vec; vec] true = true.
Proof. by vm_compute. Qed.
(** X 766, 774: into anys of fewer methods, copying and moving *)
Definition wide := AnyT 0 64 [copy; MDestroy; MMove; MUser 0].
Example x766 :
  construct types move_eq [AExpr (TAny wide) false true] = Done (Made CopyOf false FromSelect) /\
  construct types move_eq [AExpr (TAny wide) false false] = Done (Made MoveOf false FromDefault).
Proof. by vm_compute. Qed.
(** X 787: copy_with of another allocator does not copy, only moves; and an any without copy is not constructed from an lvalue *)
Definition no_copy := AnyT 0 64 [MCopy 1 64; MDestroy; MMove; MUser 0].
Example x787 :
  has_copy no_copy = false /\ has_move no_copy = true /\
  construct types move_eq [AExpr (TAny no_copy) false false] = Done (Made MoveOf false FromDefault).
Proof. by vm_compute. Qed.
