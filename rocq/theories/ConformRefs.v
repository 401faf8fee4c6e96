(** Construction and deduction of references and pointers against what the project's tests compile: X = tests/test_anyany.cpp.
    Tests of the model, not theorems about it. *)
From stdpp Require Import list.
From Verif Require Import TypeListModel RefConsModel.
From Verif Require RebindModel.

(** methods: 0 copy, 1 move, 2 equal_to, 3 type_info, 4 Kekab, 5 destroy, 6 M1, 7 M2, 8 draw *)
Definition copy := 0. Definition move := 1. Definition equal_to := 2. Definition type_info := 3. Definition Kekab := 4.
Definition destroy := 5. Definition M1 := 6. Definition M2 := 7. Definition draw := 8.
(** TObj 0 int, TObj 1 kekabl1, TObj 2 A1 and A2, TObj 3 drawable0, TObj 4 std::atomic<poly_ptr<>>, TObj 5 std::string *)
Definition has : provides := fun m t =>
  match t, m with
  | TObj 4, (0 | 1 | 2) => false
  | _, (0 | 1 | 2 | 3 | 5) => true
  | TObj 1, 4 => true
  | TObj 2, (6 | 7) => true
  | TObj 3, 8 => true
  | _, _ => false
  end.
Definition lval (t : ty) : arg := Arg t false true.
Definition clval (t : ty) : arg := Arg t true true.
Definition rval (t : ty) : arg := Arg t false false.
Definition same : result := Made AtSame TableOfSource.

(** X 790-813 stateful *)
Example x792 :
  init has false KSCRef [copy; type_info] (lval (TObj 0)) = Made AtSelf (TableOf (TObj 0)) /\
  init has false KSRef [type_info; copy] (lval (TObj 0)) = Made AtSelf (TableOf (TObj 0)) /\
  init has false KCRef [copy; move; equal_to] (lval (TObj 0)) = Made AtSelf (TableOf (TObj 0)).
Proof. by vm_compute. Qed.
Example x796 :
  deduced_init has KSCRef (lval (TView KCRef [copy; move; equal_to])) = Some ([copy; move; equal_to], same) /\
  init has false KSCRef [move] (lval (TView KCRef [copy; move; equal_to])) = same /\
  init has false KSCRef [move] (lval (TView KSCRef [copy; move; equal_to])) = same.
Proof. by vm_compute. Qed.
Example x801 :
  init has false KSRef [copy; Kekab; move] (lval (TObj 1)) = Made AtSelf (TableOf (TObj 1)) /\
  init has false KSRef [copy; Kekab; move] (lval (TView KSRef [copy; Kekab; move])) = same /\
  init has false KSRef [Kekab] (lval (TView KSRef [copy; Kekab; move])) = same /\
  deduced_init has KSCRef (lval (TView KSRef [Kekab])) = Some ([Kekab], same) /\
  init has false KSCRef [Kekab] (lval (TView KSRef [copy; Kekab; move])) = same.
Proof. by vm_compute. Qed.
(** X 1387-1393: *&kek_0 is a poly_ref<destroy, Kekab> *)
Example x1387 :
  deduced_init has KSRef (rval (TView KRef [destroy; Kekab])) = Some ([destroy; Kekab], same) /\
  deduced_init has KSCRef (rval (TView KRef [destroy; Kekab])) = Some ([destroy; Kekab], same) /\
  deduced_init has KSCRef (lval (TView KSRef [destroy; Kekab])) = Some ([destroy; Kekab], same) /\
  init has false KSCRef [] (rval (TView KRef [destroy; Kekab])) = same.
Proof. by vm_compute. Qed.
(** X 1418-1420: a std::atomic<poly_ptr<>> is an object like any other *)
Example x1418 :
  init has false KRef [] (lval (TObj 4)) = Made AtSelf (TableOf (TObj 4)) /\
  RebindModel.ref_assignable (RebindModel.Arg true false false) = true.
Proof. by vm_compute. Qed.
(** X 1422-1445 *)
Example x1422 :
  init has false KPtr [type_info] (rval (TPtr false (TObj 3))) = Made AtPointee (TableOf (TObj 3)) /\
  init has false KCPtr [type_info] (rval (TPtr false (TObj 3))) = Made AtPointee (TableOf (TObj 3)).
Proof. by vm_compute. Qed.
(** X 1458-1476 *)
Example x1458 :
  init has false KRef [M1; M2; copy; move] (lval (TObj 2)) = Made AtSelf (TableOf (TObj 2)) /\
  deduced_init has KRef (lval (TView KRef [M1; M2; copy; move])) = Some ([M1; M2; copy; move], same) /\
  deduced_init has KCRef (lval (TView KRef [M1; M2; copy; move])) = Some ([M1; M2; copy; move], same) /\
  init has false KCRef [M1; M2; move] (lval (TObj 2)) = Made AtSelf (TableOf (TObj 2)) /\
  init has false KCRef [M2; move] (lval (TView KCRef [M1; M2; move])) = same /\
  deduced_init has KCRef (lval (TView KCRef [M2; move])) = Some ([M2; move], same) /\
  deduced_init has KCRef (rval (TView KRef [M2; move])) = Some ([M2; move], same) /\
  init has false KCPtr [M2; move] (rval (TView KCPtr [M1; M2; move])) = same /\
  deduced_init has KCPtr (lval (TView KCPtr [M2; move])) = Some ([M2; move], same) /\
  init has false KCRef [M2] (lval (TView KCRef [M2; move])) = same /\
  init has false KCPtr [M2] (rval (TView KCPtr [M2; move])) = same /\
  init has false KCRef [M1; M2] (lval (TView KRef [M1; M2; copy; move])) = same /\
  init has false KCPtr [M1; M2] (rval (TView KPtr [M1; M2; copy; move])) = same.
Proof. by vm_compute. Qed.
(** X 1512-1517, 1539-1549 *)
Example x1512 :
  init has false KPtr [type_info; draw] (rval (TPtr false (TObj 3))) = Made AtPointee (TableOf (TObj 3)) /\
  init has false KCPtr [type_info; draw] (rval (TPtr false (TObj 3))) = Made AtPointee (TableOf (TObj 3)) /\
  init has false KRef [type_info; draw] (lval (TObj 3)) = Made AtSelf (TableOf (TObj 3)) /\
  init has false KCRef [type_info; draw] (lval (TObj 3)) = Made AtSelf (TableOf (TObj 3)) /\
  init has false KCPtr [type_info; draw] (rval (TPtr true (TObj 3))) = Made AtPointee (TableOf (TObj 3)) /\
  init has false KCRef [type_info; draw] (clval (TObj 3)) = Made AtSelf (TableOf (TObj 3)) /\
  deduced_init has KPtr (lval (TView KPtr [type_info; draw])) = Some ([type_info; draw], same) /\
  deduced_init has KCPtr (lval (TView KPtr [type_info; draw])) = Some ([type_info; draw], same) /\
  deduced_init has KCPtr (lval (TView KCPtr [type_info; draw])) = Some ([type_info; draw], same).
Proof. by vm_compute. Qed.
(** X 1628-1629: (ptr)&v00 and const_ptr from a pointer to const *)
Example x1628 :
  init has true KPtr [type_info; draw] (rval (TPtr false (TObj 3))) = Made AtPointee (TableOf (TObj 3)) /\
  init has false KPtr [type_info; draw] (rval (TPtr true (TObj 3))) = NoViable.
Proof. by vm_compute. Qed.
(** X 820-828: null and pointers to objects *)
Example x820 :
  init has false KPtr [type_info] (rval TNull) = Made Nowhere NoTable /\
  init has false KPtr [type_info; equal_to] (rval (TPtr false (TObj 5))) = Made AtPointee (TableOf (TObj 5)).
Proof. by vm_compute. Qed.
