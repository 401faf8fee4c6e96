(** The static assertions of the project's own tests, evaluated in the models: lists of methods, the concepts, sub-tables.
    These are checks of the models, not proofs of properties.  X = tests/test_anyany.cpp. *)
From Coq Require Import List Arith Bool.
From Verif Require Import TypeListModel MethodModel MethodSpec MethodExamples VtableModel.
Import ListNotations.

(** ** X 1491-1501 find_subsequence, has_subsequence; int 0, double 1, float 2, char 3, bool 4 *)
Example find_1492 : find_subsequence Nat.eqb [0; 1] [0; 1; 2] = CtOk (Some 0). Proof. reflexivity. Qed.
Example has_1493 : has_subsequence Nat.eqb [0; 1] [1; 2] = CtOk false. Proof. reflexivity. Qed.
Example find_1494 : find_subsequence Nat.eqb [1] [1; 2] = CtOk (Some 0). Proof. reflexivity. Qed.
Example find_1496 : find_subsequence Nat.eqb [1] [0; 1; 2] = CtOk (Some 1). Proof. reflexivity. Qed.
Example find_1497 : find_subsequence Nat.eqb [1; 0; 3] [3; 1; 0; 1; 0; 3; 4; 2] = CtOk (Some 3). Proof. reflexivity. Qed.
Example has_1500 : has_subsequence Nat.eqb [0; 2] [] = CtOk false. Proof. reflexivity. Qed.
Example find_1501 : find_subsequence Nat.eqb [] [] = CtOk (Some 0). Proof. reflexivity. Qed.

(** ** X 1073-1097 subtable_ptr; m2<1> 1, m2<2> 2 (an int), ebop<int> 3, ebop<void> 4, ebop<float> 5 (an empty struct), type_info 6 (a pointer) *)
Definition sub_lay (m : nat) : nat * nat := match m with 1 | 2 => (4, 4) | 6 => (8, 8) | _ => (1, 1) end.
Definition sub_table : list nat := [1; 2; 1; 3; 4; 1; 2; 4; 4].
Example sub_1076 :
  subtable_addr Nat.eqb sub_lay 64 [3; 6] [3; 6; 5] = Some 64 /\ slot_addr Nat.eqb sub_lay 64 [3; 6] 6 = Some 72 /\
  subtable_addr Nat.eqb sub_lay 64 [6; 5] [3; 6; 5] = Some 72 /\ slot_addr Nat.eqb sub_lay 72 [6; 5] 6 = Some 72 /\
  nth_error (entries sub_lay 64 [3; 6; 5]) 1 = Some (72, 6).
Proof. vm_compute. repeat split. Qed.
Example sub_1079 : subtable_addr Nat.eqb sub_lay 64 [] [] = Some 64. Proof. reflexivity. Qed.
Example sub_1083 : subtable_addr Nat.eqb sub_lay 64 [1; 2] sub_table = Some 64. Proof. reflexivity. Qed.
(** the third table is the one with values 1 and 2 *)
Example sub_1084 : exists S, subtable_addr Nat.eqb sub_lay 64 [1; 2; 4] sub_table = Some S /\
  In (S, 1) (entries sub_lay 64 sub_table) /\ slot_addr Nat.eqb sub_lay S [1; 2; 4] 2 = Some (S + 4) /\
  In (S + 4, 2) (entries sub_lay 64 sub_table).
Proof. exists 80. vm_compute. tauto. Qed.
Example find_1089 : find_subsequence Nat.eqb [2; 4; 4] sub_table = CtOk (Some 6). Proof. reflexivity. Qed.
Example find_1092 : find_subsequence Nat.eqb [4; 4] sub_table = CtOk (Some 7). Proof. reflexivity. Qed.
Example sub_1095 : exists e1 e2, subtable_addr Nat.eqb sub_lay 64 [4; 4] sub_table = Some e1 /\
  subtable_addr Nat.eqb sub_lay 64 [2; 4; 4] sub_table = Some e2 /\ e1 - e2 = fst (sub_lay 2).
Proof. exists 88, 84. repeat split. Qed.

(** ** X 1506-1510 vtable::change of a method that is there twice; type_info 6, copy 7 *)
Example change_1507 : change Nat.eqb 6 100 [6; 7; 6] [1; 2; 3] = [100; 2; 100]. Proof. reflexivity. Qed.

(** ** X 972-1007, 1056-1066 interface_alias; type_info 6, destroy 8, call<int()> 9, equal_to 10, call<int() noexcept> 11, copy_with<unreachable> 12 *)
Definition ia_a : TypeListModel.ty nat := TL [Leaf 8; Leaf 6].
Definition ia_b : TypeListModel.ty nat := TL [].
Definition ia_c : TypeListModel.ty nat := TL [ia_a; ia_b].
Definition ia_d : TypeListModel.ty nat := TL [ia_a; ia_b; Leaf 9].
Definition ia_e : TypeListModel.ty nat := TL [ia_d; ia_a; ia_b; Leaf 11].
(** interface_of<insert_flatten_into<any_with, ...>> is interface_alias<...> *)
Definition ia_same (ts : list (TypeListModel.ty nat)) : bool :=
  match any_with Nat.eqb 8 9 ts, insert_flatten 9 ts with
  | Some l, Some m => list_same Nat.eqb (get_interface_of Nat.eqb 8 l) m
  | _, _ => false
  end.
Example ia_977 : forallb ia_same
  [ []; [Leaf 6]; [Leaf 8]; [Leaf 8; Leaf 8; Leaf 6]; [Leaf 9; Leaf 10; Leaf 6]; [ia_a; ia_b; ia_c; ia_d; ia_e]; [ia_e; ia_a; ia_b];
    [ia_e; Leaf 8; ia_a; ia_b]; [Leaf 8; ia_e; Leaf 12; Leaf 8; ia_a; Leaf 6; ia_b] ] = true.
Proof. reflexivity. Qed.
(** any_with<a, b, c> is basic_any<..., destroy, destroy, type_info, destroy, type_info> *)
Example ia_991 : any_with Nat.eqb 8 9 [ia_a; ia_b; ia_c] = Some [8; 8; 6; 8; 6]. Proof. reflexivity. Qed.
(** the methods a 1, b 2, c 3 of X 968-970 *)
Example ia_1056 : insert_flatten 9 [TL [Leaf 1; Leaf 2; Leaf 3]] = insert_flatten 9 [Leaf 1; Leaf 2; Leaf 3] /\
  insert_flatten 9 [TL [TL [TL []]]] = Some (@nil nat) /\
  insert_flatten 9 [TL []; TL [Leaf 1; TL [Leaf 2]; Leaf 3]] = insert_flatten 9 [Leaf 1; Leaf 2; Leaf 3].
Proof. repeat split. Qed.

(** ** X 1180-1206 meta_test; a 1, b<int> 2, b<void, void> 3, c 4 *)
Definition t1 : list nat := [1; 2; 3; 4; 1; 1].
Definition t2 : list nat := 1 :: t1.
Definition t4 : list nat := t1 ++ [1].
Definition as_alias (l : list nat) : TypeListModel.ty nat := TL (map Leaf l).
Example meta_1183 :
  insert_flatten 9 [Leaf 1; TL []; as_alias t1; TL []] = Some t2 /\ insert_flatten 9 [TL []; TL []] = Some (@nil nat) /\
  insert_flatten 9 [TL [TL []; as_alias t1]; Leaf 1] = Some t4.
Proof. repeat split. Qed.
Example meta_1186 : rc_append 9 [] [] = Some (@nil nat) /\ rc_append 9 [] [Leaf 8; Leaf 13] = Some [8; 13]. Proof. repeat split. Qed.
Example meta_1189 : rc_equivalent_to Nat.eqb 9 t2 [Leaf 1; as_alias t1] = Some true /\ rc_equivalent_to Nat.eqb 9 [] [TL []] = Some true.
Proof. repeat split. Qed.
Example meta_1191 :
  rc_subsumes Nat.eqb 9 t4 [Leaf 1] = Some (CtOk true) /\ rc_subsumes Nat.eqb 9 t4 [TL [TL []; as_alias t1]] = Some (CtOk true) /\
  rc_subsumes Nat.eqb 9 t4 [as_alias t4] = Some (CtOk true) /\ rc_subsumes Nat.eqb 9 t4 [TL []] = Some (CtOk true) /\
  rc_subsumes Nat.eqb 9 t4 [as_alias t1] = Some (CtOk true) /\ rc_subsumes Nat.eqb 9 t4 [as_alias t2] = Some (CtOk false) /\
  rc_subsumes Nat.eqb 9 [] [Leaf 1] = Some (CtOk false) /\ rc_subsumes Nat.eqb 9 [] [TL []] = Some (CtOk true).
Proof. repeat split. Qed.
Example meta_1199 : without_duplicates Nat.eqb t1 = [1; 2; 3; 4] /\ without_duplicates Nat.eqb [] = [] /\
  filtered_by (fun _ => false) t4 = [] /\ filtered_by (fun _ => true) t4 = t4 /\
  filtered_by (fun m => (m =? 2) || (m =? 3)) t1 = [2; 3].
Proof. repeat split. Qed.

(** ** X 998-1004, 1024-1054 the concepts *)
(** int and void have none of the members and are not empty classes *)
Definition no_class : mclass := MClass false true None [] None [].
(** struct Draw, print: const T& self; visit<int>: extern, T& self, for copyable types *)
Definition draw_m : mclass := method_class (Written false (val 1) LRef true [val 0] false (fun _ => true) (fun _ => true)).
Definition visit_m : mclass := method_class (Written false Void LRef false [Ty LRef true (BObj 0)] false (fun _ => true) (fun T => negb (T =? 0))).
Definition value_m : mclass := value_class 3 (fun _ => true) (fun _ => true).
Example concepts_1024 :
  method_concept (Leaf value_m) = Got true /\ simple_method value_m = Got true /\ pseudomethod value_m = true /\
  regular_method value_m = Got false /\ const_method value_m = Got true.
Proof. repeat split. Qed.
Example concepts_1036 :
  method_concept (Leaf draw_m) = Got true /\ pseudomethod draw_m = false /\ regular_method draw_m = Got true /\ const_method draw_m = Got true.
Proof. repeat split. Qed.
Example concepts_1039 :
  method_concept (Leaf no_class) = Got false /\ pseudomethod no_class = false /\ regular_method no_class = Got false /\
  const_method no_class = Got false.
Proof. repeat split. Qed.
Example concepts_1051 :
  const_method visit_m = Got false /\ method_concept (Leaf visit_m) = Got true /\ regular_method visit_m = Got true /\ pseudomethod visit_m = false.
Proof. repeat split. Qed.
Example concepts_1003 : method_concept (TL [Leaf no_class]) = Got false /\
  method_concept (TL [Leaf (destroy (fun _ => true)); Leaf value_m; Leaf no_class]) = Got false /\ method_concept (TL []) = Got true.
Proof. repeat split. Qed.
