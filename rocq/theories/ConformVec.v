(** The project's own tests of visitors, variant_swarm and data_parallel_vector, evaluated in the models.
    These are checks of the models, not proofs of properties.
    XU = tests/test_utilities.cpp, XS = tests/test_variant_swarm.cpp, XP = tests/test_data_parallel_vector.cpp. *)
From Coq Require Import ZArith.
From stdpp Require Import gmap list.
From Verif Require Import TypeListModel AnyModel SwarmModel DpvModel DpvIterModel DpvExprModel FieldsModel BindModel BindExamples OverloadModel OverloadExamples.

(** ** XU 78-115 calls of erased visitors; A 20, B 21, C 22, unrelated *)
Definition v1 : list (list (nat * bool)) := overloads1 (plain [20; 21; 22]).
Definition v2 : list (list (nat * bool)) := overloads2 (plain [20; 21; 22]) (plain [20; 21; 22]).
Definition calls1 (o : list (list (nat * bool))) : bool :=
  forallb (fun T => bool_decide (visitor_call zoo o [lval T] = Some [(T, false)])) [20; 21; 22].
Definition calls2 (o : list (list (nat * bool))) (Us : list nat) : bool :=
  forallb (fun T => forallb (fun U => bool_decide (visitor_call zoo o [lval T; lval U] = Some [(T, false); (U, false)])) Us) [20; 21; 22].
Example visitors_81 : calls1 v1 = true. Proof. by vm_compute. Qed.
Example visitors_87 : calls2 v2 [20; 21; 22] = true. Proof. by vm_compute. Qed.
Example visitors_99 : calls1 (v1 ++ v2) && calls2 (v1 ++ v2) [20; 21; 22] = true. Proof. by vm_compute. Qed.
Example visitors_113 : calls2 (overloads2 (plain [20; 21; 22]) (plain [20])) [20] = true. Proof. by vm_compute. Qed.

(** ** XS: vector<int>, vector<double>, vector<string>; f 0, f1 1; sets: kek *)
Definition sw_ts : list nat := [10; 11; 14].
Definition sw_cont (T : nat) : nat := 100 + T.
Definition sw (k : ckind) (l : list sop) : sres sworld := sexec sw_cont k sw_ts l ∅.
Definition sizes (k : ckind) (l : list sop) (x : nat) : option (option nat * bool * list (option nat)) :=
  match sw k l with
  | SOk w => match w !! x with Some c => Some (s_size c, s_empty c, map (fun T => s_count sw_cont sw_ts T c) sw_ts) | None => None end
  | SBad _ => None
  end.
Example swarm_20 : sizes KBack [SNew 0; SNew 1; SEmplace 1 10 5; SEmplace 1 11 15; SEmplace 1 14 9] 1 = Some (Some 3, false, [Some 1; Some 1; Some 1]) /\
  sizes KBack [SNew 0; SNew 1; SEmplace 1 10 5] 0 = Some (Some 0, true, [Some 0; Some 0; Some 0]).
Proof. by vm_compute. Qed.
(** which container the arguments of insert go to: const char*, the literals 155 and 3.14, "hello" *)
Example swarm_30 : inserter_compiles zoo sw_ts [int; literal] false true = true /\ insert_call zoo sw_ts (lval literal) = Some (string, true).
Proof. by vm_compute. Qed.
Example swarm_42 : insert_call zoo sw_ts (Arg literal true true) = Some (string, true) /\ insert_call zoo sw_ts (Arg int false false) = Some (int, true) /\
  insert_call zoo sw_ts (Arg double false false) = Some (double, true).
Proof. by vm_compute. Qed.
Definition f_prog : list sop := [SNew 0; SInsert 0 14 7; SSwap 0 0; SSwap 0 0; SInsert 0 14 8].
Example swarm_31 : sizes KBack (take 2 f_prog) 0 = Some (Some 1, false, [Some 0; Some 0; Some 1]). Proof. by vm_compute. Qed.
Example swarm_43 : sizes KBack f_prog 0 = Some (Some 2, false, [Some 0; Some 0; Some 2]). Proof. by vm_compute. Qed.
Example swarm_49 : sizes KBack (f_prog ++ [SInsert 0 10 155; SInsert 0 11 314]) 0 = Some (Some 4, false, [Some 1; Some 1; Some 2]). Proof. by vm_compute. Qed.
Definition kek : list sop := [SNew 0; SInsert 0 14 7; SInsert 0 11 314; SInsert 0 10 55].
Example swarm_53 : match sw KSet (take 3 kek) with
  | SOk w => match sstep sw_cont KSet sw_ts (SInsert 0 10 55) w with SOk (_, r) => r = RPair 0 true | SBad _ => False end
  | SBad _ => False
  end.
Proof. by vm_compute. Qed.
Example swarm_56 : sizes KSet kek 0 = Some (Some 3, false, [Some 1; Some 1; Some 1]) /\
  sizes KSet (kek ++ [SSwap 0 0; SErase 0 10 0]) 0 = Some (Some 2, false, [Some 0; Some 1; Some 1]).
Proof. by vm_compute. Qed.
Example swarm_88 :
  sizes KSet (kek ++ [SSwap 0 0; SErase 0 10 0; SInsertList 0 10 [1; 2; 3; 4; 5]; SInsertList 0 14 [20; 21]]) 0 = Some (Some 9, false, [Some 5; Some 1; Some 3]).
Proof. by vm_compute. Qed.
(** visit_copy_all writes as many values as there are *)
Example swarm_86 : match sw KSet (kek ++ [SErase 0 10 0; SInsertList 0 10 [1; 2; 3; 4; 5]; SInsertList 0 14 [20; 21]]) with
  | SOk w => match w !! 0 with
             | Some c => match s_visit_copy_all sw_cont sw_ts (fun T x (u : unit) => inl (u, x, Some (T, x))) c (replicate 9 (0, 0)) 0 tt with
                         | VDone s _ => bool_decide (os_buf s = map (pair 10) [1; 2; 3; 4; 5] ++ [(11, 314)] ++ map (pair 14) [7; 20; 21]) && (os_pos s =? 9)
                                      && negb (os_bad s) = true
                         | _ => False
                         end
             | None => False
             end
  | SBad _ => False
  end.
Proof. by vm_compute. Qed.

(** ** XP 40-54, 298-302, 337-345 views and bindings *)
(** physic_obj: entity_id 0, mass 1, position 2, velocity 3, shift 4 *)
Definition physic : list ftype := map TyOther [0; 1; 2; 3; 4].
Example view_42 : view_types physic false [(true, TyOther 0); (true, TyOther 2); (false, TyOther 1); (false, TyOther 4)] =
  Some [Span 0 (TyOther 0) true; Span 2 (TyOther 2) true; Span 1 (TyOther 1) false; Span 4 (TyOther 4) false] /\
  view_types physic true [(true, TyOther 0); (true, TyOther 2); (false, TyOther 1); (false, TyOther 4)] =
  Some [Span 0 (TyOther 0) true; Span 2 (TyOther 2) true; Span 1 (TyOther 1) true; Span 4 (TyOther 4) true].
Proof. by vm_compute. Qed.
Example fields_53 : fields_count true (replicate 5 (Fld FObj false true)) = Some 5. Proof. by vm_compute. Qed.
Example bind_52 : is_Some (structured_binding user_struct (std_allocator user_struct) physic (BVec false) 5). Proof. vm_compute. by eexists. Qed.
Example bind_338 :
  structured_binding user_struct (std_allocator user_struct) [TyOther 0; TyOther 1; TyBool] (BVec false) 3 = Some [(BSpan (TyOther 0) false, 0); (BSpan (TyOther 1) false, 1); (BSpan TyBool false, 2)] /\
  is_Some (structured_binding user_struct (std_allocator user_struct) [TyOther 0; TyOther 1; TyBool] (BVec true) 3).
Proof. split; [by vm_compute|vm_compute; by eexists]. Qed.
(** XP 246-253: front() and *cbegin() of field_4 *)
Definition field_4 : list ftype := [TyOther 0; TyOther 1; TyOther 2; TyBool; TyOther 3].
Example bind_246 :
  structured_binding user_struct (std_allocator user_struct) field_4 (BRef false) 5 = Some (imap (fun i X => (BField X false, i)) field_4) /\
  structured_binding user_struct (std_allocator user_struct) field_4 (BRef true) 5 = Some (imap (fun i X => (BField X true, i)) field_4).
Proof. by vm_compute. Qed.

(** ** XP 56-223 test_data_parallel; rows of 4 fields, the range has 15 equal ones.  t 0, t1 1, ... t5 5, x 10, ... y 20, ... *)
Definition it_row : row := [5; 314; 66; 99].
Definition the_range : list row := replicate 15 it_row.
Definition zero_of (j : nat) : nat := 0.
Definition dp (l : list dop) : wres := dexec 4 zero_of (fun v => v) l ∅.
Definition dp_sizes (l : list dop) (xs : list nat) : option (list (option nat)) :=
  match dp l with
  | WOk w _ _ => Some (map (fun x => match w !! x with Some c => match d_size c None with DOk n _ _ => Some n | _ => None end | None => None end) xs)
  | _ => None
  end.
Definition dp_equal (l : list dop) (xs : list (nat * nat)) : bool :=
  match dp l with
  | WOk w _ _ => forallb (fun '(x, y) => match w !! x, w !! y with
                                        | Some c, Some d => bool_decide (d_eq (fun _ a b => Some (Nat.compare a b)) c d = Some true) | _, _ => false end) xs
  | _ => false
  end.
(** [rnd]: the iterators are random access (std::vector), or not (std::list) *)
Definition make (rnd : bool) : list dop :=
  [DNew 0; DNew 1; DNewFill 2 10 it_row; DNewCount 3 50; DNewRange 4 false rnd the_range; DNewRange 5 false rnd the_range].
Definition is := [1; 2; 3; 4; 5].
Definition copies := map (fun i => DCopy (10 + i) i) is.
Definition moves := map (fun i => DMove (20 + i) (10 + i)) is.
Definition assigns := map (fun i => DCopyAssign (10 + i) i) is.
Definition move_assigns := map (fun i => DMoveAssign (10 + i) i) is.
Definition swaps := map (fun i => DSwap (10 + i) (20 + i)) is.
Definition both (l : bool -> list dop) (check : list dop -> bool) : bool := check (l true) && check (l false).
Example dpv_63 : forall rnd, dp_sizes (make rnd) [0; 1; 2; 3; 4; 5] = Some [Some 0; Some 0; Some 10; Some 50; Some 15; Some 15].
Proof. intros []; by vm_compute. Qed.
Example dpv_66 : forall rnd, match dp (make rnd) with
  | WOk w _ _ => match w !! 2, w !! 4 with
                 | Some c, Some d => d_front c None = DOk it_row c None /\ d_back c None = DOk it_row c None /\
                                     mapM (fun i => gather i d) (seq 0 15) = Some the_range
                 | _, _ => False end
  | _ => False end.
Proof. intros []; by vm_compute. Qed.
Example dpv_84 : both (fun rnd => make rnd ++ copies) (fun l => dp_equal l (map (fun i => (10 + i, i)) is)) = true. Proof. by vm_compute. Qed.
Example dpv_100 : both (fun rnd => make rnd ++ copies ++ moves) (fun l => dp_equal l (map (fun i => (20 + i, i)) is)) = true. Proof. by vm_compute. Qed.
Definition upto (rnd : bool) : list dop := make rnd ++ copies ++ moves ++ assigns.
Example dpv_110 : both upto (fun l => dp_equal l (map (fun i => (10 + i, i)) is)) = true. Proof. by vm_compute. Qed.
Example dpv_120 : both (fun rnd => upto rnd ++ move_assigns) (fun l => dp_equal l (map (fun i => (10 + i, 20 + i)) is)) = true. Proof. by vm_compute. Qed.
Definition shrunk (rnd : bool) : list dop := upto rnd ++ move_assigns ++ swaps ++ map (fun i => DShrink (10 + i)) is.
Example dpv_130 : both shrunk (fun l => dp_equal l (map (fun i => (10 + i, 20 + i)) is)) = true. Proof. by vm_compute. Qed.
(** XP 140-167: push_back of front() and back(), copies to 32-35, insert of front() before the last, erase *)
Definition row_of (i : nat) : row := if i =? 3 then [0; 0; 0; 0] else it_row.
Definition is' := [2; 3; 4; 5].
Definition size_of' (i : nat) : nat := match i with 2 => 10 | 3 => 50 | _ => 15 end.
Definition pushed (rnd : bool) : list dop :=
  shrunk rnd ++ map (fun i => DPush (10 + i) (row_of i)) is' ++ map (fun i => DPush (10 + i) (row_of i)) is' ++ map (fun i => DCopy (30 + i) (10 + i)) is'.
Definition inserted (rnd : bool) : list dop := pushed rnd ++ map (fun i => DInsert (10 + i) (size_of' i + 1) (row_of i)) is'.
Definition at_row (l : list dop) (x i : nat) : option row := match dp l with WOk w _ _ => match w !! x with Some c => gather i c | None => None end | _ => None end.
Example dpv_156 : forall rnd, map (fun i => at_row (inserted rnd) (10 + i) (size_of' i + 1)) is' = map (fun i => at_row (inserted rnd) (10 + i) 0) is' /\
  map (fun i => at_row (inserted rnd) (10 + i) 0) is' = map (fun i => Some (row_of i)) is'.
Proof. intros []; by vm_compute. Qed.
Definition erased (rnd : bool) : list dop := inserted rnd ++ map (fun i => DErase (10 + i) (size_of' i + 1)) is'.
Example dpv_164 : both erased (fun l => dp_equal l (map (fun i => (30 + i, 10 + i)) is')) = true. Proof. by vm_compute. Qed.
Definition popped (rnd : bool) : list dop := erased rnd ++ map (fun i => DPop (10 + i)) is' ++ map (fun i => DPop (10 + i)) is'.
Example dpv_174 : both popped (fun l => dp_equal l (map (fun i => (10 + i, 20 + i)) is')) = true. Proof. by vm_compute. Qed.
(** XP 184-222: insertion of the range at the beginning, the iterator returned, assign, resize, clear *)
Definition ranged (rnd : bool) : list dop := popped rnd ++ map (fun i => DInsertRange (10 + i) 0 false rnd [3; 2; 1; 0] the_range) is.
Definition range_at (rnd : bool) (i : nat) : option nat := match dp (popped rnd) with
  | WOk w _ _ => match dstep 4 zero_of (fun v => v) (DInsertRange (10 + i) 0 false rnd [3; 2; 1; 0] the_range) w None with WOk _ r _ => r | _ => None end
  | _ => None end.
Example dpv_190 : forall rnd, map (range_at rnd) is = replicate 5 (Some 0).
Proof. intros []; by vm_compute. Qed.
Example dpv_195 : forall rnd, dp_sizes (ranged rnd) [11; 12; 13; 14; 15] = Some [Some 15; Some 25; Some 65; Some 30; Some 30].
Proof. intros []; by vm_compute. Qed.
Definition assigned (rnd : bool) : list dop := ranged rnd ++ [DAssignRange 15 false rnd the_range; DAssignN 14 10 it_row].
Example dpv_201 : forall rnd, dp_equal (assigned rnd) [(15, 25)] = true /\ map (at_row (assigned rnd) 14) [1; 9; 10] = [Some it_row; Some it_row; None].
Proof. intros []; by vm_compute. Qed.
Definition resized (rnd : bool) : list dop := assigned rnd ++ [DResizeV 11 20 it_row; DResizeV 12 20 it_row; DResize 13 20; DResizeV 14 20 it_row; DResizeV 15 20 it_row].
Example dpv_208 : forall rnd, dp_sizes (resized rnd) [11; 12; 13; 14; 15] = Some [Some 20; Some 20; Some 20; Some 20; Some 20] /\
  dp_sizes (resized rnd ++ map (fun i => DClear (10 + i)) is) [11; 12; 13; 14; 15] = Some [Some 0; Some 0; Some 0; Some 0; Some 0].
Proof. intros []; by vm_compute. Qed.

(** ** XP 233-274 algo_test: comparison with values, swap of front() and back(); the fields as numbers, equal ones as "hello" 7 *)
Definition al_rows : list row := [[11; 200; 3; 1; 7]; [13; 200; 1; 0; 7]; [13; 200; 1; 0; 7]; [20; 314; 1; 0; 7]; [20; 314; 1; 0; 7]; [0; 314; 1; 0; 7];
  [0; 316; 1; 0; 7]; [0; 316; 1; 1; 7]; [0; 316; 11; 1; 7]; [0; 316; 1; 1; 7]].
Definition algo (l : list dop) : wres := dexec 5 zero_of (fun v => v) (DNewRange 0 false true al_rows :: l) ∅.
Definition by_nat (_ a b : nat) : option comparison := Some (Nat.compare a b).
Definition app2 {A B} (f : A -> A -> B) (x y : option A) : option B := match x, y with Some a, Some b => Some (f a b) | _, _ => None end.
Example algo_256 : match algo [] with
  | WOk w _ _ => match w !! 0 with
                 | Some c => mapM (fun i => gather i c) (seq 0 10) = Some al_rows /\
                             app2 (compare_by_fields by_nat) (gather 0 c) (al_rows !! 0) = Some (Some Eq) /\
                             app2 (compare_by_fields by_nat) (gather 0 c) (al_rows !! 1) = Some (Some Lt) /\
                             app2 (proxy_eq by_nat) (gather 9 c) (last al_rows) = Some true
                 | None => False end
  | _ => False end.
Proof. by vm_compute. Qed.
Example algo_272 : match algo [DSwapRows 0 0 0 9] with
  | WOk w _ _ => match w !! 0 with Some c => gather 0 c = last al_rows /\ gather 9 c = al_rows !! 0 | None => False end
  | _ => False end.
Proof. by vm_compute. Qed.
(** XP 304: 5, 6, 3.14 against 5, 6, 3 *)
Example algo_304 : compare_by_fields by_nat [5; 6; 314; 1; 2] [5; 6; 300; 1; 7] = Some Gt. Proof. by vm_compute. Qed.
