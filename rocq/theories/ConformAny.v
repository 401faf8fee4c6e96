(** The project's own tests of any_with, any_cast and pointers, evaluated in the models.  These are checks of the models, not proofs of
    properties.  X = tests/test_anyany.cpp. *)
From stdpp Require Import gmap list.
From Verif Require Import TypeListModel AnyModel AnyInv AnyHistory AnyLogSpec AnyExec AnyFacts AnyExamples DescModel PolyModel PolyExamples CastModel.

(** 0: int; 1: std::string; 2: std::vector; 3: std::array<char, 200>; 4: char; 5: double; 6: std::pmr::list *)
Definition ty_conf (T : nat) : tyinfo :=
  match T with
  | 1 => TyInfo 32 8 true false false false
  | 2 => TyInfo 24 8 true false false false
  | 3 => TyInfo 200 1 true true true true
  | 4 => TyInfo 1 1 true true true true
  | 5 => TyInfo 8 8 true true true true
  | 6 => TyInfo 32 8 true false false false
  | _ => TyInfo 4 4 true true true true
  end.
(** default_allocator: always equal; polymorphic_allocator: neither always equal nor propagated, copies use the default resource 0.
    No operation throws in these tests *)
Definition stdE (soos : nat) : env := Env ty_conf soos true true false (fun a => a) false 0 meth_ex (fun _ => false).
Definition pmrE (soos : nat) : env := Env ty_conf soos false false false (fun _ => 0) true 0 meth_ex (fun _ => false).

(** the test does nothing that is not allowed, it ends normally, and then the check holds *)
Definition conf (E : env) (l : list op) (check : world -> bool) : bool :=
  legalb E l init_world && match exec E l init_world with Ok _ w => check w | _ => false end.
Definition holds (T v i : nat) (w : world) : bool := bool_decide (content w i = Some (Some (T, v))).
Definition empty (i : nat) (w : world) : bool := bool_decide (content w i = Some None).
Definition result {A} (r : res A) : option A := match r with Ok a _ => Some a | _ => None end.
Definition stable (E : env) (i : nat) (w : world) : bool := bool_decide (result (is_stable_pointers i w) = Some true).
Definition where_is (w : world) (i : nat) : option ptr := match w_any w !! i with Some a => Some (a_vp a) | None => None end.

(** ** X 455-500 special_member_functions, for the four interfaces; elements 0-4, m 5, the copy 10-14 *)
Definition smf (ms : list method) : list op :=
  [ OValue 0 0 ms 2 (AVal 5) false; OValue 1 0 ms 2 (AVal 5) false; OValue 2 0 ms 2 (AVal 5) false;
    OForce 3 ms 2 (AVal 5) false; OForce 4 ms 2 (AVal 5) false ].
Definition smf_check (E : env) (w : world) : bool :=
  stable E 3 w && stable E 4 w && negb (stable E 0 w) && forallb (fun i => holds 2 5 i w) [0; 1; 2; 3; 4].
Definition copyable (b : bool) : list method := [MDestroy; MCopy b; MEqualTo].
Definition movable : list method := [MDestroy; MMove; MEqualTo].
Definition smf_ms : list (list method) :=
  [copyable true; movable; [MDestroy; MCopy true; MMove; MMove; MCopy true; MEqualTo]; copyable false].
Example special_468 : forallb (fun ms => conf (stdE 40) (smf ms) (smf_check (stdE 40))) smf_ms = true.
Proof. by vm_compute. Qed.
Example special_474 : forallb (fun ms =>
  conf (stdE 40) (smf ms ++ [OMove 5 0]) (fun w => holds 2 5 5 w && empty 0 w) &&
  conf (stdE 40) (smf ms ++ [OMove 5 0; OMoveAssign 0 5]) (fun w => holds 2 5 0 w && empty 5 w)) smf_ms = true.
Proof. by vm_compute. Qed.
Example special_481 :
  conf (stdE 40) (smf (copyable true) ++ map (fun i => OCopy (10 + i) i (copyable true)) [0; 1; 2; 3; 4])
    (fun w => forallb (fun i => holds 2 5 (10 + i) w) [0; 1; 2; 3; 4] && smf_check (stdE 40) w) = true.
Proof. by vm_compute. Qed.
(** a copy with fewer methods, polymorphic_allocator and SooS 0 *)
Example special_483 :
  conf (pmrE 0) [OValue 0 0 [MDestroy; MCopy true; MEqualTo; MTypeInfo] 1 (AVal 7) false; OCopy 1 0 [MDestroy; MCopy true; MEqualTo];
                 OCopy 2 0 [MDestroy; MCopy true; MEqualTo]]
    (fun w => holds 1 7 1 w && holds 1 7 2 w && stable (pmrE 0) 1 w) = true.
Proof. by vm_compute. Qed.

(** ** X 502-510 noallocate_test: nothing is allocated *)
Example noallocate_506 :
  conf (stdE 40) [OValue 0 0 (copyable true) 0 (AVal 5) true; OMove 1 0; OCopyAssign 1 0 9; OCopy 2 1 (copyable true)]
    (fun w => empty 0 w && empty 1 w && empty 2 w && bool_decide (w_next w <= 2)) = true.
Proof. by vm_compute. Qed.

(** ** X 433-454 strange_allocs: the resource r 1, the monotonic buffer 2; a 0, a_copy 1, b 2 *)
Example strange_440 : conf (pmrE 8) [ODefault 0 1 (copyable true); OEmplace 0 6 (AVal 10) false]
  (fun w => bool_decide (length (omap (fun e => match e with EvAlloc _ 1 _ => Some e | _ => None end) (w_log w)) = 1)) = true.
Proof. by vm_compute. Qed.
Definition strange : list op :=
  [ODefault 0 1 (copyable true); OEmplace 0 6 (AVal 10) false; OValue 1 0 (copyable true) 6 (AVal 10) false;
   ODefault 2 2 (copyable true); OEmplace 2 2 (AVal 10) false].
Example strange_450 : conf (pmrE 8) strange (fun w => holds 6 10 0 w && holds 6 10 1 w && holds 2 10 2 w) = true.
Proof. by vm_compute. Qed.
Example strange_451 : conf (pmrE 8) (strange ++ [OMoveAssign 2 0]) (fun w => holds 6 10 2 w && holds 6 10 1 w) = true.
Proof. by vm_compute. Qed.

(** ** X 744-789 transmutate_ctors *)
Definition tm : list method := [MDestroy; MTypeInfo; MMove; MCopy true].
Example transmutate_746 :
  conf (stdE 40) [ODefault 0 0 tm; OEmplace 0 1 (AVal 3) false] (fun w => bool_decide (where_is w 0 = Some (PData 0))) = true /\
  conf (stdE 40) [ODefault 0 0 tm; OEmplace 0 1 (AVal 3) false; OCopy 1 0 tm; OCopy 2 0 [MDestroy; MTypeInfo; MMove]; OMove 3 2; OCopy 4 0 tm]
    (fun w => holds 1 3 0 w && holds 1 3 3 w && holds 1 3 4 w && negb (bool_decide (where_is w 2 = where_is w 0))) = true.
Proof. by vm_compute. Qed.
Definition trans_ms : list (list method) :=
  [ [MCopy true; MDestroy; MMove; MEqualTo]; [MDestroy; MDestroy; MMove; MEqualTo];
    [MCopy true; MMove; MCopy true; MDestroy; MMove; MEqualTo]; [MCopy false; MDestroy; MMove; MEqualTo] ].
Example transmutate_763 : forallb (fun ms =>
  conf (stdE 40) (smf ms ++ map (fun i => OCopy (10 + i) i movable) [0; 1; 2; 3; 4])
    (fun w => forallb (fun i => holds 2 5 (10 + i) w) [0; 1; 2; 3; 4]))
  [ [MCopy true; MDestroy; MMove; MEqualTo]; [MCopy true; MMove; MCopy true; MDestroy; MMove; MEqualTo] ] = true.
Proof. by vm_compute. Qed.
Example transmutate_772 : forallb (fun ms =>
  conf (stdE 40) (smf ms ++ map (fun i => OTransMove (10 + i) i movable) [0; 1; 2; 3; 4])
    (fun w => forallb (fun i => holds 2 5 (10 + i) w && empty i w) [0; 1; 2; 3; 4])) trans_ms = true.
Proof. by vm_compute. Qed.

(** ** X 1264-1282 always_allocated_any: x 0, x_copy 1, y 2 *)
Definition always_allocated : list op := [OValue 0 0 [MDestroy; MCopy true] 4 (AVal 99) true; OCopy 1 0 [MDestroy; MCopy true]].
Example always_1267 : conf (stdE 0) always_allocated (fun w =>
  stable (stdE 0) 0 w && bool_decide (result (sizeof_now (stdE 0) 0 w) = Some 1) && stable (stdE 0) 1 w && bool_decide (result (sizeof_now (stdE 0) 1 w) = Some 1)) = true.
Proof. by vm_compute. Qed.
Example always_1274 : conf (stdE 0) (always_allocated ++ [OMove 2 0]) (fun w =>
  negb (stable (stdE 0) 0 w) && bool_decide (result (sizeof_now (stdE 0) 0 w) = Some 0) && stable (stdE 0) 2 w &&
  bool_decide (result (sizeof_now (stdE 0) 2 w) = Some 1)) = true.
Proof. by vm_compute. Qed.

(** ** X 1309-1321 zero_sized_any: no method for moving; val 0, val2 1 *)
Example zero_1313 : conf (stdE 0) [OValue 0 0 [MDestroy] 0 (AVal 5) true; OMove 1 0]
  (fun w => stable (stdE 0) 1 w && holds 0 5 1 w && empty 0 w) = true.
Proof. by vm_compute. Qed.
Example zero_1317 : conf (stdE 0) [OValue 0 0 [MDestroy] 0 (AVal 5) true; OMove 1 0; OSwap 0 1 9]
  (fun w => stable (stdE 0) 0 w && holds 0 5 0 w && empty 1 w) = true.
Proof. by vm_compute. Qed.

(** ** X 1323-1363 memory_reuse for the seven anys *)
Definition reuse_steps (E : env) : bool :=
  let start := [ODefault 0 0 [MDestroy; MTypeInfo]; OReplace 0 200; OEmplace 0 0 (AVal 5) true] in
  let later := [OEmplace 0 1 (AVal 6) false; OEmplace 0 0 (AVal 0) true; OEmplace 0 2 (AVal 0) false; OEmplace 0 3 (AVal 0) true; OEmplace 0 0 (AVal 5) true] in
  let home := match exec E start init_world with Ok _ w => where_is w 0 | _ => None end in
  let vals := [(0, 5); (1, 6); (0, 0); (2, 0); (3, 0); (0, 5)] in
  conf E (take 2 start) (fun w => match result (capacity E 0 w) with Some c => 200 <=? c | None => false end) &&
  forallb (fun k => conf E (start ++ take k later) (fun w =>
    match vals !! k with Some (T, v) => holds T v 0 w | None => false end && bool_decide (where_is w 0 = home) &&
    match result (capacity E 0 w) with Some c => 200 <=? c | None => false end)) [0; 1; 2; 3; 4; 5].
Example reuse_1355 : forallb reuse_steps [stdE 40; stdE 0; pmrE 0; stdE 16; pmrE 16; stdE 8; pmrE 8] = true.
Proof. by vm_compute. Qed.

(** ** X 607-608 the chain of assignments, from right to left: f0 0, f1 1, f2 2, f3 3; the temporary any_fooable{} 4 *)
Definition fooable : list method := [MDestroy; MTypeInfo; MCopy true; MUser 0; MUser 1].
Definition chain : list op :=
  [ OValue 0 0 fooable 1 (AVal 5) false; OValue 1 0 fooable 1 (AVal 50) false; OValue 2 0 fooable 2 (AVal 500) false; OValue 3 0 fooable 3 (AVal 100) false;
    ODefault 4 0 fooable;
    OCopyAssign 1 2 9; OCopyAssign 3 1 9; OCopyAssign 3 3 9; OCopyAssign 2 3 9; OCopyAssign 1 2 9; OMoveAssign 2 1; OCopyAssign 3 2 9; OCopyAssign 4 3 9;
    OCopyAssign 3 4 9; OCopyAssign 2 3 9; OMoveAssign 1 2; OCopyAssign 0 1 9; OCopyAssign 0 0 9; OCopyAssign 0 0 9; OCopyAssign 1 0 9; OCopyAssign 2 1 9;
    OCopyAssign 0 2 9 ].
Example invoke_607 : conf (stdE 40) chain (fun w => holds 2 500 0 w && holds 2 500 1 w && holds 2 500 2 w && holds 2 500 3 w) = true.
Proof. by vm_compute. Qed.

(** ** X 524-540 compare: v1 0 (double), v2 1, v3 2 *)
Definition cmp_ms : list method := [MDestroy; MCopy true; MEqualTo; MSpaceship; MMove].
Definition cmp_prog : list op := [OValue 0 0 cmp_ms 5 (AVal 5) true; OValue 1 0 cmp_ms 2 (AVal 10) false; OCopy 2 1 cmp_ms; OEmplace 2 2 (AVal 0) false].
Definition on (E : env) (l : list op) {A} (m : M A) : option A := match exec E l init_world with Ok _ w => result (m w) | _ => None end.
Example compare_526 : legalb (stdE 40) cmp_prog init_world = true /\
  on (stdE 40) cmp_prog (cmp_spaceship obs0 (OpAny 0) (OpAny 0)) = Some (Some Eq) /\
  on (stdE 40) cmp_prog (eq_op obs0 (OpAny 0) (OpAny 0)) = Some true /\
  on (stdE 40) cmp_prog (cmp_spaceship obs0 (OpAny 0) (OpAny 1)) = Some None /\
  on (stdE 40) cmp_prog (cmp_spaceship obs0 (OpAny 2) (OpAny 1)) = Some (Some Lt).
Proof. by vm_compute. Qed.

(** ** X 843-900 any_cast_test: the kind of result for int, int&, int&& (for pointers the result is a pointer, to const from const_poly_ptr) *)
Inductive shape : Set := SVal | SRef (const xval : bool).
Definition shape_of (r : option cres) : option shape :=
  match r with Some (NewObj _ _) => Some SVal | Some (RefTo c x _) => Some (SRef c x) | None => None end.
Definition tt_ms : list method := [MDestroy; MTypeInfo; MCopy true].
Definition tt_prog : list op := [OValue 0 0 tt_ms 0 (AVal 5) true].
Definition mv_zero : movers := Movers (fun _ _ => 0) (fun _ _ => 0).
Definition cast_shape (t : tform) (rv : bool) : option shape :=
  shape_of (on (stdE 40) tt_prog (cast_any_as (stdE 40) obs0 mv_zero 0 0 t false rv)).
Definition ref_shape (c : bool) (t : tform) : option shape :=
  shape_of (on (stdE 40) tt_prog
    (let! x := start obs0 (if c then OCAddr 0 else OAddr 0) in let! x := run_step obs0 Deref x in
     match x with CView p => cast_ref_as (stdE 40) obs0 p 0 t | _ => ubM UbIllFormed end)).
Example any_cast_844 : cast_shape TVal false = Some SVal /\ cast_shape TLRef false = Some (SRef false false) /\ cast_shape TRRef false = Some SVal.
Proof. by vm_compute. Qed.
Example any_cast_852 : cast_shape TVal true = Some SVal /\ cast_shape TLRef true = Some (SRef false false) /\ cast_shape TRRef true = Some (SRef false true).
Proof. by vm_compute. Qed.
Example any_cast_860 : ref_shape false TVal = Some SVal /\ ref_shape false TLRef = Some (SRef false false) /\ ref_shape false TRRef = Some SVal.
Proof. by vm_compute. Qed.
Example any_cast_868 : ref_shape true TVal = Some SVal /\ ref_shape true TLRef = Some (SRef true false) /\ ref_shape true TRRef = Some (SRef true false).
Proof. by vm_compute. Qed.

(** ** X 612-624 any_cast2: a copy, a move, and what is left *)
Definition vec_prog : list op := [ODefault 0 0 tt_ms; OEmplace 0 0 (AVal 5) true; OEmplace 0 2 (AVal 10) false].
Example any_cast_614 : on (stdE 40) [ODefault 0 0 tt_ms] (cast_any obs0 (Some 0) 0) = Some None. Proof. by vm_compute. Qed.
Example any_cast_622 :
  on (stdE 40) vec_prog (cast_any_as (stdE 40) obs0 mv_zero 0 2 TVal false false) = Some (NewObj 2 10) /\
  on (stdE 40) vec_prog (let! _ := cast_any_as (stdE 40) obs0 mv_zero 0 2 TVal false true in
                         cast_any_as (stdE 40) obs0 mv_zero 0 2 TVal false false) = Some (NewObj 2 0).
Proof. by vm_compute. Qed.

(** ** X 817-839 ptr_behavior: s at block 0, x at block 1 *)
Definition ptr_ms : list method := [MTypeInfo; MUser 0].
Definition ptr_to (T : nat) (p : option ptr) : M pval :=
  let! c := start obs0 (OObj KPtr T p ptr_ms) in match c with CView v => retM v | _ => ubM UbIllFormed end.
Example ptr_834 : on (stdE 40) [] (let! p := ptr_to 0 None in let! d := ptr_desc obs0 p in desc_eqM d (ob_desc obs0 None)) = Some true.
Proof. by vm_compute. Qed.
Example ptr_837 : on (stdE 40) [] (let! p := ptr_to 0 (Some (PHeap 1)) in let! c := run_step obs0 (ToCPtr ptr_ms) (CView p) in
  match c with CView q => ptr_eq_mixed obs0 p q | _ => ubM UbIllFormed end) = Some true.
Proof. by vm_compute. Qed.
