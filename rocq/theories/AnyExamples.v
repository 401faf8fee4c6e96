(** Concrete types, allocators and programs used by the examples beside the theorems. *)
From stdpp Require Import gmap list.
From Verif Require Import TypeListModel TypeListSpec TypeListProofs AnyModel AnyInv AnyHistory AnyLogSpec AnyExec AnyFacts.

(** 0: int; 1: std::string-like, too big for a 16 byte buffer; 2: small, its copy may throw; 3: its move may throw;
    4: over-aligned; 5: small, nothing throws, has a destructor *)
Definition ty_ex (T : nat) : tyinfo :=
  match T with
  | 1 => TyInfo 32 8 true false false false
  | 2 => TyInfo 8 8 true false false false
  | 3 => TyInfo 8 8 false false false false
  | 4 => TyInfo 64 64 true true true true
  | 5 => TyInfo 8 8 true true false false
  | _ => TyInfo 4 4 true true true true
  end.
(** method 0 adds its argument to the value and returns the old value, the others throw after changing it *)
Definition meth_ex (T n x y : nat) : nat * option nat :=
  match n with 0 => (x + y, Some x) | _ => (y, None) end.

Definition mkE (soos : nat) (aeq pocma pocca : bool) (throws : list nat) : env :=
  Env ty_ex soos aeq pocma pocca (fun a => a) (negb aeq) 0 meth_ex (fun k => bool_decide (k ∈ throws)).

Lemma mkE_wf soos aeq pocma pocca throws : env_wf (mkE soos aeq pocma pocca throws).
Proof.
  split.
  - intros T. cbn. do 6 (destruct T as [|T]; [cbn; lia|]). cbn. lia.
  - intros T. cbn. do 6 (destruct T as [|T]; [done|]). done.
  - cbn. by destruct aeq.
Qed.

Definition full : list method := [MUser 0; MDestroy; MMove; MCopy true; MTypeInfo; MUser 1].
(** a contiguous part of it *)
Definition part : list method := [MDestroy; MMove; MCopy true; MTypeInfo].

(** the caller's obligations only (no condition on allocators), as a check *)
Fixpoint legalb (E : env) (l : list op) (w : world) : bool :=
  match l with
  | [] => true
  | o :: tl => preb E w o && match run E o w with Ok _ w' => legalb E tl w' | Exn w' => legalb E tl w' | _ => true end
  end.
Lemma legalb_sound E l w : legalb E l w = true -> allowed E l w.
Proof.
  revert w. induction l as [|o tl IH]; intros w; [done|]. cbn [legalb allowed]. intros H. apply andb_prop in H as [H1 H2].
  split; [by apply preb_sound|]. destruct (run E o w); try done; by apply IH.
Qed.

(** state reached by a program *)
Definition after (E : env) (l : list op) : world := match exec E l init_world with Ok _ w => w | _ => init_world end.
Lemma after_reachable E l : allowedb E l init_world && match exec E l init_world with Ok _ _ => true | _ => false end = true ->
  reachable E (after E l).
Proof.
  intros H. apply andb_prop in H as [H1 H2]. unfold after. destruct (exec E l init_world) as [[] w| | |] eqn:He; try done.
  by eapply reached.
Qed.

(** computed results without comparing whole states *)
Definition is_ok {A} (r : res A) : bool := match r with Ok _ _ => true | _ => false end.
Definition is_exn {A} (r : res A) : bool := match r with Exn _ => true | _ => false end.
Definition val_of {A} (r : res A) : option A := match r with Ok a _ => Some a | _ => None end.
Definition okw {A} (r : res A) : world := match r with Ok _ w => w | Exn w => w | _ => init_world end.
Lemma ok_okw (r : res unit) : is_ok r = true -> r = Ok tt (okw r).
Proof. by destruct r as [[]| | |]. Qed.
Lemma exn_okw (r : res unit) : is_exn r = true -> r = Exn (okw r).
Proof. by destruct r. Qed.
Lemma exec_app E l1 l2 w : exec E (l1 ++ l2) w = match exec E l1 w with Ok _ w' => exec E l2 w' | r => r end.
Proof.
  revert w. induction l1 as [|o tl IH]; intros w; cbn; [done|]. destruct (run E o w) as [[] w1|w1| |]; cbn; [apply IH|apply IH|done|done].
Qed.
Lemma run_ok E l o : is_ok (exec E l init_world) && is_ok (run E o (after E l)) = true ->
  run E o (after E l) = Ok tt (after E (l ++ [o])).
Proof.
  intros H. apply andb_prop in H as [H1 H2]. unfold after in *. rewrite exec_app. destruct (exec E l init_world) as [[] w| | |]; try done.
  cbn. by destruct (run E o w) as [[] w1|w1| |].
Qed.
Lemma run_exn E l o : is_ok (exec E l init_world) && is_exn (run E o (after E l)) = true ->
  run E o (after E l) = Exn (after E (l ++ [o])).
Proof.
  intros H. apply andb_prop in H as [H1 H2]. unfold after in *. rewrite exec_app. destruct (exec E l init_world) as [[] w| | |]; try done.
  cbn. by destruct (run E o w) as [[] w1|w1| |].
Qed.
Lemma exec_after E l : is_ok (exec E l init_world) = true -> exec E l init_world = Ok tt (after E l).
Proof. unfold after. by destruct (exec E l init_world) as [[]| | |]. Qed.

(** everything at once: values in the buffer and on the heap, copies, moves, assignments in both directions,
    failing allocations (ticks 2 and 7 fail), conversions, references, emptied objects *)
Definition tour : list op :=
  [ OValue 0 0 full 1 (AVal 10) false;
    OValue 1 0 full 5 (AVal 20) true;
    ODefault 2 0 full;
    OCopy 3 0 full;
    OCopy 3 0 full;
    OMove 4 0;
    OCopyAssign 1 3 9;
    OEmplace 2 3 (AVal 30) false;
    OSwap 1 2 9;
    OInvoke 2 0 5;
    OInvoke 2 1 7;
    OEmplace 0 5 (AVal 40) true;
    OCopy 5 0 part;
    OTransMove 6 2 part;
    OSref 0 0 [MCopy true; MDestroy];
    OMaterialize 7 0 (RSref 0);
    OMaterialize 8 0 (RAny 0 part);
    OMoveAssign 0 4;
    OEmplace 4 5 (AFrom 7) true;
    OReplace 4 100;
    OEmplace 4 1 (AFrom 3) false;
    ODestroy 3;
    OReset 1;
    OForce 10 full 0 (AVal 50) false ].
Definition wreck : list op := [ODtor 0; ODtor 1; ODtor 2; ODtor 3; ODtor 4; ODtor 5; ODtor 6; ODtor 7; ODtor 8; ODtor 10].
Definition tourE : env := mkE 16 true false false [2; 9].

(** three allocators, every kind of assignment between them, no propagation *)
Definition alloc_tour : list op :=
  [ OValue 0 1 full 1 (AVal 10) false; OValue 1 2 full 1 (AVal 20) false; OValue 2 3 full 5 (AVal 30) true;
    OCopyAssign 1 0 9; OMoveAssign 2 0; OSwap 1 2 9; OCopy 3 1 full; OMove 4 2; OMoveAssign 0 4; OReplace 1 50; OCopyAssign 1 3 9;
    OCopyAssign 0 2 9; ODtor 0; ODtor 1; ODtor 2; ODtor 3; ODtor 4 ].

(** an environment where an emplace fails *)
Definition failE : env := mkE 16 true false false [2; 5].
(** different allocators, neither equal nor propagating: with a buffer the value is relocated, without one stolen *)
Definition two_allocs : list op := [OValue 0 1 full 1 (AVal 10) false; OValue 1 2 full 5 (AVal 20) true].
(** without a buffer no method is needed to move, also for a type whose move throws *)
Definition bare_tour : list op :=
  [OValue 0 0 [MDestroy] 3 (AVal 10) true; OValue 1 0 [MDestroy] 1 (AVal 20) true; OMove 2 0; OMoveAssign 0 1].
