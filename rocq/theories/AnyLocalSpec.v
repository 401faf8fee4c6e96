(** Independence of programs that name different anys: specification used by C94. *)
From stdpp Require Import gmap list.
From Verif Require Import AnyModel AnyInv AnyHistory AnyExec AnyFacts.

(** the anys an operation names, the hidden local of copy assignment and swap included *)
Definition arg_names (s : arg) : gset nat := match s with AVal _ => ∅ | AFrom k => {[k]} end.
Definition names (o : op) : gset nat :=
  match o with
  | ODefault i _ _ | OReset i | ODestroy i | OReplace i _ | OInvoke i _ _ | ODtor i => {[i]}
  | OValue i _ _ _ s _ | OForce i _ _ s _ | OEmplace i _ s _ => {[i]} ∪ arg_names s
  | OCopy i j _ | OMove i j | OTransMove i j _ | OMoveAssign i j => {[i; j]}
  | OCopyAssign i j t | OSwap i j t => {[i; j; t]}
  | OSref _ j _ => {[j]}
  | ODropSref _ => ∅
  | OMaterialize i _ x => {[i]} ∪ match x with RAny j _ => {[j]} | RSref _ => ∅ end
  end.
(** ... and the stateful references *)
Definition refs (o : op) : gset nat :=
  match o with
  | OSref r _ _ | ODropSref r | OMaterialize _ _ (RSref r) => {[r]}
  | _ => ∅
  end.
(** of these, the ones it may change, create or destroy *)
Definition changes (o : op) : gset nat :=
  touches o ∪ match o with OCopyAssign _ _ t | OSwap _ _ t => {[t]} | _ => ∅ end.
Definition ref_changes (o : op) : gset nat := match o with OSref r _ _ | ODropSref r => {[r]} | _ => ∅ end.

(** Two memories are alike on the anys [S] and the stateful references [R] if they differ there only in the addresses of
    heap blocks and the identities of objects: [β] says which block of one is which block of the other. *)
Definition addresses : Type := nat -> nat -> Prop.

Definition same_obj (o o' : obj) : Prop := o_ty o = o_ty o' /\ o_val o = o_val o'.
Definition same_union (u u' : ucontent) : Prop :=
  match u, u' with
  | UEmpty, UEmpty => True
  | USize n, USize n' => n = n'
  | UObj o, UObj o' => same_obj o o'
  | _, _ => False
  end.
Definition same_opt {A} (P : A -> A -> Prop) (x y : option A) : Prop :=
  match x, y with None, None => True | Some a, Some b => P a b | _, _ => False end.
Definition same_ptr (S : gset nat) (β : addresses) (p p' : ptr) : Prop :=
  match p, p' with
  | PData i, PData j => i = j /\ i ∈ S
  | PHeap b, PHeap b' => β b b'
  | _, _ => False
  end.
(** a vtable pointer leads into a stateful reference only if that is one of [R] *)
Definition home_in (R : gset nat) (v : vptr) : Prop := match vp_home v with Some r => r ∈ R | None => True end.
Definition same_vtable (R : gset nat) (v v' : option vptr) : Prop := v = v' /\ match v with Some x => home_in R x | None => True end.
Definition same_any (S R : gset nat) (β : addresses) (a a' : any) : Prop :=
  same_vtable R (a_vt a) (a_vt a') /\ same_ptr S β (a_vp a) (a_vp a') /\ same_union (a_un a) (a_un a') /\
  a_alloc a = a_alloc a' /\ a_ms a = a_ms a'.
Definition same_block (x x' : block) : Prop :=
  b_alloc x = b_alloc x' /\ b_size x = b_size x' /\ same_opt same_obj (b_obj x) (b_obj x').
Definition same_sref (S : gset nat) (β : addresses) (s s' : sref) : Prop :=
  sr_tab s = sr_tab s' /\ sr_ms s = sr_ms s' /\ same_ptr S β (sr_ptr s) (sr_ptr s').

Record alike (S R : gset nat) (β : addresses) (w w' : world) : Prop := Alike {
  al_any : forall i, i ∈ S -> same_opt (same_any S R β) (w_any w !! i) (w_any w' !! i);
  al_sref : forall r, r ∈ R -> same_opt (same_sref S β) (w_sref w !! r) (w_sref w' !! r);
  al_heap : forall b b', β b b' -> same_opt same_block (w_heap w !! b) (w_heap w' !! b');
  al_one : forall b b' c c', β b b' -> β c c' -> (b = c <-> b' = c');
  al_old : forall b b', β b b' -> b < w_next w /\ b' < w_next w'
}.

(** what the allocator and an instrumented type see of an event *)
Inductive deed : Set := DAlloc (al n : nat) | DFree (al n : nat) | DCtor (T : nat) | DDtor (T : nat).
Definition deed_of (e : event) : deed :=
  match e with EvAlloc _ al n => DAlloc al n | EvFree _ al n => DFree al n | EvCtor _ T => DCtor T | EvDtor _ T => DDtor T end.

(** An operation together with its failures: [f k] tells whether the k-th action of it that may throw does.  (Failures belong
    to the operation and not to a common oracle, so that they are the same whatever else runs.) *)
Definition with_throws (E : env) (f : nat -> bool) : env :=
  Env (e_ty E) (e_soos E) (e_always_eq E) (e_pocma E) (e_pocca E) (e_socc E) (e_copy_req_alloc E) (e_def_alloc E) (e_meth E) f.
Definition failing (E : env) (f : nat -> bool) (w : world) : env := with_throws E (fun k => f (k - w_tick w)).

(** what was done since (the log has the newest event first) *)
Definition deeds (w w' : world) : list deed := map deed_of (take (length (w_log w') - length (w_log w)) (w_log w')).

(** run the operations one after another, catching exceptions; the results tell of each whether it threw and what it did *)
Fixpoint trace (E : env) (l : list ((nat -> bool) * op)) (w : world) : res (list (bool * list deed)) :=
  match l with
  | [] => Ok [] w
  | (f, o) :: tl =>
      match run (failing E f w) o w with
      | Ok _ w' => match trace E tl w' with Ok t w'' => Ok ((false, deeds w w') :: t) w'' | r => r end
      | Exn w' => match trace E tl w' with Ok t w'' => Ok ((true, deeds w w') :: t) w'' | r => r end
      | UB r => UB r
      | Term => Term
      end
  end.

(** [l] is the operations of [l1] and [l2] in some order that keeps each program's own order; [s] tells whose turn it was *)
Inductive interleaved {A} : list A -> list A -> list bool -> list A -> Prop :=
| il_nil : interleaved [] [] [] []
| il_left x l1 l2 s l : interleaved l1 l2 s l -> interleaved (x :: l1) l2 (true :: s) (x :: l)
| il_right x l1 l2 s l : interleaved l1 l2 s l -> interleaved l1 (x :: l2) (false :: s) (x :: l).

(** the references of [R] refer to values of anys of [S], anys of [S] use no vtable in other references *)
Definition refs_within (S R : gset nat) (w : world) : Prop :=
  (forall r s, r ∈ R -> w_sref w !! r = Some s ->
     match sr_ptr s with PData j => j ∈ S | PHeap b => exists i, i ∈ S /\ owns w i b end) /\
  (forall i a v, i ∈ S -> w_any w !! i = Some a -> a_vt a = Some v -> home_in R v).

(** [l] names only anys of [S] and references of [R], and changes only those of [W] and [X] *)
Definition stays_in (S R W X : gset nat) (l : list ((nat -> bool) * op)) : Prop :=
  forall f o, In (f, o) l -> names o ⊆ S /\ refs o ⊆ R /\ changes o ⊆ W /\ ref_changes o ⊆ X.
