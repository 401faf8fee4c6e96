(** What is asked of programs that keep allocator-aware values in anys (C92). *)
From stdpp Require Import gmap list.
From Verif Require Import InnerModel.

(** allocators that are always equal have no state; those for which copies use Alloc{} are such (D 250-253) *)
Definition stateless_copies (E : env) : Prop := e_copy_req_alloc E = false -> e_always_eq E = true.

Definition has (w : world) (i : nat) (P : any -> Prop) : Prop := exists a, w_any w !! i = Some a /\ P a.
(** a resource still there *)
Definition there (E : env) (w : world) (al : nat) : Prop := e_always_eq E = true \/ al ∉ w_dead w.
Definition same (E : env) (a b : nat) : Prop := e_always_eq E = true \/ a = b.

(** The user's side: names are used properly, anys are made with resources that are there, and a resource outlives every any
    whose get_allocator() is it. *)
Definition contract (E : env) (w : world) (o : op) : Prop :=
  match o with
  | ODefault i al | OValue i al _ => w_any w !! i = None /\ there E w al
  | OForce i _ => w_any w !! i = None /\ there E w (e_def_alloc E)
  | OCopy i j => w_any w !! i = None /\ has w j (fun a => there E w (e_socc E (a_alloc a)))
  | OMove i j => w_any w !! i = None /\ has w j (fun _ => True)
  | OTransMove i j => w_any w !! i = None /\ has w j (fun _ => True) /\ there E w (e_def_alloc E)
  | OMoveAssign i j => has w i (fun _ => True) /\ has w j (fun _ => True)
  | OCopyAssign i j t => w_any w !! t = None /\ has w i (fun _ => True) /\ has w j (fun a => there E w (e_socc E (a_alloc a)))
  | OSwap i j t => w_any w !! t = None /\ has w i (fun _ => True) /\ has w j (fun _ => True)
  | OEmplace i _ | OReset i | ODestroy i | OReplace i _ | ODtor i | OTouch i => has w i (fun _ => True)
  | ODrop r => forall i a, w_any w !! i = Some a -> a_alloc a <> r
  end.

(** a value that uses no allocator, in the buffer or in memory that is not taken over *)
Definition plain (E : env) (a : any) : Prop :=
  forall v, a_val a = Some v -> v_res v = None /\ (a_mem a = None \/ e_soos E <> 0).
(** allocators equal, or moved along by assignments *)
Definition together (E : env) (a b : nat) : Prop := same E a b \/ e_pocma E = true.
(** the target's allocator when the copy is moved into it: A 1255-1261 *)
Definition copy_target (E : env) (a o : any) : nat := if e_pocca E then a_alloc o else a_alloc a.
(** the operations that leave a value with the allocator of another any: excluded in the theorem for all programs *)
Definition agreeing (E : env) (w : world) (o : op) : Prop :=
  match o with
  | OTransMove i j => has w j (fun b => same E (e_def_alloc E) (a_alloc b) \/ (plain E b /\ (a_val b = None \/ a_mem b = None)))
  | OMoveAssign i j => i = j \/ has w i (fun a => has w j (fun b => together E (a_alloc a) (a_alloc b) \/ plain E b))
  | OCopyAssign i j t => has w i (fun a => has w j (fun b =>
      together E (copy_target E a b) (e_socc E (a_alloc b)) \/
      (forall v, a_val b = Some v -> v_res v = None /\ e_soos E <> 0)))
  | OSwap i j t => i = j \/ has w i (fun a => has w j (fun b => together E (a_alloc a) (a_alloc b) \/ (plain E a /\ plain E b)))
  | _ => True
  end.

Fixpoint meets (E : env) (P : world -> op -> Prop) (l : list op) (w : world) : Prop :=
  match l with
  | [] => True
  | o :: l => P w o /\ forall w', run E o w = Ok tt w' -> meets E P l w'
  end.

(** a value and its any use the same resource *)
Definition agree (E : env) (w : world) : Prop :=
  forall i a v r, w_any w !! i = Some a -> a_val a = Some v -> v_res v = Some r -> same E (a_alloc a) r.
(** every resource a value uses is there *)
Definition supplied (E : env) (w : world) : Prop :=
  forall i a v r, w_any w !! i = Some a -> a_val a = Some v -> v_res v = Some r -> there E w r.

(** the value in an any, get_allocator() *)
Definition value_of (w : world) (i : nat) : option value := match w_any w !! i with Some a => a_val a | None => None end.
Definition alloc_of (w : world) (i : nat) : option nat := a_alloc <$> w_any w !! i.
(** operations that build a T in any i; that move or copy the value of any j there *)
Definition builds (o : op) (i T : nat) : Prop := (exists al, o = OValue i al T) \/ o = OForce i T \/ o = OEmplace i T.
Definition moves (o : op) (i j : nat) : Prop := o = OMove i j \/ o = OTransMove i j \/ o = OMoveAssign i j.
Definition copies (o : op) (i j : nat) : Prop := o = OCopy i j \/ exists t, o = OCopyAssign i j t /\ t <> i.
