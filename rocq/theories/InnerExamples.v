(** Programs for the examples of C92. *)
From stdpp Require Import gmap list.
From Verif Require Import InnerModel InnerSpec.

(** std::pmr::polymorphic_allocator with a buffer of 8 bytes: nothing propagates, copies get the default resource 0.
    Type 0 is std::pmr::list<int>, type 1 std::list<int>, type 2 a small type that uses the allocator *)
Definition pmr : env := Env 8 (fun T => if T =? 2 then 8 else 32) (fun _ => true) (fun T => negb (T =? 1)) false false false (fun _ => 0) true 0.
(** an allocator that is moved along by move assignments *)
Definition pmr_moving : env := Env 8 (e_size pmr) (e_small pmr) (e_aware pmr) false true true (fun al => al) true 0.
(** one that copies keep and assignments do not *)
Definition pmr_staying : env := Env 8 (e_size pmr) (e_small pmr) (e_aware pmr) false false false (fun al => al) true 0.

Definition hasb (w : world) (i : nat) (P : any -> bool) : bool := match w_any w !! i with Some a => P a | None => false end.
Definition newb (w : world) (i : nat) : bool := match w_any w !! i with Some _ => false | None => true end.
Definition contractb (E : env) (w : world) (o : op) : bool :=
  match o with
  | ODefault i al | OValue i al _ => newb w i && alive E w al
  | OForce i _ => newb w i && alive E w (e_def_alloc E)
  | OCopy i j => newb w i && hasb w j (fun a => alive E w (e_socc E (a_alloc a)))
  | OMove i j => newb w i && hasb w j (fun _ => true)
  | OTransMove i j => newb w i && hasb w j (fun _ => true) && alive E w (e_def_alloc E)
  | OMoveAssign i j => hasb w i (fun _ => true) && hasb w j (fun _ => true)
  | OCopyAssign i j t => newb w t && hasb w i (fun _ => true) && hasb w j (fun a => alive E w (e_socc E (a_alloc a)))
  | OSwap i j t => newb w t && hasb w i (fun _ => true) && hasb w j (fun _ => true)
  | OEmplace i _ | OReset i | ODestroy i | OReplace i _ | ODtor i | OTouch i => hasb w i (fun _ => true)
  | ODrop r => forallb (fun p => negb (a_alloc p.2 =? r)) (map_to_list (w_any w))
  end.
Definition plainb (E : env) (a : any) : bool :=
  match a_val a with
  | Some v => match v_res v with None => match a_mem a with None => true | Some _ => negb (e_soos E =? 0) end | Some _ => false end
  | None => true
  end.
Definition togetherb (E : env) (a b : nat) : bool := alloc_eqb E a b || e_pocma E.
Definition agreeingb (E : env) (w : world) (o : op) : bool :=
  match o with
  | OTransMove i j => hasb w j (fun b => alloc_eqb E (e_def_alloc E) (a_alloc b) || match a_val b with None => true | _ => false end)
  | OMoveAssign i j => (i =? j) || hasb w i (fun a => hasb w j (fun b => togetherb E (a_alloc a) (a_alloc b) || plainb E b))
  | OCopyAssign i j t => hasb w i (fun a => hasb w j (fun b => togetherb E (copy_target E a b) (e_socc E (a_alloc b))))
  | OSwap i j t => (i =? j) || hasb w i (fun a => hasb w j (fun b => togetherb E (a_alloc a) (a_alloc b) || (plainb E a && plainb E b)))
  | _ => true
  end.
Fixpoint meetsb (E : env) (P : world -> op -> bool) (l : list op) (w : world) : bool :=
  match l with
  | [] => true
  | o :: l => P w o && match run E o w with Ok _ w' => meetsb E P l w' | UB _ => true end
  end.

Lemma hasb_sound w i P (Q : any -> Prop) : (forall a, P a = true -> Q a) -> hasb w i P = true -> has w i Q.
Proof. intros H. unfold hasb, has. destruct (w_any w !! i) as [a|]; [|done]. intros Ha. exists a. auto. Qed.
Lemma newb_sound w i : newb w i = true -> w_any w !! i = None.
Proof. unfold newb. by destruct (w_any w !! i). Qed.
Lemma alive_sound E w al : alive E w al = true -> there E w al.
Proof. unfold alive, there. rewrite orb_true_iff, bool_decide_eq_true. done. Qed.
Lemma eqb_sound E a b : alloc_eqb E a b = true -> same E a b.
Proof. unfold alloc_eqb, same. rewrite orb_true_iff, Nat.eqb_eq. done. Qed.
Lemma togetherb_sound E a b : togetherb E a b = true -> together E a b.
Proof. unfold togetherb, together. rewrite orb_true_iff. intros [H|H]; [left; by apply eqb_sound|by right]. Qed.
Lemma plainb_sound E a : plainb E a = true -> plain E a.
Proof.
  unfold plainb, plain. intros H v Hv. rewrite Hv in H. destruct (v_res v); [done|]. split; [done|]. destruct (a_mem a); [|by left].
  right. apply negb_true_iff, Nat.eqb_neq in H. done.
Qed.
Lemma contractb_sound E w o : contractb E w o = true -> contract E w o.
Proof.
  assert (Ht : forall i, hasb w i (fun _ => true) = true -> has w i (fun _ => True)) by (intros i; by apply hasb_sound).
  assert (Hc : forall i, hasb w i (fun a => alive E w (e_socc E (a_alloc a))) = true -> has w i (fun a => there E w (e_socc E (a_alloc a)))).
  { intros i. apply hasb_sound. intros a. apply alive_sound. }
  destruct o; cbn; rewrite ?andb_true_iff; intros H; try (by apply Ht); repeat match goal with H : _ /\ _ |- _ => destruct H end;
    try (repeat split; auto using newb_sound, alive_sound; fail).
  intros i a Hi. rewrite forallb_forall in H. specialize (H (i, a)). cbn in H. apply Nat.eqb_neq, negb_true_iff, H.
  apply elem_of_list_In, elem_of_map_to_list, Hi.
Qed.
Lemma agreeingb_sound E w o : agreeingb E w o = true -> agreeing E w o.
Proof.
  destruct o as [| | | | |i j|i j|i j t|i j t| | | | | | |]; cbn; try done.
  - apply hasb_sound. intros a. rewrite orb_true_iff. intros [H|H]; [left; by apply eqb_sound|right]. unfold plain. destruct (a_val a); [done|]. split; [done|by left].
  - rewrite orb_true_iff. intros [H|H]; [left; by apply Nat.eqb_eq|right]. revert H. apply hasb_sound. intros a. apply hasb_sound. intros b. rewrite orb_true_iff.
    intros [H|H]; [left; by apply togetherb_sound|right; by apply plainb_sound].
  - apply hasb_sound. intros a. apply hasb_sound. intros b H. left. by apply togetherb_sound.
  - rewrite orb_true_iff. intros [H|H]; [left; by apply Nat.eqb_eq|right]. revert H. apply hasb_sound. intros a. apply hasb_sound. intros b. rewrite orb_true_iff, andb_true_iff.
    intros [H|[H1 H2]]; [left; by apply togetherb_sound|right; split; by apply plainb_sound].
Qed.
Lemma meetsb_sound E P (Q : world -> op -> Prop) l w : (forall w o, P w o = true -> Q w o) -> meetsb E P l w = true -> meets E Q l w.
Proof.
  intros HPQ. revert w. induction l as [|o l IH]; intros w; [done|]. cbn. rewrite andb_true_iff. intros [H1 H2]. split; [by apply HPQ|].
  intros w' Hw'. rewrite Hw' in H2. by apply IH.
Qed.

(** tests/test_anyany.cpp 437-451 and then the end of the first resource: [b = std::move(a)] *)
Definition moved_away : list op := [ODefault 0 1; OEmplace 0 0; ODefault 1 2; OMoveAssign 1 0; ODtor 0; ODrop 1; ODtor 1].
(** the same with a copy, and with a conversion to fewer methods *)
Definition copied_away : list op := [ODefault 0 1; OEmplace 0 0; ODefault 1 2; OCopyAssign 1 0 9; ODtor 0; ODrop 1; ODtor 1].
Definition converted_away : list op := [ODefault 0 1; OEmplace 0 2; OTransMove 1 0; ODtor 0; ODrop 1; OTouch 1].
(** a program that stays within the conditions *)
Definition kept_together : list op :=
  [ODefault 0 1; OEmplace 0 0; OCopy 1 0; ODefault 2 1; OMoveAssign 2 0; OMove 3 2; OValue 4 2 1; OSwap 4 3 9; OCopyAssign 1 4 9; OForce 5 2;
   OReplace 5 50; OEmplace 5 2; ODtor 2; OTouch 4; OReset 4; OEmplace 4 0; ODtor 0; ODtor 3; ODtor 4; OTouch 1; OTouch 5].
