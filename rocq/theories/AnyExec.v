(** Programs as lists of operations, and a checker for the caller's obligations (used by the examples). *)
From stdpp Require Import gmap list.
From Verif Require Import TypeListModel TypeListSpec TypeListProofs AnyModel AnyInv AnySteps AnyOps AnyMove
  AnyLife AnyAssign AnyRefs AnyHistory.

(** run the operations one after another; an exception is caught by the caller, who goes on *)
Fixpoint exec (E : env) (l : list op) (w : world) : res unit :=
  match l with
  | [] => Ok tt w
  | o :: tl => match run E o w with
               | Ok _ w' => exec E tl w'
               | Exn w' => exec E tl w'
               | UB r => UB r
               | Term => Term
               end
  end.

(** the caller meets the obligations of every operation when it is called *)
Fixpoint allowed (E : env) (l : list op) (w : world) : Prop :=
  match l with
  | [] => True
  | o :: tl => pre E w o /\ match run E o w with Ok _ w' => allowed E tl w' | Exn w' => allowed E tl w' | _ => True end
  end.
(** ... and the allocators are such that memory is not taken over by an any with another allocator *)
Fixpoint allowed_alloc (E : env) (l : list op) (w : world) : Prop :=
  match l with
  | [] => True
  | o :: tl => pre E w o /\ alloc_safe E w o /\
      match run E o w with Ok _ w' => allowed_alloc E tl w' | Exn w' => allowed_alloc E tl w' | _ => True end
  end.

Lemma run_unit (r : res unit) : match r with Ok u w => r = Ok tt w | _ => True end.
Proof. by destruct r as [[]| | |]. Qed.

Lemma exec_reachable E l w w' : reachable E w -> allowed_alloc E l w -> exec E l w = Ok tt w' -> reachable E w'.
Proof.
  revert w. induction l as [|o tl IH]; intros w Hr Ha He; cbn in *.
  - by injection He as <-.
  - destruct Ha as (Hp & Hs & Ha). destruct (run E o w) as [[] w1|w1| |] eqn:Hrun; try done.
    + eapply IH; [by eapply reach_ok|done|done].
    + eapply IH; [by eapply reach_exn|done|done].
Qed.
Lemma reachable_exec E w : reachable E w -> exists l, allowed_alloc E l init_world /\ exec E l init_world = Ok tt w.
Proof.
  assert (Happ : forall l1 l2 w w1, allowed_alloc E l1 w -> exec E l1 w = Ok tt w1 -> allowed_alloc E l2 w1 ->
     allowed_alloc E (l1 ++ l2) w /\ exec E (l1 ++ l2) w = exec E l2 w1).
  { induction l1 as [|o tl IH]; intros l2 w0 w1 Ha He H2; cbn in *; [by injection He as <-|].
    destruct Ha as (Hp & Hs & Ha). destruct (run E o w0) as [u w2|w2| |]; try done.
    - destruct (IH l2 w2 w1 Ha He H2). eauto.
    - destruct (IH l2 w2 w1 Ha He H2). eauto. }
  induction 1 as [|w o w' _ (l & Ha & He) Hp Hs Hr|w o w' _ (l & Ha & He) Hp Hs Hr].
  - by exists [].
  - exists (l ++ [o]). destruct (Happ l [o] init_world w Ha He) as [H1 H2].
    + cbn. rewrite Hr. done.
    + split; [done|]. rewrite H2. cbn. by rewrite Hr.
  - exists (l ++ [o]). destruct (Happ l [o] init_world w Ha He) as [H1 H2].
    + cbn. rewrite Hr. done.
    + split; [done|]. rewrite H2. cbn. by rewrite Hr.
Qed.

(** with interchangeable allocators every operation is fine in this respect *)
Lemma always_alloc_safe E w o : e_always_eq E = true -> pre E w o -> alloc_safe E w o.
Proof.
  intros He Hp. destruct o; cbn in *; try done.
  - destruct Hp as (_ & _ & a & Ha & _). exists a. split; [done|]. right; right. unfold alloc_eqb. by rewrite He.
  - destruct Hp as (a & Ha & b & Hb & _). exists a. split; [done|]. exists b. split; [done|]. right; right; left.
    unfold compat. by rewrite He.
  - destruct Hp as (_ & a & Ha & b & Hb & _). exists a. split; [done|]. exists b. split; [done|]. right; left.
    unfold copy_compat. by rewrite He.
  - destruct Hp as (_ & a & Ha & b & Hb & _). exists a. split; [done|]. exists b. split; [done|]. right; left.
    unfold compat. by rewrite He.
Qed.
Lemma always_allowed E l w : e_always_eq E = true -> allowed E l w -> allowed_alloc E l w.
Proof.
  intros He. revert w. induction l as [|o tl IH]; intros w; cbn; [done|]. intros [Hp Ha].
  split; [done|]. split; [by apply always_alloc_safe|]. destruct (run E o w); eauto.
Qed.

(** with a buffer, the only dangerous operation is the converting move *)
Definition converting_move (o : op) : bool := match o with OTransMove _ _ _ => true | _ => false end.
Lemma buffer_alloc_safe E w o : e_soos E <> 0 -> converting_move o = false -> pre E w o -> alloc_safe E w o.
Proof.
  intros He Hc Hp. destruct o; cbn in *; try done.
  - destruct Hp as (a & Ha & b & Hb & _). exists a. split; [done|]. exists b. split; [done|]. right; right; right; by left.
  - destruct Hp as (_ & a & Ha & b & Hb & _). exists a. split; [done|]. exists b. split; [done|]. by right; right.
  - destruct Hp as (_ & a & Ha & b & Hb & _). exists a. split; [done|]. exists b. split; [done|]. by right; right.
Qed.
Lemma buffer_allowed E l w : e_soos E <> 0 -> forallb (fun o => negb (converting_move o)) l = true ->
  allowed E l w -> allowed_alloc E l w.
Proof.
  intros He. revert w. induction l as [|o tl IH]; intros w Hc; cbn; [done|]. cbn in Hc. apply andb_prop in Hc as [Hc Hc'].
  apply negb_true_iff in Hc. intros [Hp Ha]. split; [done|]. split; [by apply buffer_alloc_safe|].
  destruct (run E o w); eauto.
Qed.

(** no undefined behaviour on the way *)
Lemma exec_safe E l w r : env_wf E -> reachable E w -> allowed_alloc E l w -> exec E l w <> UB r.
Proof.
  intros Hwf. revert w. induction l as [|o tl IH]; intros w Hr Ha; cbn in *; [done|].
  destruct Ha as (Hp & Hs & Ha).
  pose proof (step_safe E w o Hwf (reachable_inv _ _ Hwf Hr) Hp Hs) as H. unfold wp in H.
  destruct (run E o w) as [[] w1|w1| |] eqn:Hrun; try done.
  - apply IH; [by eapply reach_ok|done].
  - apply IH; [by eapply reach_exn|done].
Qed.

(** ** A sound checker for [allowed_alloc] *)
Definition inb (m : method) (ms : list method) : bool := bool_decide (m ∈ ms).
Fixpoint prefixb (xs ys : list method) : bool :=
  match xs, ys with
  | [], _ => true
  | x :: xs, y :: ys => meqb x y && prefixb xs ys
  | _, _ => false
  end.
Fixpoint contigb (xs ys : list method) : bool :=
  prefixb xs ys || match ys with [] => false | _ :: tl => contigb xs tl end.
Definition anyb (w : world) (i : nat) (f : any -> bool) : bool :=
  match w_any w !! i with Some a => f a | None => false end.
Definition holdsb (w : world) (i : nat) : option nat :=
  match content w i with Some (Some (T, _)) => Some T | _ => None end.
Definition noneb {A} (o : option A) : bool := match o with None => true | Some _ => false end.
Definition someb {A} (o : option A) : bool := match o with None => false | Some _ => true end.
Definition arg_okb (w : world) (i T : nat) (s : arg) : bool :=
  match s with AVal _ => true | AFrom k => negb (k =? i) && bool_decide (holdsb w k = Some T) end.
Definition refb (w : world) (x : refsrc) : option (list method * nat) :=
  match x with
  | RAny j ms => match holdsb w j with
                 | Some T => if anyb w j (fun a => contigb ms (a_ms a)) then Some (ms, T) else None
                 | None => None end
  | RSref r => match w_sref w !! r with
               | Some s => match obj_at w (sr_ptr s) with
                           | Some o => if bool_decide (sr_tab s = map (fun m => (o_ty o, m)) (sr_ms s))
                                       then Some (sr_ms s, o_ty o) else None
                           | None => None end
               | None => None end
  end.
Definition preb (E : env) (w : world) (o : op) : bool :=
  match o with
  | ODefault i al ms => noneb (w_any w !! i) && inb MDestroy ms
  | OValue i al ms T s nt => noneb (w_any w !! i) && inb MDestroy ms && (ty_align (e_ty E T) <=? max_align) && arg_okb w i T s
  | OForce i ms T s nt => noneb (w_any w !! i) && inb MDestroy ms && (ty_align (e_ty E T) <=? max_align) && arg_okb w i T s
  | OCopy i j ms => noneb (w_any w !! i) && inb MDestroy ms &&
      anyb w j (fun a => contigb ms (a_ms a) && inb (MCopy true) (a_ms a))
  | OMove i j => noneb (w_any w !! i) && anyb w j (fun a => has_move E (a_ms a))
  | OTransMove i j ms => noneb (w_any w !! i) && inb MDestroy ms &&
      anyb w j (fun a => contigb ms (a_ms a) && has_move_ms (a_ms a))
  | OMoveAssign i j => anyb w i (fun a => anyb w j (fun b => bool_decide (a_ms a = a_ms b) && has_move_assign E (a_ms b)))
  | OCopyAssign i j t => noneb (w_any w !! t) &&
      anyb w i (fun a => anyb w j (fun b => bool_decide (a_ms a = a_ms b) && inb (MCopy true) (a_ms b)))
  | OSwap i j t => noneb (w_any w !! t) &&
      anyb w i (fun a => anyb w j (fun b => bool_decide (a_ms a = a_ms b) && has_move_assign E (a_ms b)))
  | OEmplace i T s nt => anyb w i (fun _ => true) && (ty_align (e_ty E T) <=? max_align) && arg_okb w i T s
  | OReset i | ODestroy i | OReplace i _ | ODtor i => anyb w i (fun _ => true)
  | OInvoke i n _ => anyb w i (fun a => inb (MUser n) (a_ms a)) && someb (holdsb w i)
  | OSref r j ms => noneb (w_sref w !! r) && anyb w j (fun a => forallb (fun m => inb m (a_ms a)) ms) && someb (holdsb w j)
  | ODropSref r => forallb (fun x => match a_vt (snd x) with Some v => bool_decide (vp_home v <> Some r) | None => true end) (map_to_list (w_any w))
  | OMaterialize i al x => noneb (w_any w !! i) && negb (e_copy_req_alloc E) &&
      match refb w x with
      | Some (ms, T) => inb MDestroy ms && inb (MCopy true) ms && (ty_align (e_ty E T) <=? max_align) &&
          (ty_tdestr (e_ty E T) || (fits E T && ty_ntcopy (e_ty E T)))
      | None => false
      end
  end.

Lemma noneb_true {A} (o : option A) : noneb o = true -> o = None. Proof. by destruct o. Qed.
Lemma inb_true m ms : inb m ms = true -> In m ms.
Proof. unfold inb. rewrite bool_decide_eq_true. apply elem_of_list_In. Qed.
Lemma prefixb_true xs ys : prefixb xs ys = true -> exists tl, ys = xs ++ tl.
Proof.
  revert ys. induction xs as [|x xs IH]; intros ys; cbn; [by exists ys|]. destruct ys as [|y ys]; [done|].
  intros [H1 H2]%andb_prop. unfold meqb in H1. apply bool_decide_eq_true in H1 as ->. destruct (IH _ H2) as [tl ->]. by exists tl.
Qed.
Lemma contigb_true xs ys : contigb xs ys = true -> contiguous xs ys.
Proof.
  intros H. cut (exists p s, ys = p ++ xs ++ s).
  { intros (p & s & ->). exists (length p). exists p, s. done. }
  revert H. induction ys as [|y ys IH]; cbn.
  - rewrite orb_false_r. intros (tl & H)%prefixb_true. by exists [], tl.
  - intros [(tl & H)%prefixb_true|(p & s & H)%IH]%orb_prop; [by exists [], tl|]. exists (y :: p), s. cbn. by rewrite H.
Qed.
Lemma anyb_true w i f : anyb w i f = true -> exists a, w_any w !! i = Some a /\ f a = true.
Proof. unfold anyb. destruct (w_any w !! i); [|done]. by eexists. Qed.
Lemma holdsb_true w i T : holdsb w i = Some T -> holds w i T.
Proof. unfold holdsb, holds. destruct (content w i) as [[[T' x]|]|]; try done. intros [= ->]. by exists x. Qed.
Lemma arg_okb_true w i T s : arg_okb w i T s = true -> arg_ok w i T s.
Proof.
  destruct s as [v|k]; cbn; [done|]. intros [H1 H2]%andb_prop. apply bool_decide_eq_true in H2.
  split; [|by apply holdsb_true]. apply negb_true_iff, Nat.eqb_neq in H1. done.
Qed.
Lemma refb_true w x ms T : refb w x = Some (ms, T) -> denotes w x ms T.
Proof.
  destruct x as [j ms'|r]; cbn.
  - destruct (holdsb w j) as [T'|] eqn:Hh; [|done]. destruct (anyb w j _) eqn:Ha; [|done]. intros [= -> ->].
    split; [done|]. split; [|by apply holdsb_true]. apply anyb_true in Ha as (a & Ha & Hc). exists a. eauto using contigb_true.
  - destruct (w_sref w !! r) as [s|]; [|done]. destruct (obj_at w (sr_ptr s)) as [o|] eqn:Ho; [|done].
    destruct (bool_decide _) eqn:Hb; [|done]. apply bool_decide_eq_true in Hb. intros [= <- <-].
    exists s, (o_val o), (o_id o). destruct o. done.
Qed.

Ltac btrue := repeat match goal with
  | H : _ && _ = true |- _ => apply andb_prop in H as [? ?]
  | H : noneb _ = true |- _ => apply noneb_true in H
  | H : inb _ _ = true |- _ => apply inb_true in H
  | H : contigb _ _ = true |- _ => apply contigb_true in H
  | H : arg_okb _ _ _ _ = true |- _ => apply arg_okb_true in H
  | H : (_ <=? _) = true |- _ => apply Nat.leb_le in H
  | H : anyb _ _ _ = true |- _ => apply anyb_true in H as (? & ? & ?)
  | H : bool_decide _ = true |- _ => apply bool_decide_eq_true in H
  end.

Lemma preb_sound E w o : preb E w o = true -> pre E w o.
Proof.
  destruct o; cbn [preb pre]; intros H; btrue; unfold has_any; try match goal with |- context [denotes] => fail 1 | _ => solve [eauto 12] end.
  - destruct (holdsb w i) as [T|] eqn:Hh; [|done]. split; [eauto|]. exists T. by apply holdsb_true.
  - destruct (holdsb w j) as [T|] eqn:Hh; [|done]. split; [done|]. split.
    + eexists; split; [done|]. intros m Hm. rewrite forallb_forall in *. apply inb_true. auto.
    + exists T. by apply holdsb_true.
  - intros i a v Ha Hv. rewrite forallb_forall in H. specialize (H (i, a)). cbn in H. rewrite Hv, bool_decide_eq_true in H.
    apply H, elem_of_list_In. by apply elem_of_map_to_list.
  - split; [done|]. split; [by apply negb_true_iff|]. destruct (refb w x) as [[ms T]|] eqn:Hr; [|done]. btrue. apply refb_true in Hr. exists ms, T.
    repeat (split; [done|]). match goal with H : _ || _ = true |- _ => apply orb_prop in H as [?|?] end; [by left|by right].
Qed.

Definition alloc_safeb (E : env) (w : world) (o : op) : bool :=
  match o with
  | OTransMove i j ms => anyb w j (fun a => noneb (a_vt a) || bool_decide (a_vp a = PData j) || alloc_eqb E (e_def_alloc E) (a_alloc a))
  | OMoveAssign i j => anyb w i (fun a => anyb w j (fun b => (i =? j) || noneb (a_vt b) || compat E a b || negb (e_soos E =? 0)))
  | OCopyAssign i j t => anyb w i (fun a => anyb w j (fun b => noneb (a_vt b) || copy_compat E a b || negb (e_soos E =? 0)))
  | OSwap i j t => anyb w i (fun a => anyb w j (fun b => (i =? j) || compat E a b || negb (e_soos E =? 0)))
  | _ => true
  end.
Lemma alloc_safeb_sound E w o : alloc_safeb E w o = true -> alloc_safe E w o.
Proof.
  destruct o; cbn [alloc_safeb alloc_safe]; intros H; btrue; unfold has_any; try done.
  - eexists; split; [done|]. apply orb_prop in H0 as [[?%noneb_true|?%bool_decide_eq_true]%orb_prop|?]; eauto.
  - eexists; split; [done|]. eexists; split; [done|].
    apply orb_prop in H1 as [[[?%Nat.eqb_eq|?%noneb_true]%orb_prop|?]%orb_prop|?%negb_true_iff%Nat.eqb_neq]; eauto.
  - eexists; split; [done|]. eexists; split; [done|].
    apply orb_prop in H1 as [[?%noneb_true|?]%orb_prop|?%negb_true_iff%Nat.eqb_neq]; eauto.
  - eexists; split; [done|]. eexists; split; [done|].
    apply orb_prop in H1 as [[?%Nat.eqb_eq|?]%orb_prop|?%negb_true_iff%Nat.eqb_neq]; eauto.
Qed.

Fixpoint allowedb (E : env) (l : list op) (w : world) : bool :=
  match l with
  | [] => true
  | o :: tl => preb E w o && alloc_safeb E w o &&
      match run E o w with Ok _ w' => allowedb E tl w' | Exn w' => allowedb E tl w' | _ => true end
  end.
Lemma allowedb_sound E l w : allowedb E l w = true -> allowed_alloc E l w.
Proof.
  revert w. induction l as [|o tl IH]; intros w; cbn; [done|]. intros H. btrue.
  split; [by apply preb_sound|]. split; [by apply alloc_safeb_sound|]. destruct (run E o w); eauto.
Qed.
Lemma allowed_forget E l w : allowed_alloc E l w -> allowed E l w.
Proof. revert w. induction l as [|o tl IH]; intros w; cbn; [done|]. intros (? & _ & H). split; [done|]. destruct (run E o w); eauto. Qed.

(** states reached by checked programs *)
Lemma reached E l w : allowedb E l init_world = true -> exec E l init_world = Ok tt w -> reachable E w.
Proof. intros Ha He. eapply exec_reachable; [apply reach_init|by apply allowedb_sound|done]. Qed.
