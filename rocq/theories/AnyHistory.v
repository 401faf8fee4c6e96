(** Histories: sequences of public operations on any number of anys, with the conditions a caller must
    meet for each of them. *)
From stdpp Require Import gmap list.
From Verif Require Import TypeListModel TypeListSpec TypeListProofs AnyModel AnyInv AnySteps AnyOps AnyMove
  AnyLife AnyAssign AnyRefs.

(** constructor argument: an ordinary value, or a reference to the value held by any [k] *)
Inductive arg : Set := AVal (v : nat) | AFrom (k : nat).

Inductive op : Type :=
| ODefault (i al : nat) (ms : list method)                            (* any_with a; any_with a(allocator_arg, al) *)
| OValue (i al : nat) (ms : list method) (T : nat) (s : arg) (nt : bool)  (* any_with a = v; a(in_place_type<T>, args) *)
| OForce (i : nat) (ms : list method) (T : nat) (s : arg) (nt : bool) (* any_with a(force_stable_pointers, v) *)
| OCopy (i j : nat) (ms : list method)                                (* copy / converting copy construction *)
| OMove (i j : nat)
| OTransMove (i j : nat) (ms : list method)                           (* converting move construction *)
| OMoveAssign (i j : nat)
| OCopyAssign (i j t : nat)                                           (* [t] names the temporary *)
| OSwap (i j t : nat)
| OEmplace (i T : nat) (s : arg) (nt : bool)                          (* a.emplace<T>(args), a = v *)
| OReset (i : nat)
| ODestroy (i : nat)                                                  (* a.destroy_value() *)
| OReplace (i n : nat)                                                (* a.replace_with_bytes(n) *)
| OInvoke (i n arg : nat)
| ODtor (i : nat)
| OSref (r j : nat) (ms : list method)                                (* stateful::ref<ms> r(a) *)
| ODropSref (r : nat)
| OMaterialize (i al : nat) (x : refsrc).

Definition eval_arg (s : arg) : M src :=
  match s with AVal v => retM (SVal v) | AFrom k => let! a := get_any k in retM (SRef (a_vp a)) end.

Definition run (E : env) (o : op) : M unit :=
  match o with
  | ODefault i al ms => default_ctor i al ms
  | OValue i al ms T s nt => let! x := eval_arg s in value_ctor E i al ms T x nt
  | OForce i ms T s nt => let! x := eval_arg s in force_ctor E i ms T x nt
  | OCopy i j ms => copy_ctor E i j ms
  | OMove i j => move_ctor E i j
  | OTransMove i j ms => trans_move_ctor E i j ms
  | OMoveAssign i j => move_assign E i j
  | OCopyAssign i j t => copy_assign E i j t
  | OSwap i j t => swap_any E i j t
  | OEmplace i T s nt => let! x := eval_arg s in emplace E i T x nt
  | OReset i => reset E i
  | ODestroy i => destroy_value E i
  | OReplace i n => replace_with_bytes E i n
  | OInvoke i n x => invoke E i n x ;;; retM tt
  | ODtor i => dtor E i
  | OSref r j ms => new_sref r j ms
  | ODropSref r => drop_sref r
  | OMaterialize i al x => materialize E i al x
  end.

Definition has_any (w : world) (i : nat) (P : any -> Prop) : Prop := exists a, w_any w !! i = Some a /\ P a.
Definition holds (w : world) (i T : nat) : Prop := exists x, content w i = Some (Some (T, x)).

Definition arg_ok (w : world) (i T : nat) (s : arg) : Prop :=
  match s with AVal _ => True | AFrom k => k <> i /\ holds w k T end.

(** a reference (with method list [ms]) to a live T: made from a non-empty any, or a stateful one *)
Definition denotes (w : world) (x : refsrc) (ms : list method) (T : nat) : Prop :=
  match x with
  | RAny j ms' => ms' = ms /\ has_any w j (fun a => contiguous ms (a_ms a)) /\ holds w j T
  | RSref r => exists s v id, w_sref w !! r = Some s /\ sr_ms s = ms /\ sr_tab s = map (fun m => (T, m)) ms /\
                 obj_at w (sr_ptr s) = Some (Obj T v id)
  end.

(** What the language and the library's documentation ask of the caller: objects named are alive (or not
    yet, for construction), the interfaces contain the needed methods, invoked objects are not empty.
    Beyond that, three restrictions keep out behaviours that are shown to be defective elsewhere:
    types are not over-aligned (C20), an argument does not refer to the value about to be replaced (C21),
    materialize is used with allocators without state, copies a type whose copy cannot throw or that needs no
    destructor, and the stateful reference it was made from outlives the result (C18). *)
Definition pre (E : env) (w : world) (o : op) : Prop :=
  match o with
  | ODefault i al ms => w_any w !! i = None /\ In MDestroy ms
  | OValue i al ms T s nt => w_any w !! i = None /\ In MDestroy ms /\ ty_align (e_ty E T) <= max_align /\ arg_ok w i T s
  | OForce i ms T s nt => w_any w !! i = None /\ In MDestroy ms /\ ty_align (e_ty E T) <= max_align /\ arg_ok w i T s
  | OCopy i j ms => w_any w !! i = None /\ In MDestroy ms /\
      has_any w j (fun a => contiguous ms (a_ms a) /\ In (MCopy true) (a_ms a))
  | OMove i j => w_any w !! i = None /\ has_any w j (fun a => has_move E (a_ms a) = true)
  | OTransMove i j ms => w_any w !! i = None /\ In MDestroy ms /\
      has_any w j (fun a => contiguous ms (a_ms a) /\ has_move_ms (a_ms a) = true)
  | OMoveAssign i j => has_any w i (fun a => has_any w j (fun b => a_ms a = a_ms b /\ has_move_assign E (a_ms b) = true))
  | OCopyAssign i j t => w_any w !! t = None /\
      has_any w i (fun a => has_any w j (fun b => a_ms a = a_ms b /\ In (MCopy true) (a_ms b)))
  | OSwap i j t => w_any w !! t = None /\
      has_any w i (fun a => has_any w j (fun b => a_ms a = a_ms b /\ has_move_assign E (a_ms b) = true))
  | OEmplace i T s nt => has_any w i (fun _ => True) /\ ty_align (e_ty E T) <= max_align /\ arg_ok w i T s
  | OReset i | ODestroy i | OReplace i _ | ODtor i => has_any w i (fun _ => True)
  | OInvoke i n _ => has_any w i (fun a => In (MUser n) (a_ms a)) /\ exists T, holds w i T
  | OSref r j ms => w_sref w !! r = None /\ has_any w j (fun a => forall m, In m ms -> In m (a_ms a)) /\ exists T, holds w j T
  | ODropSref r => forall i a v, w_any w !! i = Some a -> a_vt a = Some v -> vp_home v <> Some r
  | OMaterialize i al x => w_any w !! i = None /\ e_copy_req_alloc E = false /\
      exists ms T, denotes w x ms T /\ In MDestroy ms /\ In (MCopy true) ms /\ ty_align (e_ty E T) <= max_align /\
        (ty_tdestr (e_ty E T) = true \/ fits E T && ty_ntcopy (e_ty E T) = true)
  end.

(** Allocators: with always-equal ones no condition.  Otherwise memory must not be taken over by an any
    whose allocator differs (C16, C17 show that the code does so in these two situations). *)
Definition alloc_safe (E : env) (w : world) (o : op) : Prop :=
  match o with
  | OTransMove i j ms => has_any w j (fun a => a_vt a = None \/ a_vp a = PData j \/ alloc_eqb E (e_def_alloc E) (a_alloc a) = true)
  | OMoveAssign i j =>
      has_any w i (fun a => has_any w j (fun b => i = j \/ a_vt b = None \/ compat E a b = true \/ e_soos E <> 0 \/ reusable a b))
  | OCopyAssign i j t =>
      has_any w i (fun a => has_any w j (fun b => a_vt b = None \/ copy_compat E a b = true \/ e_soos E <> 0))
  | OSwap i j t => has_any w i (fun a => has_any w j (fun b => i = j \/ compat E a b = true \/ e_soos E <> 0))
  | _ => True
  end.

(** the anys whose value an operation may change *)
Definition touches (o : op) : gset nat :=
  match o with
  | ODefault i _ _ | OValue i _ _ _ _ _ | OForce i _ _ _ _ | OCopy i _ _ => {[i]}
  | OMove i j | OTransMove i j _ | OMoveAssign i j | OSwap i j _ => {[i; j]}
  | OCopyAssign i _ _ => {[i]}
  | OEmplace i _ _ _ | OReset i | ODestroy i | OReplace i _ | OInvoke i _ _ | ODtor i => {[i]}
  | OSref _ _ _ | ODropSref _ => ∅
  | OMaterialize i _ _ => {[i]}
  end.

(** situations in which std::terminate is possible *)
Definition may_terminate (E : env) (o : op) : Prop :=
  match o with
  | OForce _ _ T _ nt => nt && fits E T = true
  | OMoveAssign _ _ | OCopyAssign _ _ _ | OSwap _ _ _ => e_always_eq E = false /\ e_pocma E = false
  | _ => False
  end.

(** untouched anys are literally unchanged: fields, and the block they own *)
Definition untouched (S : gset nat) (w w' : world) : Prop := forall k, k ∉ S -> view w' k = view w k.

Lemma eval_arg_ok E w i T s : Inv E w -> arg_ok w i T s -> exists x v, eval_arg s w = Ok x w /\ src_from w i T x v.
Proof.
  intros HI. destruct s as [v|k]; cbn.
  - intros _. by exists (SVal v), v.
  - intros (Hk & x & Hc). unfold content, view in Hc. destruct (w_any w !! k) as [a|] eqn:Ha; [|done].
    injection Hc as Hc. exists (SRef (a_vp a)), x. split; [by rewrite (bind_get_any _ _ _ _ Ha)|].
    exists k, a, (block_of w a). unfold view. rewrite Ha. done.
Qed.

Lemma eff_untouched S w w' : Eff S w w' -> untouched S w w'.
Proof. intros [V _ _]. exact V. Qed.

Lemma compat_movable E a b : compat E a b = false -> e_always_eq E = false /\ e_pocma E = false.
Proof. unfold compat. by destruct (e_always_eq E), (e_pocma E). Qed.
Lemma copy_compat_movable E a b : copy_compat E a b = false -> e_always_eq E = false /\ e_pocma E = false.
Proof. unfold copy_compat. by destruct (e_always_eq E), (e_pocma E). Qed.

(** every operation, in every state satisfying the invariant: no undefined behaviour; the invariant is
    kept whether the operation returns or throws; other anys are untouched *)
Lemma step_safe E w o :
  env_wf E -> Inv E w -> pre E w o -> alloc_safe E w o ->
  wp (run E o)
     (fun _ w' => Inv E w' /\ untouched (touches o) w w')
     (fun w' => Inv E w' /\ untouched (touches o) w w')
     (may_terminate E o) w.
Proof.
  intros Hwf HI Hp Hs. destruct o; cbn [run touches may_terminate].
  - destruct Hp as [Hi Hd]. destruct (new_any_inv E w i al ms HI Hi Hd) as (H1 & I1 & F1).
    eapply wp_ok; [exact H1|]. eauto using eff_untouched.
  - destruct Hp as (Hi & Hd & Hal & Ha). destruct (eval_arg_ok _ _ _ _ _ HI Ha) as (x & v & Hx & Hsrc).
    eapply wp_bind_ok; [exact Hx|]. eapply wp_mono; [by apply (value_ctor_spec E w i al ms T x v nt)| | |done].
    + intros [] w' (I & F & _). eauto using eff_untouched.
    + intros w' (_ & Hsm). eauto using eff_untouched, same_mem_inv, same_mem_eff.
  - destruct Hp as (Hi & Hd & Hal & Ha). destruct (eval_arg_ok _ _ _ _ _ HI Ha) as (x & v & Hx & Hsrc).
    eapply wp_bind_ok; [exact Hx|]. eapply wp_mono; [by apply (force_ctor_spec E w i ms T x v nt)| | |done].
    + intros [] w' (I & F & _). eauto using eff_untouched.
    + intros w' (_ & Hsm). eauto using eff_untouched, same_mem_inv, same_mem_eff.
  - destruct Hp as (Hi & Hd & a & Ha & Hct & Hcp).
    eapply wp_mono; [by apply (copy_ctor_spec E w i j a ms)| | |done].
    + intros [] w' (I & F & _). eauto using eff_untouched.
    + intros w' (_ & _ & Hsm). eauto using eff_untouched, same_mem_inv, same_mem_eff.
  - destruct Hp as (Hi & a & Ha & Hm).
    eapply wp_mono; [by apply (move_ctor_spec E w i j a)| |intros ? []|done].
    intros [] w' (I & F & _). eauto using eff_untouched.
  - destruct Hp as (Hi & Hd & a & Ha & Hct & Hm). destruct Hs as (a' & Ha' & Hs). rewrite Ha in Ha'. injection Ha' as <-.
    eapply wp_mono; [apply (trans_move_ctor_spec E w i j a ms); try done| |intros ? []|done].
    + intros b Hb Hv. destruct Hs as [?|[?|?]]; [done|congruence|done].
    + intros [] w' (I & F & _). eauto using eff_untouched.
  - destruct Hp as (a & Ha & b & Hb & Hms & Hm). destruct Hs as (a' & Ha' & b' & Hb' & Hs).
    rewrite Ha in Ha'. injection Ha' as <-. rewrite Hb in Hb'. injection Hb' as <-.
    destruct (decide (i = j)) as [->|Hij].
    { eapply wp_ok; [apply move_assign_self|]. split; [done|]. by intros k _. }
    eapply wp_mono; [apply (move_assign_spec E w i j a b); try done| | |].
    + intros Hc Hz. destruct Hs as [?|[?|[?|[?|?]]]]; [done|by left|congruence|done|by right].
    + intros [] w' (I & F & _). eauto using eff_untouched.
    + intros w' (_ & I & F & _). split; [done|]. eapply eff_untouched, eff_mono; [|exact F]. set_solver.
    + intros [Hc _]. by eapply compat_movable.
  - destruct Hp as (Ht & a & Ha & b & Hb & Hms & Hm). destruct Hs as (a' & Ha' & b' & Hb' & Hs).
    rewrite Ha in Ha'. injection Ha' as <-. rewrite Hb in Hb'. injection Hb' as <-.
    eapply wp_mono; [apply (copy_assign_spec E w i j t a b); try done| | |].
    + intros Hc Hz. destruct Hs as [?|[?|?]]; [done|congruence|done].
    + intros [] w' (I & F & _). eauto using eff_untouched.
    + intros w' (I & F & _). eauto using eff_untouched.
    + intros [Hc _]. by eapply copy_compat_movable.
  - destruct Hp as (Ht & a & Ha & b & Hb & Hms & Hm). destruct Hs as (a' & Ha' & b' & Hb' & Hs).
    rewrite Ha in Ha'. injection Ha' as <-. rewrite Hb in Hb'. injection Hb' as <-.
    destruct (decide (i = j)) as [<-|Hij].
    { eapply wp_mono; [apply (swap_self_spec E w i t a); try done; congruence| |intros ? []|intros []].
      intros [] w' (I & F & _). split; [done|]. eapply eff_untouched, eff_mono; [|exact F]. set_solver. }
    eapply wp_mono; [apply (swap_spec E w i j t a b); try done| | |].
    + destruct Hs as [?|[?|?]]; [done|by left|by right].
    + intros [] w' (I & F & _). eauto using eff_untouched.
    + intros w' (_ & I & F & _). eauto using eff_untouched.
    + intros Hc. by eapply compat_movable.
  - destruct Hp as ((a & Ha & _) & Hal & Hs'). destruct (eval_arg_ok _ _ _ _ _ HI Hs') as (x & v & Hx & Hsrc).
    eapply wp_bind_ok; [exact Hx|]. eapply wp_mono; [by apply (emplace_spec E w i a T x v nt)| | |done].
    + intros [] w' (I & F & _). eauto using eff_untouched.
    + intros w' (_ & I & F & _). eauto using eff_untouched.
  - destruct Hp as (a & Ha & _). destruct (reset_spec E w i a HI Ha) as (w1 & a1 & H1 & I1 & F1 & _).
    eapply wp_ok; [exact H1|]. eauto using eff_untouched.
  - destruct Hp as (a & Ha & _). destruct (destroy_value_spec E w i a HI Ha) as (w1 & a1 & H1 & I1 & F1 & _).
    eapply wp_ok; [exact H1|]. eauto using eff_untouched.
  - destruct Hp as (a & Ha & _). eapply wp_mono; [by apply (replace_with_bytes_spec E w i a n)| | |done].
    + intros [] w' (I & F & _). eauto using eff_untouched.
    + intros w' (_ & I & F & _). eauto using eff_untouched.
  - destruct Hp as ((a & Ha & Hin) & T & x & Hc). apply wp_bind.
    eapply wp_mono; [by apply (invoke_spec E w i a n arg0 T x)| | |done].
    + intros r w' (_ & I & F & _). apply wp_ret. eauto using eff_untouched.
    + intros w' (_ & I & F & _). eauto using eff_untouched.
  - destruct Hp as (a & Ha & _). destruct (dtor_spec E w i a HI Ha) as (w1 & H1 & I1 & F1 & _).
    eapply wp_ok; [exact H1|]. eauto using eff_untouched.
  - destruct Hp as (Hr & (a & Ha & Hin) & T & x & Hc).
    eapply wp_ok; [by eapply new_sref_spec|]. split; [by apply inv_add_sref|]. by intros k _.
  - eapply wp_ok; [done|]. split; [by apply inv_del_sref|]. by intros k _.
  - destruct Hp as (Hi & Hst & ms & T & Hden & Hd & Hcp & Hal & Hno).
    assert (exists r v, make_ref x w = Ok r w /\ ref_good w r T v /\ pr_ms r = ms) as (r & v & Hr & Hg & Hms).
    { destruct x as [j ms'|r]; cbn in Hden.
      - destruct Hden as (-> & (b & Hb & Hct) & v & Hc).
        destruct (make_ref_any E w j b ms T v HI Hb Hc Hct) as (r & Hr & Hg & Hms & _). by exists r, v.
      - destruct Hden as (s & v & id & Hsr & Hm & Ht & Hobj). exists (PRef (VPtr (Some r) (sr_tab s) 0) (sr_ptr s) (sr_ms s)), v.
        unfold make_ref. rewrite Hsr. split; [done|]. split; [|done]. split; [|split]; cbn.
        + unfold vt_alive. cbn. by eexists.
        + rewrite Hm. intros k m Hk. cbn. rewrite Ht, nth_error_map, Hk. done.
        + by exists id. }
    eapply wp_mono; [apply (materialize_spec E w i al x r T v); try done; by rewrite Hms| | |done].
    + intros [] w' (I & F & _). eauto using eff_untouched.
    + intros w' (_ & Hsm). eauto using eff_untouched, same_mem_inv, same_mem_eff.
Qed.

(** states reachable by histories of permitted operations, throwing or not *)
Inductive reachable (E : env) : world -> Prop :=
| reach_init : reachable E init_world
| reach_ok w o w' : reachable E w -> pre E w o -> alloc_safe E w o -> run E o w = Ok tt w' -> reachable E w'
| reach_exn w o w' : reachable E w -> pre E w o -> alloc_safe E w o -> run E o w = Exn w' -> reachable E w'.

Lemma inv_init E : Inv E init_world.
Proof. by split. Qed.

Lemma reachable_inv E w : env_wf E -> reachable E w -> Inv E w.
Proof.
  intros Hwf. induction 1 as [|w o w' _ IH Hp Hs Hr|w o w' _ IH Hp Hs Hr]; [apply inv_init| |].
  - pose proof (step_safe E w o Hwf IH Hp Hs) as H. unfold wp in H. rewrite Hr in H. by destruct H.
  - pose proof (step_safe E w o Hwf IH Hp Hs) as H. unfold wp in H. rewrite Hr in H. by destruct H.
Qed.
