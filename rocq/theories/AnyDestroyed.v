(** The log only grows; the value an operation replaces or discards is destroyed. *)
From stdpp Require Import gmap list.
From Verif Require Import TypeListModel TypeListSpec TypeListProofs AnyModel AnyInv AnySteps AnyOps AnyMove
  AnyLife AnyAssign AnyRefs AnyHistory AnyLogSpec AnyLog AnyExec AnyFacts AnyFacts2.

Section Grow.
  Context (E : env).

  Definition grows {A} (m : M A) : Prop := forall w,
    match m w with Ok _ w' | Exn w' => exists l, w_log w' = l ++ w_log w | _ => True end.

  Lemma grows_same {A} (m : M A) : (forall w, match m w with Ok _ w' | Exn w' => w_log w' = w_log w | _ => True end) -> grows m.
  Proof. intros H w. specialize (H w). destruct (m w); try done; by exists []. Qed.
  Lemma grows_ret {A} (a : A) : grows (retM a). Proof. by apply grows_same. Qed.
  Lemma grows_ub {A} r : grows (@ubM A r). Proof. by apply grows_same. Qed.
  Lemma grows_throw {A} : grows (@throwM A). Proof. by apply grows_same. Qed.
  Lemma grows_bind {A B} (m : M A) (f : A -> M B) : grows m -> (forall a, grows (f a)) -> grows (bindM m f).
  Proof.
    intros Hm Hf w. specialize (Hm w). unfold bindM. destruct (m w) as [a w'|w'| |]; try done.
    specialize (Hf a w'). destruct Hm as [l1 H1]. destruct (f a w') as [b w2|w2| |]; try done.
    all: destruct Hf as [l2 H2]; exists (l2 ++ l1); by rewrite H2, H1, app_assoc.
  Qed.
  Lemma grows_noexcept {A} b (m : M A) : grows m -> grows (noexcept_if b m).
  Proof. intros Hm w. specialize (Hm w). unfold noexcept_if. destruct (m w); try done. by destruct b. Qed.
  Lemma grows_onexn {A} (m : M A) h : grows m -> grows h -> grows (on_exn m h).
  Proof.
    intros Hm Hh w. specialize (Hm w). unfold on_exn. destruct (m w) as [|w'| |]; try done.
    specialize (Hh w'). destruct Hm as [l1 H1]. destruct (h w') as [b w2|w2| |]; try done.
    all: destruct Hh as [l2 H2]; exists (l2 ++ l1); by rewrite H2, H1, app_assoc.
  Qed.
  Lemma grows_ensure b r : grows (ensure b r).
  Proof. destruct b; [apply grows_ret|apply grows_ub]. Qed.
  Lemma grows_get_any i : grows (get_any i).
  Proof. apply grows_same. intros w. unfold get_any. by destruct (w_any w !! i). Qed.
  Lemma grows_get_block b : grows (get_block b).
  Proof. apply grows_same. intros w. unfold get_block. by destruct (w_heap w !! b). Qed.
  Lemma grows_put_any i a : grows (put_any i a).
  Proof. apply grows_same. intros w. unfold put_any. by destruct (w_any w !! i). Qed.
  Lemma grows_put_block i a : grows (put_block i a).
  Proof. apply grows_same. intros w. unfold put_block. by destruct (w_heap w !! i). Qed.
  Lemma grows_ask : grows (ask E).
  Proof. by apply grows_same. Qed.
  Lemma grows_fresh : grows fresh.
  Proof. by apply grows_same. Qed.
  Lemma grows_emit e : grows (emit e).
  Proof. intros w. cbn. by exists [e]. Qed.
  Lemma grows_vt_read ms v m : grows (vt_read ms v m).
  Proof. apply grows_same. intros w. unfold vt_read. repeat case_match; simplify_eq; done. Qed.
  Lemma grows_subtableM to from v : grows (subtableM to from v).
  Proof. unfold subtableM. destruct (subtable to from v); [apply grows_ret|apply grows_ub]. Qed.
  Lemma grows_new_any i al ms : grows (new_any i al ms).
  Proof. apply grows_same. intros w. unfold new_any. by destruct (w_any w !! i). Qed.

  Local Hint Resolve grows_ret grows_ub grows_throw grows_ensure grows_get_any grows_get_block grows_put_any grows_put_block
    grows_ask grows_fresh grows_emit grows_vt_read grows_subtableM grows_new_any : grows.
  Ltac ggo := repeat first
    [ solve [eauto with grows] | solve [apply grows_same; intros ?; done]
    | apply grows_noexcept | apply grows_onexn | apply grows_bind; [|intros ?] | case_match ].

  Lemma grows_set_vt i v : grows (set_vt i v). Proof. unfold set_vt. ggo. Qed.
  Lemma grows_set_vp i v : grows (set_vp i v). Proof. unfold set_vp. ggo. Qed.
  Lemma grows_set_alloc i v : grows (set_alloc i v). Proof. unfold set_alloc. ggo. Qed.
  Lemma grows_set_size i v : grows (set_size E i v). Proof. unfold set_size. ggo. Qed.
  Lemma grows_get_size i : grows (get_size i). Proof. unfold get_size. ggo. Qed.
  Lemma grows_read_obj p : grows (read_obj p). Proof. unfold read_obj. ggo. Qed.
  Local Hint Resolve grows_set_vt grows_set_vp grows_set_alloc grows_set_size grows_get_size grows_read_obj : grows.
  Lemma grows_read_as T p : grows (read_as T p). Proof. unfold read_as. ggo. Qed.
  Lemma grows_write_place p o : grows (write_place p o). Proof. unfold write_place. ggo. Qed.
  Lemma grows_check_place T p : grows (check_place E T p). Proof. unfold check_place. ggo. Qed.
  Local Hint Resolve grows_read_as grows_write_place grows_check_place : grows.
  Lemma grows_read_src T s : grows (read_src T s). Proof. unfold read_src. ggo. Qed.
  Local Hint Resolve grows_read_src : grows.
  Lemma grows_construct T p s nt : grows (construct E T p s nt). Proof. unfold construct. ggo. Qed.
  Lemma grows_destroy_at T p : grows (destroy_at E T p). Proof. unfold destroy_at. ggo. Qed.
  Lemma grows_memcpy T s d : grows (memcpy E T s d). Proof. unfold memcpy. ggo. Qed.
  Lemma grows_allocate al n : grows (allocate E al n). Proof. unfold allocate. ggo. Qed.
  Lemma grows_deallocate al p n : grows (deallocate E al p n). Proof. unfold deallocate. ggo. Qed.
  Lemma grows_any_slot i m : grows (any_slot i m). Proof. unfold any_slot. ggo. Qed.
  Local Hint Resolve grows_construct grows_destroy_at grows_memcpy grows_allocate grows_deallocate grows_any_slot : grows.
  Lemma grows_get_move_fn i : grows (get_move_fn i). Proof. unfold get_move_fn. ggo. Qed.
  Lemma grows_relocate T s d : grows (relocate E T s d). Proof. unfold relocate. ggo. Qed.
  Lemma grows_copy_fn T al s d : grows (copy_fn E T al s d). Proof. unfold copy_fn, write_size_at. ggo. Qed.
  Lemma grows_construct_value i T s nt : grows (construct_value E i T s nt). Proof. unfold construct_value. ggo. Qed.
  Local Hint Resolve grows_get_move_fn grows_relocate grows_copy_fn grows_construct_value : grows.
  Lemma grows_emplace_in_empty i T f s nt : grows (emplace_in_empty E i T f s nt). Proof. unfold emplace_in_empty. ggo. Qed.
  Lemma grows_destroy_value i : grows (destroy_value E i). Proof. unfold destroy_value, call_destroy. ggo. Qed.
  Lemma grows_deallocate_memory i : grows (deallocate_memory E i). Proof. unfold deallocate_memory. ggo. Qed.
  Local Hint Resolve grows_emplace_in_empty grows_destroy_value grows_deallocate_memory : grows.
  Lemma grows_reset i : grows (reset E i). Proof. unfold reset. ggo. Qed.
  Lemma grows_move_value_from r i j : grows (move_value_from E r i j). Proof. unfold move_value_from. ggo. Qed.
  Lemma grows_drop_any i : grows (drop_any E i). Proof. unfold drop_any. ggo. Qed.
  Local Hint Resolve grows_reset grows_move_value_from grows_drop_any : grows.
  Lemma grows_dtor i : grows (dtor E i). Proof. unfold dtor. ggo. Qed.
  Lemma grows_move_assign i j : grows (move_assign E i j). Proof. unfold move_assign. ggo. Qed.
  Lemma grows_copy_body i j : grows (copy_body E i j). Proof. unfold copy_body. ggo. Qed.
  Lemma grows_copy_ctor i j ms : grows (copy_ctor E i j ms).
  Proof. pose proof (grows_copy_body i j). unfold copy_ctor, ctor. ggo. Qed.
End Grow.

(** [ends m i]: whenever [m] comes back, the value any [i] held before is destroyed *)
Definition dead (o : obj) (w : world) : Prop := In (EvDtor (o_id o) (o_ty o)) (w_log w).
Definition kills (E : env) {A} (m : M A) (o : obj) (w : world) : Prop :=
  match m w with Ok _ w' | Exn w' => dead o w' | _ => True end.

Lemma grows_dead {A} (m : M A) o w : grows m -> dead o w -> match m w with Ok _ w' | Exn w' => dead o w' | _ => True end.
Proof.
  intros Hg Hd. specialize (Hg w). destruct (m w); try done; destruct Hg as [l Hl]; unfold dead; rewrite Hl; apply in_or_app; by right.
Qed.
Lemma kills_first E {A B} (m : M A) (f : A -> M B) o w : kills E m o w -> (forall a, grows (f a)) -> kills E (bindM m f) o w.
Proof.
  unfold kills, bindM. destruct (m w) as [a w1|w1| |]; try done. intros Hd Hf. by apply (grows_dead (f a)).
Qed.
Lemma kills_after E {A B} (m : M A) (f : A -> M B) o w : (forall a w', m w = Ok a w' -> kills E (f a) o w') ->
  (forall w', m w <> Exn w') -> kills E (bindM m f) o w.
Proof.
  unfold kills, bindM. intros H1 H2. destruct (m w) as [a w1|w1| |] eqn:Hm; try done; [by apply H1|by destruct (H2 w1)].
Qed.
Lemma kills_noexcept E {A} b (m : M A) o w : kills E m o w -> kills E (noexcept_if b m) o w.
Proof. unfold kills, noexcept_if. destruct (m w); try done. by destruct b. Qed.
Lemma kills_onexn E {A} (m : M A) h o w : kills E m o w -> grows h -> kills E (on_exn m h) o w.
Proof.
  unfold kills, on_exn. destruct (m w) as [a w1|w1| |]; try done. intros Hd Hf. pose proof (grows_dead h o w1 Hf Hd). by destruct (h w1).
Qed.

Section Kill.
  Context (E : env) (Hwf : env_wf E).

  Lemma destroy_kills w i o : Inv E w -> contained w i = Some o -> ty_tdestr (e_ty E (o_ty o)) = false ->
    kills E (destroy_value E i) o w.
  Proof.
    intros HI Hc Ht. unfold contained in Hc. destruct (w_any w !! i) as [a|] eqn:Ha; [|done].
    destruct (a_vt a) as [v|] eqn:Hv; [|done]. destruct (any_value _ _ _ _ _ HI Ha Hv) as (T & x & id & He & Hobj & _).
    pose proof (inv_ok _ _ HI _ _ Ha) as [Hd _].
    rewrite Hobj in Hc. injection Hc as <-. cbn in Ht.
    unfold destroy_value. apply kills_noexcept. unfold kills. rewrite (bind_get_any _ _ _ _ Ha).
    unfold has_val. rewrite Hv. rewrite (bind_ok _ _ _ _ _ (any_slot_ok _ _ _ _ _ _ _ HI Ha Hv He Hd)).
    unfold call_destroy. rewrite Ht.
    match goal with |- match ?m w with _ => _ end => change (kills E m (Obj T x id) w) end.
    apply kills_first; [|intros ?; apply grows_set_vt].
    unfold destroy_at. unfold kills, read_as.
    assert (read_obj (a_vp a) w = Ok (Obj T x id) w) as Hr.
    { unfold read_obj, obj_at in *. destruct (a_vp a) as [k|b].
      - unfold bindM, get_any. destruct (w_any w !! k) as [c|]; [|done]. destruct (a_un c); try done. injection Hobj as ->. done.
      - unfold bindM, get_block. destruct (w_heap w !! b) as [c|]; [|done]. destruct (b_obj c); try done. injection Hobj as ->. done. }
    unfold bindM at 1 2. rewrite Hr. unfold ensure. cbn [o_ty]. rewrite bool_decide_true by done.
    unfold bindM at 1, retM at 1. unfold retM at 1. unfold bindM. pose proof (grows_write_place (a_vp a) None w) as Hw.
    destruct (write_place (a_vp a) None w) as [[] w1|w1| |] eqn:Hwp; try done.
    - rewrite Ht. unfold emit, dead. cbn. by left.
    - exfalso. unfold write_place, bindM, get_any, put_any, get_block, put_block in Hwp. repeat case_match; done.
  Qed.
  Lemma reset_kills w i o : Inv E w -> contained w i = Some o -> ty_tdestr (e_ty E (o_ty o)) = false -> kills E (reset E i) o w.
  Proof.
    intros HI Hc Ht. unfold reset. apply kills_noexcept. apply kills_first; [by apply destroy_kills|].
    intros _. apply grows_bind; [apply grows_get_any|]. intros a. case_match; [apply grows_deallocate_memory|apply grows_ret].
  Qed.
  Lemma move_assign_kills w i j o : Inv E w -> i <> j -> contained w i = Some o -> ty_tdestr (e_ty E (o_ty o)) = false ->
    kills E (move_assign E i j) o w.
  Proof.
    intros HI Hij Hc Ht. pose proof (grows_move_assign E i j) as Hg.
    unfold move_assign. apply kills_noexcept. destruct (Nat.eqb_spec i j) as [|_]; [done|].
    repeat case_match; (apply kills_first; [by (apply reset_kills || apply destroy_kills)|intros ?]).
    - apply grows_move_value_from.
    - apply grows_bind; [apply grows_get_any|intros ?]. apply grows_bind; [apply grows_get_any|intros ?].
      apply grows_bind; [case_match; [apply grows_set_alloc|apply grows_ret]|intros ?]. apply grows_move_value_from.
    - apply grows_bind; [apply grows_get_any|intros ?]. apply grows_bind; [apply grows_get_any|intros ?].
      case_match.
      + apply grows_bind.
        { case_match; [|apply grows_ret]. apply grows_bind; [apply grows_get_size|intros ?]. apply grows_bind; [apply grows_get_size|intros ?]. apply grows_ret. }
        intros [].
        * apply grows_bind; [apply grows_get_move_fn|intros ?]. apply grows_bind; [apply grows_relocate|intros ?].
          apply grows_bind; [apply grows_get_any|intros ?]. apply grows_bind; [apply grows_set_vt|intros ?]. apply grows_set_vt.
        * apply grows_bind; [case_match; [apply grows_deallocate_memory|apply grows_ret]|intros ?]. apply grows_move_value_from.
      + apply grows_bind; [apply grows_reset|intros ?]. apply grows_move_value_from.
  Qed.
  Lemma emplace_kills w i T s nt o : Inv E w -> contained w i = Some o -> ty_tdestr (e_ty E (o_ty o)) = false -> kills E (emplace E i T s nt) o w.
  Proof.
    intros HI Hc Ht. unfold emplace. apply kills_noexcept. apply kills_first; [by apply destroy_kills|].
    intros _. apply grows_bind; [apply grows_get_any|]. intros a. case_match; [apply grows_emplace_in_empty|].
    apply grows_bind; [apply grows_get_size|intros ?]. case_match; [|apply grows_construct_value].
    apply grows_bind; [apply grows_deallocate_memory|intros ?]. apply grows_emplace_in_empty.
  Qed.
  Lemma replace_kills w i n o : Inv E w -> contained w i = Some o -> ty_tdestr (e_ty E (o_ty o)) = false -> kills E (replace_with_bytes E i n) o w.
  Proof.
    intros HI Hc Ht. unfold replace_with_bytes. apply kills_first; [by apply destroy_kills|]. intros _.
    apply grows_bind; [unfold capacity; apply grows_bind; [apply grows_get_any|intros ?; case_match; [apply grows_get_size|apply grows_ret]]|intros ?].
    case_match; [apply grows_ret|]. apply grows_bind; [apply grows_get_any|intros ?]. apply grows_bind; [apply grows_allocate|intros ?].
    apply grows_bind; [|intros ?; apply grows_bind; [apply grows_set_vp|intros ?; apply grows_set_size]].
    apply grows_bind; [apply grows_get_any|intros ?]. case_match; [apply grows_deallocate_memory|apply grows_ret].
  Qed.
  Lemma dtor_kills w i o : Inv E w -> contained w i = Some o -> ty_tdestr (e_ty E (o_ty o)) = false -> kills E (dtor E i) o w.
  Proof. intros HI Hc Ht. unfold dtor. apply kills_first; [by apply reset_kills|]. intros _. apply grows_drop_any. Qed.

  (** copy assignment: the old value is destroyed when it succeeds *)
  Lemma copy_assign_kills w w' i j t o : Inv E w -> pre E w (OCopyAssign i j t) ->
    contained w i = Some o -> ty_tdestr (e_ty E (o_ty o)) = false -> run E (OCopyAssign i j t) w = Ok tt w' -> dead o w'.
  Proof.
    intros HI (Ht0 & a & Ha & b & Hb & Hms & Hcp) Hc Ht Hrun. cbn in Hrun. unfold copy_assign in Hrun.
    rewrite (bind_get_any _ _ _ _ Hb) in Hrun. pose proof (inv_ok _ _ HI _ _ Hb) as [Hd _].
    pose proof (copy_ctor_spec E w t j b (a_ms b) Hwf HI Ht0 Hb Hd (contiguous_refl _) Hcp) as H. unfold wp in H.
    destruct (copy_ctor E t j (a_ms b) w) as [[] w1|w1| |] eqn:Hcc; try done; [|by rewrite (bind_exn _ _ _ _ Hcc) in Hrun].
    rewrite (bind_ok _ _ _ _ _ Hcc) in Hrun. destruct H as (I1 & F1 & C1 & at1 & Hat & Hlt & Hmt & Hwhere).
    assert (Hti : t <> i) by congruence.
    assert (Ha1 : w_any w1 !! i = Some a) by (eapply view_lookup; [done|set_solver|done]).
    assert (Hc1 : contained w1 i = Some o).
    { rewrite <- Hc. apply (view_contained E); [done|]. apply (eff_view _ _ _ F1). set_solver. }
    match type of Hrun with ?m w1 = _ => assert (kills E m o w1) as Hk end.
    2:{ unfold kills in Hk. by rewrite Hrun in Hk. }
    apply kills_first; [|intros _; apply grows_dtor]. apply kills_onexn; [|apply grows_dtor].
    destruct (negb (e_always_eq E) && e_pocca E).
    2:{ unfold kills, bindM, retM. by apply (move_assign_kills w1 i t o). }
    unfold kills. match goal with |- match ?m w1 with _ => _ end => change (kills E m o w1) end.
    assert (Hg : forall u : unit, grows (move_assign E i t)) by (intros _; apply grows_move_assign).
    destruct (w_any w1 !! j) as [b1|] eqn:Hb1.
    2:{ unfold kills, bindM, get_any. rewrite Ha1, Hb1. done. }
    unfold kills. unfold bindM at 1. rewrite (bind_get_any _ _ _ _ Ha1), (bind_get_any _ _ _ _ Hb1).
    destruct (negb (alloc_eqb E (a_alloc a) (a_alloc b1))).
    - match goal with |- match match ?m w1 with _ => _ end with _ => _ end => assert (kills E m o w1) as Hk end.
      { apply kills_first; [by apply reset_kills|intros _; apply grows_set_alloc]. }
      unfold kills in Hk. match type of Hk with match ?x with _ => _ end => destruct x as [[] w2|w2| |] end; try done.
      by apply (grows_dead (move_assign E i t)), Hk; apply grows_move_assign.
    - cbn. by apply (move_assign_kills w1 i t o).
  Qed.
End Kill.

(** ... and exactly once *)
Lemma dead_once E w o : env_wf E -> reachable E w -> dead o w -> dtors_of (o_id o) (w_log w) = 1.
Proof.
  intros Hwf Hr Hd. destruct (objects_held E w Hwf Hr) as (m & Ho & _). unfold dead in Hd.
  destruct (objects_dtor_ctor _ _ _ _ Ho Hd) as [T' HT]. pose proof (objects_once _ _ _ _ Ho HT) as H.
  destruct (m !! o_id o); [|done]. destruct H as [_ H]. exfalso. unfold dtors_of in H. clear -H Hd.
  induction (w_log w) as [|e l IH]; [done|]. rewrite count_cons in H. destruct Hd as [-> |Hd]; [rewrite Nat.eqb_refl in H; done|].
  destruct (match e with EvDtor k _ => k =? o_id o | _ => false end); [done|]. by apply IH.
Qed.

(** the operations that replace or discard the value of [i] *)
Definition discards (o : op) (i : nat) : Prop :=
  match o with
  | OMoveAssign k j => k = i /\ j <> i
  | OCopyAssign k _ _ | OEmplace k _ _ _ | OReset k | ODestroy k | OReplace k _ | ODtor k => k = i
  | _ => False
  end.

Lemma old_value_destroyed E w w' o i x : env_wf E -> reachable E w -> pre E w o -> alloc_safe E w o -> discards o i ->
  run E o w = Ok tt w' -> contained w i = Some x -> ty_tdestr (e_ty E (o_ty x)) = false ->
  dtors_of (o_id x) (w_log w) = 0 /\ dtors_of (o_id x) (w_log w') = 1.
Proof.
  intros Hwf Hr Hp Hs Hdis Hrun Hc Ht. pose proof (reachable_inv _ _ Hwf Hr) as HI.
  assert (Hr' : reachable E w') by (eapply reachable_outcome; [done..|by left]).
  assert (Hheld : held E w !! i = Some (o_id x, o_ty x)).
  { apply held_lookup. exists (o_val x). by destruct x. }
  split.
  - destruct (objects_held E w Hwf Hr) as (m & Ho & Hm & _).
    assert (m !! o_id x = Some (o_ty x)) as Hx by (apply Hm; by exists i).
    destruct (objects_in_ctor _ _ _ _ Ho Hx) as [T HT]. pose proof (objects_once _ _ _ _ Ho HT) as H. rewrite Hx in H. by destruct H.
  - apply (dead_once E w' x); [done|done|]. destruct o; cbn in Hdis; try done.
    + destruct Hdis as [-> Hji]. cbn in Hrun. pose proof (move_assign_kills E w i j x HI (not_eq_sym Hji) Hc Ht) as H. unfold kills in H. by rewrite Hrun in H.
    + subst. by eapply copy_assign_kills.
    + subst. cbn in Hrun. unfold bindM in Hrun. destruct (eval_arg s w) as [y w1|w1| |] eqn:Hev; try done.
      assert (w1 = w) as -> by (destruct s; cbn in Hev; [by injection Hev|unfold bindM, get_any, retM in Hev; by repeat case_match; simplify_eq]).
      pose proof (emplace_kills E w i T y nt x HI Hc Ht) as H. unfold kills in H. by rewrite Hrun in H.
    + subst. cbn in Hrun. pose proof (reset_kills E w i x HI Hc Ht) as H. unfold kills in H. by rewrite Hrun in H.
    + subst. cbn in Hrun. pose proof (destroy_kills E w i x HI Hc Ht) as H. unfold kills in H. by rewrite Hrun in H.
    + subst. cbn in Hrun. pose proof (replace_kills E w i n x HI Hc Ht) as H. unfold kills in H. by rewrite Hrun in H.
    + subst. cbn in Hrun. pose proof (dtor_kills E w i x HI Hc Ht) as H. unfold kills in H. by rewrite Hrun in H.
Qed.

(** emplace destroys the old value whether it succeeds or throws, and touches no other any *)
Lemma emplace_destroys E w w' i T s nt x k : env_wf E -> reachable E w -> pre E w (OEmplace i T s nt) ->
  outcome E (OEmplace i T s nt) w w' ->
  (contained w i = Some x -> ty_tdestr (e_ty E (o_ty x)) = false ->
     dtors_of (o_id x) (w_log w) = 0 /\ dtors_of (o_id x) (w_log w') = 1) /\
  (k <> i -> content w' k = content w k /\ address w' k = address w k).
Proof.
  intros Hwf Hr Hp Ho. pose proof (reachable_inv _ _ Hwf Hr) as HI.
  assert (Hs : alloc_safe E w (OEmplace i T s nt)) by done. split.
  - intros Hc Ht. assert (Hr' : reachable E w') by by eapply reachable_outcome.
    assert (Hheld : held E w !! i = Some (o_id x, o_ty x)).
    { apply held_lookup. exists (o_val x). by destruct x. }
    split.
    + destruct (objects_held E w Hwf Hr) as (m & Hob & Hm & _).
      assert (m !! o_id x = Some (o_ty x)) as Hx by (apply Hm; by exists i).
      destruct (objects_in_ctor _ _ _ _ Hob Hx) as [U HU]. pose proof (objects_once _ _ _ _ Hob HU) as H. rewrite Hx in H. by destruct H.
    + apply (dead_once E w' x); [done|done|].
      destruct (eval_arg s w) as [y w1|w1| |] eqn:Hev.
      2-4: by destruct Ho as [Ho|Ho]; cbn in Ho; unfold bindM in Ho; rewrite Hev in Ho; try done;
           destruct s; cbn in Hev; unfold bindM, get_any, retM in Hev; repeat case_match; simplify_eq.
      assert (w1 = w) as -> by (destruct s; cbn in Hev; [by injection Hev|unfold bindM, get_any, retM in Hev; by repeat case_match; simplify_eq]).
      pose proof (emplace_kills E w i T y nt x HI Hc Ht) as H. unfold kills in H.
      destruct Ho as [Ho|Ho]; cbn in Ho; unfold bindM in Ho; rewrite Hev in Ho; by rewrite Ho in H.
  - intros Hk. destruct (frame E w w' _ k Hwf Hr Hp Hs Ho) as (H1 & H2 & _); [cbn; set_solver|done].
Qed.
