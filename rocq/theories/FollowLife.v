(** Proofs: when values on the heap are destroyed. *)
From stdpp Require Import gmap list.
From Verif Require Import TypeListModel TypeListSpec TypeListProofs AnyModel AnyInv AnySteps AnyOps AnyMove AnyLife AnyAssign AnyHistory AnyLogSpec AnyLog AnyExec
  AnyFacts AnyFacts2 AnyValue AnyDestroyed FollowSpec FollowProofs.

Local Hint Resolve grows_ret grows_ub grows_throw grows_ensure grows_get_any grows_get_block grows_put_any grows_put_block
  grows_ask grows_fresh grows_emit grows_vt_read grows_subtableM grows_new_any grows_set_vt grows_set_vp grows_set_alloc grows_set_size grows_get_size
  grows_read_obj grows_read_as grows_write_place grows_check_place grows_read_src grows_construct grows_destroy_at grows_memcpy grows_allocate
  grows_deallocate grows_any_slot grows_get_move_fn grows_relocate grows_copy_fn grows_construct_value grows_emplace_in_empty grows_destroy_value
  grows_deallocate_memory grows_reset grows_move_value_from grows_drop_any grows_dtor grows_move_assign grows_copy_body grows_copy_ctor : grows.
Ltac ggo := repeat first
  [ solve [eauto with grows] | apply grows_noexcept | apply grows_onexn | apply grows_bind; [|intros ?] | case_match ].
Lemma grows_eval_arg s : grows (eval_arg s).
Proof. unfold eval_arg. ggo. Qed.
Lemma grows_pick_slots ms v l : grows (pick_slots ms v l).
Proof. induction l as [|m l IH]; cbn; ggo. Qed.
Lemma grows_new_sref r j ms : grows (new_sref r j ms).
Proof.
  pose proof grows_pick_slots. unfold new_sref. ggo. apply grows_same. intros w. by destruct (w_sref w !! r).
Qed.
Lemma grows_make_ref x : grows (make_ref x).
Proof. unfold make_ref. ggo. apply grows_same. intros w. by destruct (w_sref w !! r). Qed.
Lemma grows_capacity E i : grows (capacity E i).
Proof. unfold capacity. ggo. Qed.
Lemma grows_run E o : grows (run E o).
Proof.
  pose proof grows_eval_arg. pose proof grows_new_sref. pose proof grows_make_ref. pose proof grows_capacity.
  destruct o; cbn [run]; unfold default_ctor, value_ctor, force_ctor, move_ctor, trans_move_ctor, copy_assign, swap_any, move_ctor, emplace, replace_with_bytes, invoke, materialize, ctor; ggo.
Qed.
Lemma exec_dead E l : forall w w' o, dead o w -> exec E l w = Ok tt w' -> dead o w'.
Proof.
  induction l as [|p l IH]; intros w w' o Hd He; cbn in He; [by injection He as <-|].
  pose proof (grows_dead (run E p) o w (grows_run E p) Hd) as H. destruct (run E p w) as [[] w1|w1| |]; try done; eapply IH; done.
Qed.

Lemma contained_alive E w i x : env_wf E -> reachable E w -> contained w i = Some x -> ty_tdestr (e_ty E (o_ty x)) = false -> dtors_of (o_id x) (w_log w) = 0.
Proof.
  intros Hwf Hr Hc Ht. assert (Hheld : held E w !! i = Some (o_id x, o_ty x)). { apply held_lookup. exists (o_val x). by destruct x. }
  destruct (objects_held E w Hwf Hr) as (m & Ho & Hm & _).
  assert (m !! o_id x = Some (o_ty x)) as Hx by (apply Hm; by exists i).
  destruct (objects_in_ctor _ _ _ _ Ho Hx) as [T HT]. pose proof (objects_once _ _ _ _ Ho HT) as H. rewrite Hx in H. by destruct H.
Qed.
Lemma once_dead l id : dtors_of id l = 1 -> exists T, In (EvDtor id T) l.
Proof.
  unfold dtors_of. induction l as [|e l IH]; [done|]. rewrite count_cons. intros H.
  destruct (match e with EvDtor k _ => k =? id | _ => false end) eqn:He.
  - destruct e; try done. apply Nat.eqb_eq in He as ->. eexists. by left.
  - destruct (IH H) as [T HT]. exists T. by right.
Qed.
Lemma dropped_discards E w o i b : pre E w o -> address w i = Some (PHeap b) -> carries o i = None -> discards o i.
Proof.
  intros Hp Had Hc. assert (Hal : w_any w !! i <> None). { intros H. unfold address in Had. by rewrite H in Had. }
  destruct o; cbn in Hc, Hp |- *; try done; repeat (destruct (decide _) as [?|?]; try done); subst; try done; try (by destruct Hp as [? _]); try naive_solver.
Qed.
Lemma lifetime E l : forall w w' i b x, env_wf E -> reachable E w -> e_always_eq E = true \/ e_pocma E = true -> allowed_alloc E l w -> no_exception E l w ->
  exec E l w = Ok tt w' -> address w i = Some (PHeap b) -> contained w i = Some x -> ty_tdestr (e_ty E (o_ty x)) = false ->
  dtors_of (o_id x) (w_log w') = match follow l i with Some _ => 0 | None => 1 end.
Proof.
  induction l as [|o l IH]; intros w w' i b x Hwf Hr Hmv Ha Hn He Had Hx Ht.
  - cbn in *. injection He as <-. by eapply contained_alive.
  - cbn in Ha, Hn, He |- *. destruct Ha as (Hp & Hs & Ha). destruct (run E o w) as [[] w1|w1| |] eqn:Hrun; try done.
    assert (Hr1 : reachable E w1) by (by eapply reach_ok).
    destruct (carries o i) as [h|] eqn:Hc.
    + destruct (step_kept E w w1 o i h b Hwf Hr) as [(A1 & y & z & H1 & H2 & H3 & H4) _]; try done; [by apply movable_iff|by left|].
      rewrite Hx in H1. injection H1 as <-. rewrite <- H3. eapply (IH w1 w' h b z); try done. by rewrite H4.
    + pose proof (dropped_discards E w o i b Hp Had Hc) as Hd.
      destruct (old_value_destroyed E w w1 o i x Hwf Hr Hp Hs Hd Hrun Hx Ht) as [_ H1].
      destruct (once_dead _ _ H1) as [T HT]. apply (dead_once E w' (Obj T 0 (o_id x))); [done| |].
      * eapply exec_reachable; done.
      * by apply (exec_dead E l w1 w' (Obj T 0 (o_id x))).
Qed.
