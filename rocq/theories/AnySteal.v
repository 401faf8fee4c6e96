(** Assignments in the remaining situation: no buffer, allocators that differ and do not propagate.
    The memory is then taken over although the allocators differ, so the invariant is lost, but the values
    still go where they should. *)
From stdpp Require Import gmap list.
From Verif Require Import TypeListModel TypeListSpec TypeListProofs AnyModel AnyInv AnySteps AnyOps AnyMove
  AnyLife AnyAssign AnyRefs AnyHistory AnyLogSpec AnyLog AnyExec AnyFacts AnyFacts2.

Lemma reusable_dec a o : {reusable a o} + {~ reusable a o}.
Proof.
  unfold reusable. destruct (a_vp a) as [k|b]; [right; by intros (? & ? & ? & ? & _)|].
  destruct (a_un a) as [|n|]; try (right; by intros (? & ? & ? & _ & ? & _)).
  destruct (a_un o) as [|m|]; try (right; by intros (? & ? & ? & _ & _ & ? & _)).
  destruct (le_dec m n); [left; by exists b, n, m|]. right. intros (? & ? & ? & _ & [= <-] & [= <-] & ?). lia.
Qed.

Lemma steal_direct E w i j a o v b n :
  e_soos E = 0 -> i <> j -> w_any w !! i = Some a -> w_any w !! j = Some o ->
  a_vt a = None -> a_vp a = PData i -> un_free E (a_un a) = true ->
  a_vp o = PHeap b -> a_un o = USize n -> a_vt o = Some v -> a_ms a = a_ms o ->
  move_value_from E false i j w =
    Ok tt (set_any w (<[j := Any None (PData j) (USize n) (a_alloc o) (a_ms o)]>
                     (<[i := Any (Some v) (PHeap b) (USize n) (a_alloc a) (a_ms a)]> (w_any w)))).
Proof.
  intros Hz Hij Ha Ho Hva Hpa Hfree Hpo Hun Hvo Hms. unfold move_value_from. rewrite noexcept_false.
  rewrite (bind_get_any _ _ _ _ Ha). unfold has_val at 1. rewrite Hva, (proj2 (mem_allocated_false i a) Hpa). cbn [negb andb ensure].
  unfold bindM at 1, retM at 1. rewrite (bind_get_any _ _ _ _ Ho). unfold has_val. rewrite Hvo. cbn [negb].
  rewrite Hz. cbn [Nat.eqb].
  match goal with |- bindM ?m _ _ = _ => assert (exists w1, m w = Ok tt w1 /\
     w1 = set_any w (<[i := Any None (PHeap b) (USize n) (a_alloc a) (a_ms a)]>
                    (<[j := Any (Some v) (PData j) (USize n) (a_alloc o) (a_ms o)]> (w_any w)))) as (w1 & H1 & Hw1) end.
  { eexists. split.
    - rewrite (bind_get_any _ _ _ _ Ho). erewrite bind_ok by by apply set_vp_ok.
      erewrite bind_ok by (apply (set_vp_ok _ _ _ a); cbn; by rewrite lookup_insert_ne).
      erewrite bind_ok by (eapply get_size_ok; [cbn; rewrite lookup_insert_ne by done; by rewrite lookup_insert|cbn; exact Hun]).
      apply set_size_ok; [cbn; by rewrite lookup_insert|done].
    - unfold set_any. cbn. rewrite insert_insert, Hva, Hvo, Hpo, Hun. done. }
  rewrite (bind_ok _ _ _ _ _ H1).
  assert (Ho1 : w_any w1 !! j = Some (Any (Some v) (PData j) (USize n) (a_alloc o) (a_ms o))).
  { rewrite Hw1. cbn. rewrite lookup_insert_ne by done. by rewrite lookup_insert. }
  assert (Ha1 : w_any w1 !! i = Some (Any None (PHeap b) (USize n) (a_alloc a) (a_ms a))).
  { rewrite Hw1. cbn. by rewrite lookup_insert. }
  rewrite (bind_get_any _ _ _ _ Ho1). cbn [a_vt a_ms]. unfold subtableM. rewrite Hms, subtable_same.
  unfold bindM at 1, retM at 1. erewrite bind_ok by by apply set_vt_ok.
  erewrite set_vt_ok by (cbn; by rewrite lookup_insert_ne).
  f_equal. rewrite Hw1. unfold set_any. cbn. f_equal.
  apply map_eq. intros k. destruct (decide (k = j)) as [->|]; [by rewrite !lookup_insert|].
  destruct (decide (k = i)) as [->|]; [|by rewrite !lookup_insert_ne by done].
  rewrite !(lookup_insert_ne _ j) by done. by rewrite !lookup_insert, ?Hms.
Qed.

(** the state after stealing *)
Definition stolen (E : env) (w w' : world) (i j : nat) : Prop :=
  content w' i = content w j /\ is_empty w' j /\
  (forall k, k <> i -> k <> j -> content w' k = content w k) /\
  exists o', w_any w' !! j = Some o' /\ a_vt o' = None /\ a_vp o' = PData j /\ un_free E (a_un o') = true.

Lemma move_assign_steal E w i j a o v :
  Inv E w -> i <> j -> w_any w !! i = Some a -> w_any w !! j = Some o -> a_ms a = a_ms o ->
  compat E a o = false -> e_soos E = 0 -> a_vt o = Some v -> ~ reusable a o -> 0 < e_soos E \/ (forall k, a_vp o <> PData k) ->
  exists w', move_assign E i j w = Ok tt w' /\ stolen E w w' i j.
Proof.
  intros HI Hij Ha Ho Hms Hc Hz Hov Hnr Hheap. unfold move_assign.
  unfold compat in Hc. apply orb_false_iff in Hc as [Hc Heq]. apply orb_false_iff in Hc as [Hae Hpm].
  assert (movable_alloc E = false) as -> by (unfold movable_alloc; by rewrite Hae, Hpm).
  rewrite noexcept_false. destruct (Nat.eqb_spec i j) as [|_]; [done|]. rewrite Hae, Hpm.
  destruct (destroy_value_spec E w i a HI Ha) as (w1 & a1 & H1 & I1 & F1 & Q1 & Ha1 & Hv1 & Hp1 & Hl1 & Hm1 & Hu1).
  assert (Ho1 : w_any w1 !! j = Some o) by (eapply view_lookup; [done|set_solver|done]).
  rewrite (bind_ok _ _ _ _ _ H1), (bind_get_any _ _ _ _ Ha1), (bind_get_any _ _ _ _ Ho1), Hl1, Heq. cbn [negb].
  destruct (vp_cases _ _ _ _ I1 Ho1) as [[Hpo _]|(b & Hpo & Hmo)].
  { destruct Hheap as [?|Hh]; [lia|]. by apply Hh in Hpo. }
  destruct (any_block _ _ _ _ _ I1 Ho1 Hpo) as (al & m & bo & Hb & _ & Hum).
  assert (Hcj : content w1 j = content w j) by (apply (content_frame {[i]}); [done|set_solver]).
  (* after the target's memory is gone *)
  assert (Hfin : forall w2 a2, Inv E w2 -> Eff {[i]} w w2 -> w_any w2 !! i = Some a2 -> a_vt a2 = None -> a_vp a2 = PData i ->
     a_ms a2 = a_ms a -> exists w', move_value_from E false i j w2 = Ok tt w' /\ stolen E w w' i j).
  { intros w2 a2 I2 F2 Ha2 Hv2 Hp2 Hm2.
    assert (Ho2 : w_any w2 !! j = Some o) by (eapply view_lookup; [done|set_solver|done]).
    pose proof (inv_ok _ _ I2 _ _ Ha2) as [_ Hok2]. rewrite Hp2, Hv2 in Hok2. destruct Hok2 as [_ Hfree].
    eexists. split; [apply (steal_direct E w2 i j a2 o v b m); try done; congruence|].
    assert (Hcf : content w2 j = content w j) by (apply (content_frame {[i]}); [done|set_solver]).
    split; [|split; [|split]].
    - rewrite <- Hcf. unfold content, view, block_of. cbn. rewrite lookup_insert_ne, lookup_insert by done. rewrite Ho2.
      cbn. unfold content_of. cbn. rewrite Hov, Hpo. done.
    - unfold is_empty, content, view. cbn. rewrite lookup_insert. done.
    - intros k Hki Hkj. rewrite <- (content_frame {[i]} w w2 k F2) by set_solver.
      unfold content, view. cbn. by rewrite !lookup_insert_ne by done.
    - cbn. rewrite lookup_insert. eexists. split; [done|]. done. }
  assert (Hde : exists w', ((if mem_allocated i a1 then deallocate_memory E i else retM tt) ;;; move_value_from E false i j) w1 = Ok tt w' /\ stolen E w w' i j).
  { destruct (vp_cases _ _ _ _ I1 Ha1) as [[Hp Hma]|(b1 & Hp & Hma)]; rewrite Hma.
    - unfold bindM, retM. by eapply (Hfin w1 a1).
    - destruct (deallocate_memory_spec _ _ _ _ _ I1 Ha1 Hv1 Hp) as (w2 & H2 & I2 & F2 & Q2 & Hany2 & _).
      rewrite (bind_ok _ _ _ _ _ H2). eapply (Hfin w2); [done|by eapply eff_trans|by rewrite Hany2, lookup_insert|done|done|done]. }
  unfold has_val. rewrite Hov, Hmo. cbn [andb].
  destruct (vp_cases _ _ _ _ I1 Ha1) as [[Hp Hma]|(b1 & Hp & Hma)]; rewrite Hma in Hde |- *.
  - unfold bindM at 1, retM at 1. exact Hde.
  - destruct (any_block _ _ _ _ _ I1 Ha1 Hp) as (al1 & n & bo1 & Hb1 & _ & Hun).
    assert (Hget : (let! n := get_size i in let! m := get_size j in retM (m <=? n)) w1 = Ok (m <=? n) w1).
    { rewrite (bind_ok _ _ _ _ _ (get_size_ok _ _ _ _ Ha1 Hun)), (bind_ok _ _ _ _ _ (get_size_ok _ _ _ _ Ho1 Hum)). done. }
    rewrite (bind_ok _ _ _ _ _ Hget). destruct (Nat.leb_spec m n) as [Hle|_]; [|exact Hde].
    exfalso. apply Hnr. exists b1, n, m. rewrite <- Hp1, <- (Hu1 b1) by congruence. done.
Qed.

Lemma dtor_direct E w t o : w_any w !! t = Some o -> a_vt o = None -> a_vp o = PData t -> un_free E (a_un o) = true ->
  dtor E t w = Ok tt (set_any w (delete t (w_any w))).
Proof.
  intros Ho Hv Hp Hf. unfold dtor, reset, destroy_value, drop_any, noexcept_if, bindM, get_any, retM, ensure, ubM, has_val, mem_allocated.
  rewrite Ho, Hv, Ho, Hp, bool_decide_true by done. cbn. by rewrite Ho, Hf.
Qed.

(** move assignment moves the value, for all allocators *)
Lemma move_assign_all E w w' i j : env_wf E -> reachable E w -> pre E w (OMoveAssign i j) ->
  run E (OMoveAssign i j) w = Ok tt w' ->
  if decide (i = j) then w' = w else content w' i = content w j /\ is_empty w' j.
Proof.
  intros Hwf Hr Hp Hrun. pose proof (reachable_inv _ _ Hwf Hr) as HI. pose proof Hp as (a & Ha & o & Ho & Hms & Hm).
  destruct (decide (i = j)) as [->|Hij] eqn:Hd.
  { cbn in Hrun. rewrite move_assign_self in Hrun. by injection Hrun. }
  assert (Hsafe : alloc_safe E w (OMoveAssign i j) -> content w' i = content w j /\ is_empty w' j).
  { intros Hs. pose proof (move_assign_fact E w w' i j Hwf Hr Hp Hs Hrun) as H. by rewrite Hd in H. }
  destruct (a_vt o) as [v|] eqn:Hov; [|apply Hsafe; exists a; split; [done|]; exists o; by eauto].
  destruct (compat E a o) eqn:Hc; [apply Hsafe; exists a; split; [done|]; exists o; by eauto|].
  destruct (decide (e_soos E = 0)) as [Hz|]; [|apply Hsafe; exists a; split; [done|]; exists o; by eauto 7].
  destruct (reusable_dec a o) as [|Hnr]; [apply Hsafe; exists a; split; [done|]; exists o; by eauto 7|].
  destruct (move_assign_steal E w i j a o v) as (w1 & H1 & Hst); try done.
  { right. intros k Hk. destruct (no_buffer_stable E w j (PData k) Hwf Hr Hz) as [b ?]; [|done]. unfold address. by rewrite Ho, Hov, Hk. }
  cbn in Hrun. rewrite H1 in Hrun. injection Hrun as ->. by destruct Hst as (? & ? & _).
Qed.

(** and so does copy assignment copy it *)
Lemma copy_assign_all E w w' i j t : env_wf E -> reachable E w -> pre E w (OCopyAssign i j t) ->
  run E (OCopyAssign i j t) w = Ok tt w' ->
  content w' i = content w j /\ (j <> i -> content w' j = content w j) /\ w_any w' !! t = None.
Proof.
  intros Hwf Hr Hp Hrun. pose proof (reachable_inv _ _ Hwf Hr) as HI. pose proof Hp as (Ht & a & Ha & o & Ho & Hms & Hcp).
  assert (Hsafe : alloc_safe E w (OCopyAssign i j t) -> content w' i = content w j /\ (j <> i -> content w' j = content w j) /\ w_any w' !! t = None).
  { intros Hs. exact (copy_assign_fact E w w' i j t Hwf Hr Hp Hs Hrun). }
  destruct (a_vt o) as [v|] eqn:Hov; [|apply Hsafe; exists a; split; [done|]; exists o; by eauto].
  destruct (copy_compat E a o) eqn:Hc; [apply Hsafe; exists a; split; [done|]; exists o; by eauto|].
  destruct (decide (e_soos E = 0)) as [Hz|]; [|apply Hsafe; exists a; split; [done|]; exists o; by eauto 7].
  clear Hsafe. cbn in Hrun. unfold copy_assign in Hrun. rewrite (bind_get_any _ _ _ _ Ho) in Hrun.
  assert (Hti : t <> i) by congruence. assert (Htj : t <> j) by congruence.
  pose proof (inv_ok _ _ HI _ _ Ho) as [Hd _]. pose proof (has_move_of_copy _ _ Hcp) as Hm.
  pose proof (copy_ctor_spec E w t j o (a_ms o) Hwf HI Ht Ho Hd (contiguous_refl _) Hcp) as H. unfold wp in H.
  destruct (copy_ctor E t j (a_ms o) w) as [[] w1|w1| |] eqn:Hcc; try done; [|by rewrite (bind_exn _ _ _ _ Hcc) in Hrun].
  rewrite (bind_ok _ _ _ _ _ Hcc) in Hrun. destruct H as (I1 & F1 & C1 & at1 & Hat & Hlt & Hmt & Hwhere).
  assert (Ha1 : w_any w1 !! i = Some a) by (eapply view_lookup; [done|set_solver|done]).
  assert (Ho1 : w_any w1 !! j = Some o) by (eapply view_lookup; [done|set_solver|done]).
  assert (Hadj : exists T x, content w j = Some (Some (T, x))).
  { eapply (address_content E w j (a_vp o)); [done|]. unfold address. by rewrite Ho, Hov. }
  destruct Hadj as (T & x & Hx). rewrite Hx in C1, Hwhere.
  destruct (content_vt _ _ _ _ _ Hat C1) as [vt Hvt].
  assert (Hfit : fits E T = false).
  { unfold fits. pose proof (wf_size _ Hwf T). rewrite Hz. destruct (Nat.leb_spec (ty_size (e_ty E T)) 0); [lia|]. by rewrite andb_false_r. }
  rewrite Hfit in Hwhere. destruct Hwhere as ((bt & Hpt) & Hunt & _).
  (* allocator propagation *)
  match type of Hrun with (on_exn (?p ;;; _) _ ;;; _) _ = _ => set (prop := p) in Hrun end.
  assert (Hprop : exists w2 a2, prop w1 = Ok tt w2 /\ Inv E w2 /\ Eff {[i]} w1 w2 /\ w_any w2 !! i = Some a2 /\
        a_alloc a2 = alloc_pocca E a o /\ a_ms a2 = a_ms a).
  { unfold prop, alloc_pocca. destruct (negb (e_always_eq E) && e_pocca E) eqn:Hpc; cbn [andb].
    2:{ exists w1, a. split; [done|]. split; [done|]. split; [apply eff_refl|]. done. }
    rewrite (bind_get_any _ _ _ _ Ha1), (bind_get_any _ _ _ _ Ho1).
    destruct (alloc_eqb E (a_alloc a) (a_alloc o)) eqn:Heq; cbn [negb].
    - exists w1, a. split; [done|]. split; [done|]. split; [apply eff_refl|]. done.
    - destruct (reset_spec E w1 i a I1 Ha1) as (w2 & a2 & H2 & I2 & F2 & Q2 & Ha2 & Hv2 & Hp2 & Hl2 & Hm2).
      destruct (set_alloc_spec E w2 i a2 (a_alloc o) I2 Ha2 Hv2 Hp2) as (Hsa & I3 & F3).
      eexists _, _. split; [by rewrite (bind_ok _ _ _ _ _ H2)|]. split; [done|]. split; [by eapply eff_trans|].
      cbn. rewrite lookup_insert. split; [done|]. done. }
  clearbody prop. destruct Hprop as (w2 & a2 & H2 & I2 & F2 & Ha2 & Hl2 & Hm2).
  assert (Hat2 : w_any w2 !! t = Some at1) by (eapply view_lookup; [done|set_solver|done]).
  assert (Hct : content w2 t = Some (Some (T, x))).
  { rewrite <- C1. apply (content_frame {[i]}); [done|set_solver]. }
  assert (Hcomp : compat E a2 at1 = false).
  { rewrite <- Hc. unfold compat, copy_compat. by rewrite Hl2, Hlt. }
  assert (Hstep : forall r, bindM (on_exn (prop ;;; move_assign E i t) (dtor E t)) (fun _ => dtor E t) w1 = r ->
     bindM (on_exn (move_assign E i t) (dtor E t)) (fun _ => dtor E t) w2 = r).
  { intros r <-. unfold bindM at 1, on_exn at 1. unfold bindM at 1. unfold on_exn at 1. rewrite (bind_ok _ _ _ _ _ H2). done. }
  apply Hstep in Hrun. clear Hstep.
  assert (Hj2 : j <> i -> content w2 j = content w j).
  { intros Hij. rewrite (content_frame {[i]} w1 w2 j F2) by set_solver. apply (content_frame {[t]} w w1 j F1). set_solver. }
  destruct (reusable_dec a2 at1) as [Hre|Hnr].
  - (* relocated into the memory of [i] *)
    pose proof (move_assign_spec E w2 i t a2 at1 Hwf I2 (not_eq_sym Hti) Ha2 Hat2) as H. unfold wp in H.
    assert (a_ms a2 = a_ms at1) as Hms2 by congruence. specialize (H Hms2). rewrite Hmt in H. specialize (H (has_move_assign_of _ _ Hm)).
    specialize (H ltac:(intros _ _; by right)).
    unfold bindM, on_exn in Hrun. destruct (move_assign E i t w2) as [[] w3|w3| |]; try done.
    + destruct H as (I3 & F3 & C3 & C3' & a3 & t3 & Ha3 & Ht3 & _). destruct (dtor_spec E w3 t t3 I3 Ht3) as (w4 & H4 & I4 & F4 & _ & Ht4).
      rewrite H4 in Hrun. injection Hrun as <-. split; [|split; [|done]].
      * rewrite (content_frame {[t]} w3 w4 i F4) by set_solver. congruence.
      * intros Hij. rewrite (content_frame {[t]} w3 w4 j F4) by set_solver.
        rewrite (content_frame {[i; t]} w2 w3 j F3) by set_solver. by apply Hj2.
    + by destruct (dtor E t w3).
  - (* the memory of the temporary is taken over *)
    destruct (move_assign_steal E w2 i t a2 at1 vt) as (w3 & H3 & C3 & C3' & Ck & t3 & Ht3 & Hv3 & Hp3 & Hf3); try done.
    { congruence. } { right. congruence. }
    unfold bindM, on_exn in Hrun. rewrite H3 in Hrun. rewrite (dtor_direct E w3 t t3 Ht3 Hv3 Hp3 Hf3) in Hrun. injection Hrun as <-.
    split; [|split].
    + rewrite Hx, <- Hct, <- C3. unfold content, view, block_of. cbn. rewrite lookup_delete_ne by done. done.
    + intros Hij. rewrite <- (Hj2 Hij), <- (Ck j) by done. unfold content, view, block_of. cbn. by rewrite lookup_delete_ne by done.
    + cbn. by rewrite lookup_delete.
Qed.
