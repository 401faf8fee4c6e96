(** Programs on which the modelled code breaks a property, and facts needed by the property files only. *)
From stdpp Require Import gmap list.
From Verif Require Import TypeListModel TypeListSpec TypeListProofs AnyModel AnyInv AnySteps AnyOps AnyMove
  AnyLife AnyAssign AnyRefs AnyHistory AnyLogSpec AnyLog AnyExec AnyFacts AnyFacts2 AnySteal AnyDestroyed AnyExamples.

(** ** independence of copies: programs that do not touch an any leave it alone *)
Lemma exec_frame E l w w' k : env_wf E -> reachable E w -> allowed_alloc E l w -> exec E l w = Ok tt w' ->
  (forall o, In o l -> k ∉ touches o) -> content w' k = content w k /\ address w' k = address w k.
Proof.
  intros Hwf. revert w. induction l as [|o tl IH]; intros w Hr Hall Hex Ht; cbn in Hex; [by injection Hex as <-|].
  destruct Hall as (Hp & Hs & Hall).
  assert (H : forall w1, outcome E o w w1 -> allowed_alloc E tl w1 -> exec E tl w1 = Ok tt w' ->
    content w' k = content w k /\ address w' k = address w k).
  { intros w1 Ho Ha He. destruct (frame E w w1 o k Hwf Hr Hp Hs Ho) as (H1 & H2 & _); [apply Ht; by left|].
    destruct (IH w1) as [H3 H4]; [by eapply reachable_outcome|done|done|intros; apply Ht; by right|]. by rewrite H3, H4. }
  destruct (run E o w) as [[] w1|w1| |] eqn:Hr1; try done; apply (H w1); try done; [by left|by right].
Qed.
Lemma copy_independent E w w' w'' i j ms l : env_wf E -> reachable E w -> pre E w (OCopy i j ms) -> run E (OCopy i j ms) w = Ok tt w' ->
  allowed_alloc E l w' -> exec E l w' = Ok tt w'' ->
  ((forall o, In o l -> j ∉ touches o) -> content w'' j = content w j) /\
  ((forall o, In o l -> i ∉ touches o) -> content w'' i = content w j).
Proof.
  intros Hwf Hr Hp Hrun Hall Hex. assert (Hr' : reachable E w') by (eapply reachable_outcome; [done|done|done|by left]).
  destruct (copy_equal E w w' i j ms Hwf Hr Hp Hrun) as (H1 & H2 & _ & _).
  split; intros Ht; destruct (exec_frame E l w' w'' _ Hwf Hr' Hall Hex Ht) as [H3 _]; congruence.
Qed.

(** ** idempotence, capacity *)
Lemma reset_idem E w w' i : env_wf E -> reachable E w -> pre E w (OReset i) -> run E (OReset i) w = Ok tt w' -> run E (OReset i) w' = Ok tt w'.
Proof.
  intros Hwf Hr (a & Ha & _) Hrun. cbn in *.
  destruct (reset_spec E w i a (reachable_inv _ _ Hwf Hr) Ha) as (w1 & a1 & H1 & _ & _ & _ & Ha1 & Hv1 & Hp1 & _).
  rewrite H1 in Hrun. injection Hrun as ->. unfold reset, noexcept_if, bindM, destroy_value, noexcept_if, bindM, get_any, has_val, retM.
  rewrite Ha1, Hv1, Ha1. by rewrite (proj2 (mem_allocated_false i a1) Hp1).
Qed.
Lemma destroy_idem E w w' i : env_wf E -> reachable E w -> pre E w (ODestroy i) -> run E (ODestroy i) w = Ok tt w' -> run E (ODestroy i) w' = Ok tt w'.
Proof.
  intros Hwf Hr (a & Ha & _) Hrun. cbn in *.
  destruct (destroy_value_spec E w i a (reachable_inv _ _ Hwf Hr) Ha) as (w1 & a1 & H1 & _ & _ & _ & Ha1 & Hv1 & _).
  rewrite H1 in Hrun. injection Hrun as ->. unfold destroy_value, noexcept_if, bindM, get_any, has_val, retM. by rewrite Ha1, Hv1.
Qed.
Lemma replace_then_emplace E w w' i n b T s nt : env_wf E -> reachable E w -> pre E w (OReplace i n) -> run E (OReplace i n) w = Ok tt w' ->
  owns w' i b -> ty_size (e_ty E T) <= n -> pre E w' (OEmplace i T s nt) ->
  match run E (OEmplace i T s nt) w' with
  | Ok _ w'' => allocs w'' = allocs w' /\ address w'' i = Some (PHeap b)
  | Exn _ => True
  | _ => False
  end.
Proof.
  intros Hwf Hr Hp Hrun Ho Hsz Hp'. pose proof (replace_fact E w i n Hwf Hr Hp) as H. rewrite Hrun in H. destruct H as [_ (c & Hc & Hn)].
  assert (Hr' : reachable E w') by (eapply reachable_outcome; [done|done|done|by left]).
  destruct (capacity_fact E w' i Hwf Hr') as (c' & Hc' & Hb & _). { destruct Ho as (a & -> & _). by eexists. }
  rewrite Hc in Hc'. injection Hc' as <-. destruct (Hb b Ho) as (x & Hx & ->).
  eapply emplace_reuses; try done. lia.
Qed.

(** ** allocators *)
Lemma wrong_allocator_no_buffer : exists E l, env_wf E /\ allowed E l init_world /\ e_soos E = 0 /\
  exec E l init_world = UB UbWrongAllocator.
Proof.
  exists (mkE 0 false false false []), [OValue 0 1 full 1 (AVal 10) false; ODefault 1 2 full; OMoveAssign 1 0; ODtor 1].
  split; [apply mkE_wf|]. split; [apply legalb_sound; by vm_compute|]. split; by vm_compute.
Qed.
Lemma wrong_allocator_copy_assign : exists E l, env_wf E /\ allowed E l init_world /\ e_soos E = 0 /\
  (forall o, In o l -> match o with OMoveAssign _ _ | OTransMove _ _ _ => False | _ => True end) /\
  exec E l init_world = UB UbWrongAllocator.
Proof.
  exists (mkE 0 false false false []), [OValue 0 1 full 1 (AVal 10) false; ODefault 1 2 full; OCopyAssign 1 0 9; ODtor 1].
  split; [apply mkE_wf|]. split; [apply legalb_sound; by vm_compute|]. split; [by vm_compute|]. split; [|by vm_compute].
  intros o [<-|[<-|[<-|[<-|[]]]]]; done.
Qed.
Lemma wrong_allocator_conversion : exists E l i j ms, env_wf E /\ allowed E l init_world /\ e_soos E = 16 /\
  In (OTransMove i j ms) l /\ exec E l init_world = UB UbWrongAllocator.
Proof.
  exists (mkE 16 false true false []), [OValue 0 1 full 1 (AVal 10) false; OTransMove 1 0 part; ODtor 1], 1, 0, part.
  split; [apply mkE_wf|]. split; [apply legalb_sound; by vm_compute|]. split; [done|]. split; [by right; left|by vm_compute].
Qed.

(** histories for which it is fine: always with a buffer and without converting moves *)
Lemma buffer_blocks E l w : env_wf E -> e_soos E <> 0 -> forallb (fun o => negb (converting_move o)) l = true ->
  allowed E l init_world ->
  (forall r, exec E l init_world <> UB r) /\
  (exec E l init_world = Ok tt w -> exists m, blocks (fun a b => alloc_eqb E a b = true) (w_log w) m).
Proof.
  intros Hwf Hz Hc Hall. pose proof (buffer_allowed E l init_world Hz Hc Hall) as H. split.
  - intros r. apply exec_safe; [done|apply reach_init|done].
  - intros He. destruct (blocks_owned E w Hwf) as (m & Hm & _); [|by exists m]. by eapply exec_reachable; [apply reach_init|..].
Qed.
Lemma safe_blocks E l w : env_wf E -> allowed_alloc E l init_world ->
  (forall r, exec E l init_world <> UB r) /\
  (exec E l init_world = Ok tt w -> exists m, blocks (fun a b => alloc_eqb E a b = true) (w_log w) m).
Proof.
  intros Hwf H. split.
  - intros r. apply exec_safe; [done|apply reach_init|done].
  - intros He. destruct (blocks_owned E w Hwf) as (m & Hm & _); [|by exists m]. by eapply exec_reachable; [apply reach_init|..].
Qed.

(** ** exceptions *)
Lemma copy_assign_loses_value : exists E w w' i j t, env_wf E /\ reachable E w /\ pre E w (OCopyAssign i j t) /\
  alloc_safe E w (OCopyAssign i j t) /\ run E (OCopyAssign i j t) w = Exn w' /\
  content w i = Some (Some (5, 20)) /\ content w' i = Some None.
Proof.
  set (E := mkE 16 false false false [4]). set (l := [OValue 0 1 full 1 (AVal 10) false; OValue 1 2 full 5 (AVal 20) true]).
  exists E, (after E l), (after E (l ++ [OCopyAssign 1 0 9])), 1, 0, 9.
  split; [apply mkE_wf|]. split; [apply after_reachable; by vm_compute|]. split; [apply preb_sound; by vm_compute|].
  split; [apply alloc_safeb_sound; by vm_compute|]. split; [apply run_exn; by vm_compute|]. by vm_compute.
Qed.
Lemma move_assign_loses_value : exists E w w' i j, env_wf E /\ reachable E w /\ pre E w (OMoveAssign i j) /\
  alloc_safe E w (OMoveAssign i j) /\ run E (OMoveAssign i j) w = Exn w' /\
  content w i = Some (Some (5, 20)) /\ content w' i = Some None.
Proof.
  set (E := mkE 16 false false false [2]). set (l := [OValue 0 1 full 1 (AVal 10) false; OValue 1 2 full 5 (AVal 20) true]).
  exists E, (after E l), (after E (l ++ [OMoveAssign 1 0])), 1, 0.
  split; [apply mkE_wf|]. split; [apply after_reachable; by vm_compute|]. split; [apply preb_sound; by vm_compute|].
  split; [apply alloc_safeb_sound; by vm_compute|]. split; [apply run_exn; by vm_compute|]. by vm_compute.
Qed.
Lemma assign_terminates : exists E w i j, env_wf E /\ reachable E w /\ pre E w (OMoveAssign i j) /\
  alloc_safe E w (OMoveAssign i j) /\ run E (OMoveAssign i j) w = Term.
Proof.
  set (E := mkE 16 false false false [3]). set (l := [OValue 0 1 full 3 (AVal 10) false; ODefault 1 2 full]).
  exists E, (after E l), 1, 0.
  split; [apply mkE_wf|]. split; [apply after_reachable; by vm_compute|]. split; [apply preb_sound; by vm_compute|].
  split; [apply alloc_safeb_sound; by vm_compute|]. by vm_compute.
Qed.
(** exactly when assignment keeps the guarantee: move assignment cannot throw, copy assignment throws before
    anything is changed *)
Lemma assign_strong E w w' i j t : env_wf E -> reachable E w -> e_always_eq E = true \/ e_pocma E = true ->
  (pre E w (OMoveAssign i j) -> run E (OMoveAssign i j) w <> Exn w') /\
  (pre E w (OCopyAssign i j t) -> run E (OCopyAssign i j t) w = Exn w' ->
     w_any w' = w_any w /\ w_heap w' = w_heap w /\ w_sref w' = w_sref w).
Proof.
  intros Hwf Hr Hc. split.
  - intros Hp. destruct (move_assign_never_throws E w i j Hwf Hr Hp Hc) as (w1 & -> & _). done.
  - intros Hp. pose proof Hp as (_ & a & Ha & b & Hb & _). eapply copy_assign_strong; try done.
    unfold copy_compat. by destruct Hc as [-> | ->], (e_always_eq E).
Qed.
Lemma force_terminates : exists E w i ms T s, env_wf E /\ reachable E w /\ pre E w (OForce i ms T s true) /\
  e_always_eq E = true /\ run E (OForce i ms T s true) w = Term.
Proof.
  exists (mkE 16 true false false [0]), init_world, 0, full, 5, (AVal 1).
  split; [apply mkE_wf|]. split; [apply reach_init|]. split; [apply preb_sound; by vm_compute|]. split; by vm_compute.
Qed.

(** ** placement *)
Lemma stable_pointer_moves : exists E w w' i j, env_wf E /\ reachable E w /\ pre E w (OMoveAssign i j) /\ alloc_safe E w (OMoveAssign i j) /\
  val_of (is_stable_pointers j w) = Some true /\ run E (OMoveAssign i j) w = Ok tt w' /\
  content w' i = content w j /\ address w' i <> address w j.
Proof.
  set (E := mkE 16 false false false []). set (l := [OValue 0 1 full 1 (AVal 10) false; ODefault 1 2 full]).
  exists E, (after E l), (after E (l ++ [OMoveAssign 1 0])), 1, 0.
  split; [apply mkE_wf|]. split; [apply after_reachable; by vm_compute|]. split; [apply preb_sound; by vm_compute|].
  split; [apply alloc_safeb_sound; by vm_compute|]. split; [by vm_compute|]. split; [apply run_ok; by vm_compute|]. by vm_compute.
Qed.
Lemma small_move_allocates : exists E w w' i j T x, env_wf E /\ reachable E w /\ pre E w (OMoveAssign i j) /\ alloc_safe E w (OMoveAssign i j) /\
  content w j = Some (Some (T, x)) /\ fits E T = true /\ run E (OMoveAssign i j) w = Ok tt w' /\ allocs w' <> allocs w.
Proof.
  set (E := mkE 16 false false false []). set (l := [OForce 0 full 5 (AVal 10) true; ODefault 1 2 full]).
  exists E, (after E l), (after E (l ++ [OMoveAssign 1 0])), 1, 0, 5, 10.
  split; [apply mkE_wf|]. split; [apply after_reachable; by vm_compute|]. split; [apply preb_sound; by vm_compute|].
  split; [apply alloc_safeb_sound; by vm_compute|]. do 2 (split; [by vm_compute|]). split; [apply run_ok; by vm_compute|]. by vm_compute.
Qed.
(** whenever memory is obtained for an over-aligned type, the object ends up misaligned *)
Lemma over_aligned_misplaced E w i al ms T v nt : w_any w !! i = None -> max_align < ty_align (e_ty E T) ->
  e_throws E (w_tick w) = false -> run E (OValue i al ms T (AVal v) nt) w = UB UbMisaligned.
Proof.
  intros Hi Hal Hok. change (value_ctor E i al ms T (SVal v) nt w = UB UbMisaligned). unfold value_ctor, noexcept_if.
  assert (fits E T = false) as Hf. { unfold fits. destruct (Nat.leb_spec (ty_align (e_ty E T)) max_align); [lia|done]. }
  assert (Hcv : forall w1 a, w_any w1 !! i = Some a -> construct_value E i T (SVal v) nt w1 = UB UbMisaligned).
  { intros w1 a Ha. unfold construct_value, noexcept_if, bindM, get_any. rewrite Ha. unfold construct, check_place, bindM, ensure.
    destruct (Nat.leb_spec (ty_align (e_ty E T)) max_align); [lia|]. done. }
  assert (H : ctor E i al ms (emplace_in_empty E i T false (SVal v) nt) w = UB UbMisaligned); [|by rewrite H].
  unfold ctor, bindM at 1, new_any at 1. rewrite Hi.
  set (a0 := Any None (PData i) UEmpty al ms). set (w0 := set_any w (<[i:=a0]> (w_any w))).
  assert (Ha0 : w_any w0 !! i = Some a0) by (unfold w0; cbn; by rewrite lookup_insert).
  assert (H : emplace_in_empty E i T false (SVal v) nt w0 = UB UbMisaligned); [|unfold on_exn; by rewrite H].
  unfold emplace_in_empty. rewrite Hf. cbn [andb]. rewrite (bind_get_any _ _ _ _ Ha0).
  rewrite (bind_ok _ _ _ _ _ (allocate_ok E w0 (a_alloc a0) (ty_size (e_ty E T)) Hok)).
  set (w1 := alloc_w _ _ _). assert (Ha1 : w_any w1 !! i = Some a0) by done.
  rewrite (bind_ok _ _ _ _ _ (set_vp_ok _ _ _ _ Ha1)). set (w2 := set_any _ _).
  set (a2 := Any _ _ _ _ _) in w2. assert (Ha2 : w_any w2 !! i = Some a2) by (unfold w2; cbn; by rewrite lookup_insert).
  rewrite (bind_ok _ _ _ _ _ (set_size_ok E i (ty_size (e_ty E T)) w2 a2 Ha2 eq_refl)). set (w3 := set_any _ _).
  set (a3 := Any _ _ _ _ _) in w3. assert (Ha3 : w_any w3 !! i = Some a3) by (unfold w3; cbn; by rewrite lookup_insert).
  pose proof (Hcv w3 a3 Ha3) as H. destruct nt; [done|]. unfold on_exn. by rewrite H.
Qed.

(** ** references *)
Lemma materialize_exception_ub : exists E w i al x, env_wf E /\ e_always_eq E = true /\ reachable E w /\
  w_any w !! i = None /\ (exists ms T, denotes w x ms T /\ In MDestroy ms /\ In (MCopy true) ms /\ ty_align (e_ty E T) <= max_align) /\
  run E (OMaterialize i al x) w = UB UbNoObject.
Proof.
  set (E := mkE 16 true false false [1]). set (l := [OValue 0 0 full 2 (AVal 10) false]).
  exists E, (after E l), 1, 0, (RAny 0 part).
  split; [apply mkE_wf|]. split; [done|]. split; [apply after_reachable; by vm_compute|]. split; [by vm_compute|].
  split. { exists part, 2. split; [apply refb_true; by vm_compute|]. cbn. split; [by left|]. split; [by right; right; left|]. unfold max_align. lia. }
  by vm_compute.
Qed.
Lemma materialize_bad_alloc_ub : exists E w i al x, env_wf E /\ e_always_eq E = true /\ reachable E w /\
  w_any w !! i = None /\ (exists ms T, denotes w x ms T /\ In MDestroy ms /\ In (MCopy true) ms /\ ty_align (e_ty E T) <= max_align) /\
  run E (OMaterialize i al x) w = UB UbNoObject.
Proof.
  set (E := mkE 16 true false false [2]). set (l := [OValue 0 0 full 1 (AVal 10) false]).
  exists E, (after E l), 1, 0, (RAny 0 part).
  split; [apply mkE_wf|]. split; [done|]. split; [apply after_reachable; by vm_compute|]. split; [by vm_compute|].
  split. { exists part, 1. split; [apply refb_true; by vm_compute|]. cbn. split; [by left|]. split; [by right; right; left|]. unfold max_align. lia. }
  by vm_compute.
Qed.
(** where copies need the allocator, materialize does not compile *)
Lemma materialize_stateful_ill_formed : exists E w i al x, env_wf E /\ reachable E w /\
  w_any w !! i = None /\ (exists ms T, denotes w x ms T /\ In MDestroy ms /\ In (MCopy true) ms /\ ty_align (e_ty E T) <= max_align /\
    fits E T && ty_ntcopy (e_ty E T) = true) /\
  run E (OMaterialize i al x) w = UB UbIllFormed.
Proof.
  set (E := mkE 16 false false false []). set (l := [OValue 0 0 full 5 (AVal 10) true]).
  exists E, (after E l), 1, 0, (RAny 0 part).
  split; [apply mkE_wf|]. split; [apply after_reachable; by vm_compute|]. split; [by vm_compute|].
  split. { exists part, 5. split; [apply refb_true; by vm_compute|]. cbn. split; [by left|]. split; [by right; right; left|]. split; [unfold max_align; lia|]. by vm_compute. }
  by vm_compute.
Qed.
Lemma materialize_dangles : exists E w w' i r, env_wf E /\ e_always_eq E = true /\ reachable E w /\
  (exists T x, content w i = Some (Some (T, x))) /\ run E (ODropSref r) w = Ok tt w' /\
  run E (ODtor i) w' = UB UbDanglingVtable.
Proof.
  set (E := mkE 16 true false false []). set (l := [OValue 0 0 full 5 (AVal 10) true; OSref 0 0 [MCopy true; MDestroy]; OMaterialize 1 0 (RSref 0)]).
  exists E, (after E l), (after E (l ++ [ODropSref 0])), 1, 0.
  split; [apply mkE_wf|]. split; [done|]. split; [apply after_reachable; by vm_compute|].
  split; [exists 5, 10; by vm_compute|]. split; [apply run_ok; by vm_compute|]. by vm_compute.
Qed.
(** a reference to the any's own value as argument: the value is gone before it is read *)
Lemma self_argument_ub : exists E w i T x, env_wf E /\ e_always_eq E = true /\ reachable E w /\
  content w i = Some (Some (T, x)) /\ ty_align (e_ty E T) <= max_align /\
  run E (OEmplace i T (AFrom i) false) w = UB UbNoObject.
Proof.
  set (E := mkE 16 true false false []). set (l := [OValue 0 0 full 1 (AVal 10) false]).
  exists E, (after E l), 0, 1, 10.
  split; [apply mkE_wf|]. split; [done|]. split; [apply after_reachable; by vm_compute|]. split; [by vm_compute|].
  split; [cbn; unfold max_align; lia|]. by vm_compute.
Qed.
