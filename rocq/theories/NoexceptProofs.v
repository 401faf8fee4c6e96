(** noexcept specifications of anys (C98). *)
From stdpp Require Import gmap list.
From Verif Require Import TypeListSpec AnyModel AnyInv AnySteps AnyAssign AnyHistory AnyLogSpec AnyExec AnyFacts AnyValue AnyExamples NoexceptModel NoexceptSpec.

(** ** what is declared noexcept does not throw *)
Definition noexc {A} (m : M A) : Prop := forall w w', m w <> Exn w'.
Lemma noexc_ret {A} (a : A) : noexc (retM a).
Proof. done. Qed.
Lemma noexc_bind {A B} (m : M A) (f : A -> M B) : noexc m -> (forall a, noexc (f a)) -> noexc (bindM m f).
Proof. intros Hm Hf w w'. unfold bindM. destruct (m w) eqn:H; try done; [apply Hf|]. intros _. by apply (Hm w w0). Qed.
Lemma noexc_get i : noexc (get_any i).
Proof. intros w w'. unfold get_any. by case_match. Qed.
Lemma noexc_noexcept {A} (m : M A) : noexc (noexcept_if true m).
Proof. intros w w'. unfold noexcept_if. by destruct (m w). Qed.
Lemma noexc_arg s : noexc (eval_arg s).
Proof. destruct s; [done|]. apply noexc_bind; [apply noexc_get|done]. Qed.

Theorem declared_holds E w o : env_wf E -> reachable E w -> pre E w o -> alloc_safe E w o -> declared E o = true ->
  (forall i ms T s nt, o <> OForce i ms T s nt) -> exists w', run E o w = Ok tt w'.
Proof.
  intros Hwf Hr Hp Hs Hd Hf. pose proof (step_safe E w o Hwf (reachable_inv _ _ Hwf Hr) Hp Hs) as Hw. unfold wp in Hw.
  assert (~ may_terminate E o) as Ht.
  { intros Hm. destruct o; cbn in Hd, Hm; try done; unfold movable_alloc in Hd; try exact (Hf _ _ _ _ _ eq_refl); destruct Hm as [H1 H2]; by rewrite H1, H2 in Hd. }
  assert (forall w', run E o w <> Exn w') as Hx.
  { intros w' Hx. destruct o; try done; cbn [declared] in Hd.
    - cbn in Hx. unfold default_ctor, new_any in Hx. by case_match.
    - cbn in Hx. unfold value_ctor in Hx. rewrite Hd in Hx. revert Hx. apply noexc_bind; [apply noexc_arg|intros ?; apply noexc_noexcept].
    - cbn in Hx. unfold move_ctor in Hx. rewrite Hd in Hx. revert Hx. apply noexc_bind; [apply noexc_get|intros ?; apply noexc_noexcept].
    - cbn in Hx. unfold trans_move_ctor in Hx. rewrite Hd in Hx. revert Hx. apply noexc_noexcept.
    - cbn in Hx. unfold move_assign in Hx. rewrite Hd in Hx. revert Hx. apply noexc_noexcept.
    - apply andb_prop in Hd as [Hd _]. by eapply swap_never_throws.
    - cbn in Hx. unfold emplace in Hx. rewrite Hd in Hx. revert Hx. apply noexc_bind; [apply noexc_arg|intros ?; apply noexc_noexcept].
    - revert Hx. apply noexc_noexcept.
    - revert Hx. apply noexc_noexcept.
    - revert Hx. cbn. apply noexc_bind; [apply noexc_noexcept|]. intros _. apply noexc_bind; [apply noexc_get|]. intros a. apply noexc_bind; [|by intros ? ? ?].
      unfold ensure. by destruct (un_free _ _). }
  destruct (run E o w) as [[] w'|w'| |]; [eauto|by destruct (Hx w')|done|done].
Qed.

(** ** what is not declared noexcept can throw *)
(** the same class with a type that never fits the buffer, where the [n]-th action that may throw does and all after it *)
Definition probe (E : env) (n : nat) : env :=
  Env (fun _ => TyInfo 8 8 false false false false) (e_soos E) (e_always_eq E) (e_pocma E) (e_pocca E) (e_socc E) (e_copy_req_alloc E) (e_def_alloc E)
    meth_ex (fun k => n <=? k).
Lemma probe_class E n : same_class E (probe E n).
Proof. repeat split. Qed.
Lemma probe_wf E n : env_wf E -> env_wf (probe E n).
Proof. intros [_ _ H]. split; [intros; cbn; lia|done|exact H]. Qed.
Definition failing (E : env) : env :=
  Env (e_ty E) (e_soos E) (e_always_eq E) (e_pocma E) (e_pocca E) (e_socc E) (e_copy_req_alloc E) (e_def_alloc E) (e_meth E) (fun _ => true).
Lemma failing_class E : same_class E (failing E).
Proof. repeat split. Qed.


Definition never {A} (m : M A) : Prop := forall w a w', m w <> Ok a w'.
Lemma never_bind_l {A B} (m : M A) (f : A -> M B) : never m -> never (bindM m f).
Proof. intros H w b w'. unfold bindM. destruct (m w) as [a w1| | |] eqn:He; try done. by destruct (H w a w1). Qed.
Lemma never_bind_r {A B} (m : M A) (f : A -> M B) : (forall a, never (f a)) -> never (bindM m f).
Proof. intros H w b w'. unfold bindM. destruct (m w) as [a w1| | |] eqn:He; try done. apply H. Qed.
Lemma never_noexcept {A} b (m : M A) : never m -> never (noexcept_if b m).
Proof. intros H w a w'. unfold noexcept_if. destruct (m w) eqn:He; try done; [|by destruct b]. intros [= -> ->]. by apply H in He. Qed.
Lemma never_on_exn {A} (m : M A) h : never m -> never (on_exn m h).
Proof. intros H w a w'. unfold on_exn. destruct (m w) eqn:He; try done; [by apply H in He|]. by destruct (h w0). Qed.
Lemma never_allocate E al n : never (allocate (failing E) al n).
Proof. by intros w a w'. Qed.
Lemma never_construct E T p s : never (construct (failing E) T p s false).
Proof. apply never_bind_r. intros _. apply never_bind_r. intros v w a w'. unfold bindM at 1. cbn. unfold bindM, throwM. by destruct (write_place p None _). Qed.
Lemma never_construct_value E i T s : never (construct_value (failing E) i T s false).
Proof. apply never_noexcept, never_bind_r. intros a. apply never_bind_l, never_construct. Qed.
Lemma never_emplace_in_empty E i T f s nt : nt && fits E T = false -> never (emplace_in_empty (failing E) i T f s nt).
Proof.
  intros Hd. unfold emplace_in_empty. change (fits (failing E) T) with (fits E T). destruct (fits E T), f; cbn [andb negb].
  2: destruct nt; [done|]; apply never_construct_value.
  all: apply never_bind_r; intros a; apply never_bind_l, never_allocate.
Qed.
Lemma failing_wf E : env_wf E -> env_wf (failing E).
Proof. intros [H1 H2 H3]. by split. Qed.
Lemma never_throws E w o : env_wf E -> reachable E w -> pre E w o -> alloc_safe E w o -> ~ may_terminate E o -> (forall a w', run E o w <> Ok a w') -> exists w', run E o w = Exn w'.
Proof.
  intros Hwf Hr Hp Hs Ht Hn. pose proof (step_safe E w o Hwf (reachable_inv _ _ Hwf Hr) Hp Hs) as Hw. unfold wp in Hw.
  destruct (run E o w) as [a w'|w'| |] eqn:Ho; [by destruct (Hn a w')|eauto|done|done].
Qed.
Lemma value_can_throw E T nt : env_wf E -> ty_align (e_ty E T) <= max_align -> nt && fits E T = false -> can_throw_here E (is_value_ctor T nt).
Proof.
  intros Hwf Ha Hd. destruct (never_throws (failing E) init_world (OValue 0 0 [MDestroy] T (AVal 0) nt)) as [w' Hw].
  - by apply failing_wf.
  - apply reach_init.
  - repeat split; [by left|done].
  - done.
  - by intros [].
  - intros a w'. apply never_bind_r. intros x. apply never_noexcept, never_bind_r. intros _. apply never_on_exn. by apply never_emplace_in_empty.
  - exists (failing E), init_world, (OValue 0 0 [MDestroy] T (AVal 0) nt), w'. repeat split; try done; [apply reach_init|by do 4 eexists|by left].
Qed.
Lemma force_can_throw E T nt : env_wf E -> ty_align (e_ty E T) <= max_align -> nt && fits E T = false -> can_throw_here E (is_force_ctor T nt).
Proof.
  intros Hwf Ha Hd. destruct (never_throws (failing E) init_world (OForce 0 [MDestroy] T (AVal 0) nt)) as [w' Hw].
  - by apply failing_wf.
  - apply reach_init.
  - repeat split; [by left|done].
  - done.
  - cbn. change (fits (failing E) T) with (fits E T). by rewrite Hd.
  - intros a w'. apply never_bind_r. intros x. apply never_noexcept, never_bind_r. intros _. apply never_on_exn. by apply never_emplace_in_empty.
  - exists (failing E), init_world, (OForce 0 [MDestroy] T (AVal 0) nt), w'. repeat split; try done; [apply reach_init|by do 3 eexists|by left].
Qed.
Lemma emplace_can_throw E T nt : env_wf E -> ty_align (e_ty E T) <= max_align -> nt && fits E T = false -> can_throw_here E (is_emplace T nt).
Proof.
  intros Hwf Ha Hd. set (w := set_any init_world (<[0 := Any None (PData 0) UEmpty 0 [MDestroy]]> ∅)).
  assert (reachable (failing E) w) as Hr.
  { eapply (reach_ok _ init_world (ODefault 0 0 [MDestroy])); [apply reach_init|split; [done|by left]|done|reflexivity]. }
  assert (pre (failing E) w (OEmplace 0 T (AVal 0) nt)) as Hp.
  { split; [eexists; split; [reflexivity|done]|done]. }
  destruct (never_throws (failing E) w (OEmplace 0 T (AVal 0) nt)) as [w' Hw]; try done.
  - by apply failing_wf.
  - by intros [].
  - intros a w'. cbn [run eval_arg]. unfold bindM at 1, retM. unfold emplace. change (fits (failing E) T) with (fits E T). rewrite Hd.
    intros H. apply (never_emplace_in_empty E 0 T false (SVal 0) nt Hd w a w'). rewrite <- H. unfold noexcept_if, bindM at 1.
    replace (destroy_value (failing E) 0 w) with (Ok tt w) by reflexivity. unfold bindM at 1. replace (get_any 0 w) with (Ok (Any None (PData 0) UEmpty 0 [MDestroy]) w) by reflexivity.
    replace (mem_allocated 0 (Any None (PData 0) UEmpty 0 [MDestroy])) with false by reflexivity. cbn [negb]. by destruct (emplace_in_empty _ _ _ _ _ _ _).
  - exists (failing E), w, (OEmplace 0 T (AVal 0) nt), w'. split; [apply failing_class|]. split; [done|]. split; [done|]. split; [by do 2 eexists|]. done.
Qed.


Ltac probing :=
  split; [apply probe_class|]; split; [by apply probe_wf|]; split; [apply after_reachable; by vm_compute|]; split; [done|].
Lemma copy_can_throw E : env_wf E -> can_throw E is_copy_ctor.
Proof.
  intros Hwf. set (l := [OValue 0 0 full 0 (AVal 0) true]).
  exists (probe E 1), (after (probe E 1) l), (OCopy 1 0 full), (after (probe E 1) (l ++ [OCopy 1 0 full])).
  probing. split; [apply preb_sound; by vm_compute|]. apply run_exn; by vm_compute.
Qed.
Lemma copy_assign_can_throw E : env_wf E -> can_throw E is_copy_assign.
Proof.
  intros Hwf. set (l := [OValue 0 0 full 0 (AVal 0) true; OValue 1 0 full 0 (AVal 0) true]).
  exists (probe E 2), (after (probe E 2) l), (OCopyAssign 0 1 9), (after (probe E 2) (l ++ [OCopyAssign 0 1 9])).
  probing. split; [apply preb_sound; by vm_compute|]. apply run_exn; by vm_compute.
Qed.
Lemma replace_can_throw E : env_wf E -> can_throw E is_replace.
Proof.
  intros Hwf. set (w := set_any init_world (<[0 := Any None (PData 0) UEmpty 0 [MDestroy]]> ∅)).
  assert (reachable (failing E) w) as Hr.
  { eapply (reach_ok _ init_world (ODefault 0 0 [MDestroy])); [apply reach_init|split; [done|by left]|done|reflexivity]. }
  eexists (failing E), w, (OReplace 0 (S (e_soos E))), _.
  split; [apply failing_class|]. split; [by apply failing_wf|]. split; [done|]. split; [done|]. split; [by eexists|].
  cbn [run]. unfold replace_with_bytes, bindM at 1. replace (destroy_value (failing E) 0 w) with (Ok tt w) by reflexivity.
  unfold bindM at 1. replace (capacity (failing E) 0 w) with (Ok (e_soos E) w) by reflexivity.
  replace (S (e_soos E) <=? e_soos E) with false by (symmetry; apply Nat.leb_gt; lia). reflexivity.
Qed.
Lemma move_assign_can_throw E : env_wf E -> movable_alloc E = false -> e_soos E <> 0 -> can_throw E is_move_assign.
Proof.
  intros Hwf Hm Hs. set (l := [ODefault 0 0 full; OValue 1 1 full 0 (AVal 0) true]).
  exists (probe E 1), (after (probe E 1) l), (OMoveAssign 0 1), (after (probe E 1) (l ++ [OMoveAssign 0 1])).
  destruct E as [ty soos aeq pocma pocca socc req def me thr]. cbn in Hs, Hm. destruct soos as [|soos]; [done|].
  unfold movable_alloc in Hm. cbn in Hm. apply orb_false_elim in Hm as [-> ->].
  probing. split; [apply preb_sound; by vm_compute|]. apply run_exn; by vm_compute.
Qed.
Lemma swap_can_throw E : env_wf E -> movable_alloc E = false -> e_soos E <> 0 -> can_throw E is_swap.
Proof.
  intros Hwf Hm Hs. set (l := [ODefault 0 0 full; OValue 1 1 full 0 (AVal 0) true]).
  exists (probe E 1), (after (probe E 1) l), (OSwap 0 1 9), (after (probe E 1) (l ++ [OSwap 0 1 9])).
  destruct E as [ty soos aeq pocma pocca socc req def me thr]. cbn in Hs, Hm. destruct soos as [|soos]; [done|].
  unfold movable_alloc in Hm. cbn in Hm. apply orb_false_elim in Hm as [-> ->].
  probing. split; [apply preb_sound; by vm_compute|]. apply run_exn; by vm_compute.
Qed.

(** ** the move constructors never throw, whatever is declared *)
Lemma noexc_ctor E i al ms b : noexc b -> noexc (ctor E i al ms b).
Proof.
  intros H. apply noexc_bind; [intros w w'; unfold new_any; by case_match|]. intros _ w w'. unfold on_exn. destruct (b w) eqn:Hb; try done. by apply H in Hb.
Qed.
Lemma noexc_weak {A} b (m : M A) : noexc m -> noexc (noexcept_if b m).
Proof. intros H w w'. unfold noexcept_if. destruct (m w) eqn:Hm; try done. by apply H in Hm. Qed.
Lemma move_cannot_throw E : ~ can_throw E is_move_ctor.
Proof.
  intros (E' & w & o & w' & _ & _ & _ & Hk & _ & Ho). destruct o; try done. revert Ho. cbn. apply noexc_bind; [apply noexc_get|]. intros a.
  apply noexc_weak, noexc_ctor, noexc_noexcept.
Qed.
Lemma converting_move_cannot_throw E : ~ can_throw E is_converting_move.
Proof.
  intros (E' & w & o & w' & _ & _ & _ & Hk & _ & Ho). destruct o; try done. revert Ho. cbn. apply noexc_weak, noexc_ctor, noexc_noexcept.
Qed.
Lemma noexc_ub {A} r : noexc (ubM (A := A) r).
Proof. done. Qed.
Lemma noexc_put i a : noexc (put_any i a).
Proof. intros w w'. unfold put_any. by case_match. Qed.
Lemma noexc_get_block b : noexc (get_block b).
Proof. intros w w'. unfold get_block. by case_match. Qed.
Lemma noexc_put_block b x : noexc (put_block b x).
Proof. intros w w'. unfold put_block. by case_match. Qed.
Lemma noexc_vt_read ms v m : noexc (vt_read ms v m).
Proof. intros w w'. unfold vt_read. repeat case_match; done. Qed.
Ltac leaf := fail.
Ltac nx := repeat first
  [ leaf | apply noexc_ret | apply noexc_ub | apply noexc_get | apply noexc_put | apply noexc_get_block | apply noexc_put_block | apply noexc_noexcept | apply noexc_vt_read
  | apply noexc_bind; [|intros ?]
  | match goal with |- noexc (match ?x with _ => _ end) => destruct x end
  | progress unfold ensure | done ].
Lemma noexc_set_vt i v : noexc (set_vt i v).
Proof. unfold set_vt. nx. Qed.
Lemma noexc_set_vp i v : noexc (set_vp i v).
Proof. unfold set_vp. nx. Qed.
Lemma noexc_set_size E i v : noexc (set_size E i v).
Proof. unfold set_size. nx. Qed.
Lemma noexc_get_size i : noexc (get_size i).
Proof. unfold get_size. nx. Qed.
Lemma noexc_set_alloc i al : noexc (set_alloc i al).
Proof. unfold set_alloc. nx. Qed.
Lemma noexc_subtable a b v : noexc (subtableM a b v).
Proof. unfold subtableM. nx. Qed.
Lemma noexc_move_fn i : noexc (get_move_fn i).
Proof. unfold get_move_fn, any_slot. nx. Qed.
Lemma noexc_memcpy E T s d : noexc (memcpy E T s d).
Proof. unfold memcpy, check_place, read_as, read_obj, write_place. nx. Qed.
Lemma noexc_relocate E T s d : noexc (relocate E T s d).
Proof. unfold relocate. destruct (_ && _); [apply noexc_memcpy|apply noexc_noexcept]. Qed.
Ltac leaf ::= first [apply noexc_set_vt|apply noexc_set_vp|apply noexc_set_size|apply noexc_get_size|apply noexc_set_alloc|apply noexc_subtable|apply noexc_move_fn|apply noexc_relocate].
Lemma noexc_steal E r i j : e_soos E = 0 -> noexc (move_value_from E r i j).
Proof.
  intros Hs. unfold move_value_from. apply noexc_weak. rewrite Hs. cbn [Nat.eqb].
  nx.
Qed.
Ltac leaf ::= first [apply noexc_steal; assumption|apply noexc_set_vt|apply noexc_set_alloc|apply noexc_get_size|apply noexc_move_fn|apply noexc_relocate].
Lemma no_buffer_move_assign_cannot_throw E : e_soos E = 0 -> ~ can_throw E is_move_assign.
Proof.
  intros Hs (E' & w & o & w' & (Hs' & _) & _ & _ & Hk & _ & Ho). rewrite Hs in Hs'. destruct o; try done. revert Ho. cbn. apply noexc_weak.
  nx.
Qed.

(** ** construction through allocators *)
Lemma by_same E i al ms T s nt : value_ctor_by E i al ms T s nt nt = value_ctor E i al ms T s nt.
Proof. reflexivity. Qed.
(** where the constructor that is called is not noexcept and the one asked for is, its exception is the end *)
Lemma by_terminates E T : fits E T = true -> value_ctor_by (failing E) 0 0 [MDestroy] T (SVal 0) true false init_world = Term.
Proof.
  intros Hf. unfold value_ctor_by. change (fits (failing E) T) with (fits E T). rewrite Hf. cbn [andb]. unfold noexcept_if at 1, ctor, bindM at 1.
  set (w := set_any init_world (<[0 := Any None (PData 0) UEmpty 0 [MDestroy]]> ∅)). replace (new_any 0 0 [MDestroy] init_world) with (Ok tt w) by reflexivity.
  unfold on_exn, emplace_in_empty_by. change (fits (failing E) T) with (fits E T). rewrite Hf. cbn [andb negb]. unfold construct_value_by, noexcept_if.
  unfold bindM at 1. replace (get_any 0 w) with (Ok (Any None (PData 0) UEmpty 0 [MDestroy]) w) by reflexivity.
  unfold fits in Hf. apply andb_prop in Hf as [[Ha _]%andb_prop Hsz]. cbn [a_vp a_ms]. unfold construct, check_place. change (e_ty (failing E)) with (e_ty E). change (e_soos (failing E)) with (e_soos E).
  rewrite Ha, Hsz. reflexivity.
Qed.
Lemma same_constructor_never_terminates E w i al ms T s nt x : env_wf E -> reachable E w -> pre E w (OValue i al ms T s nt) -> eval_arg s w = Ok x w ->
  value_ctor_by E i al ms T x nt nt w <> Term.
Proof.
  intros Hwf Hr Hp Hx. pose proof (step_safe E w (OValue i al ms T s nt) Hwf (reachable_inv _ _ Hwf Hr) Hp I) as Hw. unfold wp in Hw. cbn [run] in Hw.
  unfold bindM at 1 in Hw. rewrite Hx in Hw. rewrite by_same. intros H. by rewrite H in Hw.
Qed.
Theorem undeclared_can_throw E o : env_wf E -> declared E o = false ->
  match o with
  | OValue _ _ _ T _ nt => ty_align (e_ty E T) <= max_align -> can_throw_here E (is_value_ctor T nt)
  | OForce _ _ T _ nt => ty_align (e_ty E T) <= max_align -> can_throw_here E (is_force_ctor T nt)
  | OEmplace _ T _ nt => ty_align (e_ty E T) <= max_align -> can_throw_here E (is_emplace T nt)
  | OCopy _ _ _ => can_throw E is_copy_ctor
  | OCopyAssign _ _ _ => can_throw E is_copy_assign
  | OReplace _ _ => can_throw E is_replace
  | OMoveAssign _ _ => e_soos E <> 0 -> can_throw E is_move_assign
  | OSwap _ _ _ => e_soos E <> 0 -> can_throw E is_swap
  | _ => True
  end.
Proof.
  intros Hwf Hd. destruct o; cbn in Hd; try done; intros; eauto using value_can_throw, force_can_throw, emplace_can_throw, copy_can_throw, copy_assign_can_throw, replace_can_throw, move_assign_can_throw.
  rewrite andb_diag in Hd. by apply swap_can_throw.
Qed.
(** an allocator that differs and does not propagate, as std::pmr::polymorphic_allocator *)
Lemma move_undeclared : exists E, env_wf E /\ (forall i j, declared E (OMove i j) = false) /\ ~ can_throw E is_move_ctor.
Proof. exists (mkE 16 false false false []). split; [apply mkE_wf|]. split; [done|]. apply move_cannot_throw. Qed.
Lemma converting_undeclared : exists E, env_wf E /\ (forall i j ms, declared E (OTransMove i j ms) = false) /\ ~ can_throw E is_converting_move.
Proof. exists (mkE 16 false false false []). split; [apply mkE_wf|]. split; [done|]. apply converting_move_cannot_throw. Qed.
Lemma no_buffer_undeclared : exists E, env_wf E /\ (forall i j, declared E (OMoveAssign i j) = false) /\ ~ can_throw E is_move_assign.
Proof. exists (mkE 0 false false false []). split; [apply mkE_wf|]. split; [done|]. by apply no_buffer_move_assign_cannot_throw. Qed.
Lemma by_terminates_refuted : exists E w i al ms T v, env_wf E /\ reachable E w /\ pre E w (OValue i al ms T (AVal v) true) /\ fits E T = true /\
  value_ctor_by E i al ms T (SVal v) true false w = Term.
Proof.
  exists (mkE 16 false false false [0]), init_world, 0, 1, full, 5, 7. split; [apply mkE_wf|]. split; [apply reach_init|]. split; [apply preb_sound; by vm_compute|].
  split; by vm_compute.
Qed.
