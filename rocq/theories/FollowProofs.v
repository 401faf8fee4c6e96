(** Proofs: pointers to values on the heap stay valid through moves, conversions and swaps. *)
From stdpp Require Import gmap list.
From Verif Require Import TypeListModel TypeListSpec TypeListProofs AnyModel AnyInv AnySteps AnyOps AnyLife AnyAssign AnyHistory AnyExec AnyFacts AnyFacts2 AnyValue AnyCost AnyMove FollowSpec.

Definition steals (w : world) (j : nat) (w' : world) (i b : nat) : Prop := address w' i = Some (PHeap b) /\ contained w' i = contained w j.
Lemma movable_iff E : movable_alloc E = true <-> e_always_eq E = true \/ e_pocma E = true.
Proof. unfold movable_alloc. by rewrite orb_true_iff. Qed.
Lemma compat_movable E a b : movable_alloc E = true -> compat E a b = true.
Proof. unfold compat, movable_alloc. by intros ->. Qed.

Lemma trans_move_steals E w w' i j ms b : env_wf E -> reachable E w -> pre E w (OTransMove i j ms) -> alloc_safe E w (OTransMove i j ms) ->
  outcome E (OTransMove i j ms) w w' -> address w j = Some (PHeap b) -> steals w j w' i b.
Proof.
  intros Hwf Hr Hp Hs Ho Had. pose proof (reachable_inv _ _ Hwf Hr) as HI.
  destruct (trans_move_fact E w w' i j ms Hwf Hr Hp Hs Ho) as (Hrun & Hcc & _). clear Ho.
  destruct Hp as (Hi & Hd & o & Hoj & Hct & Hm). destruct Hs as (o1 & Ho1 & Hs). rewrite Hoj in Ho1. injection Ho1 as <-.
  destruct (address_heap _ _ _ Had) as (o1 & v & Ho1 & Hv & Hpo). rewrite Hoj in Ho1. injection Ho1 as <-.
  assert (Had' : address w' i = Some (PHeap b)).
  { assert (Hal : forall b, a_vp o = PHeap b -> a_vt o <> None -> alloc_eqb E (e_def_alloc E) (a_alloc o) = true).
    { intros b' Hb Hv'. destruct Hs as [?|[?|?]]; [done|congruence|done]. }
    pose proof (trans_move_ctor_spec E w i j o ms Hwf HI Hi Hoj Hd Hct Hm Hal) as H. unfold wp in H. cbn in Hrun. rewrite Hrun in H.
    destruct H as (_ & _ & _ & _ & _ & a' & o' & Ha' & _ & _ & _ & _ & _ & Hst & _). destruct (Hst b Hpo) as [Hp' _]; [congruence|].
    destruct (address_content _ _ _ _ HI Had) as (T & x & Hx). rewrite Hx in Hcc. destruct (content_vt _ _ _ _ _ Ha' Hcc) as [v' Hv'].
    unfold address. by rewrite Ha', Hv', Hp'. }
  split; [done|]. apply (address_contained _ _ _ _ b); [done|done|].
  assert (Hs' : w_heap w' = w_heap w); [|by rewrite Hs'].
  cbn in Hrun. unfold trans_move_ctor, noexcept_if, ctor in Hrun.
  destruct (new_any i (e_def_alloc E) ms w) as [[] w1| | |] eqn:Hn; unfold bindM in Hrun; rewrite Hn in Hrun; try done.
  2:{ by destruct (movable_alloc E). }
  unfold new_any in Hn. rewrite Hi in Hn. injection Hn as <-.
  match type of Hrun with context [on_exn _ _ ?w1] => pose proof (steal_still E w1 i j o) as Hst end.
  cbn [w_any set_any] in Hst. rewrite lookup_insert_ne in Hst by congruence.
  specialize (Hst Hoj). unfold mem_allocated in Hst. rewrite Hpo in Hst. specialize (Hst eq_refl).
  unfold on_exn in Hrun. match type of Hst with match ?m with _ => _ end => destruct m as [[] w2|w2| |] end; try done.
  - injection Hrun as <-. destruct Hst as [_ ->]. done.
  - match type of Hrun with context [drop_any ?a ?b ?c] => destruct (drop_any a b c) end; try done; by destruct (movable_alloc E).
Qed.
Lemma move_steals E w w' i j b : env_wf E -> reachable E w -> pre E w (OMove i j) ->
  outcome E (OMove i j) w w' -> address w j = Some (PHeap b) -> steals w j w' i b.
Proof.
  intros Hwf Hr Hp Ho Had. destruct (move_ctor_never_throws E w i j Hwf Hr Hp) as (w1 & H1 & _).
  destruct Ho as [Ho|Ho]; rewrite Ho in H1; [|done]. split; [by eapply move_keeps_address|]. by eapply move_ctor_steals.
Qed.
Lemma assign_steals E w w' i j b : env_wf E -> reachable E w -> movable_alloc E = true -> pre E w (OMoveAssign i j) ->
  outcome E (OMoveAssign i j) w w' -> address w j = Some (PHeap b) -> steals w j w' i b.
Proof.
  intros Hwf Hr Hmv%movable_iff Hp Ho Had. destruct (move_assign_never_throws E w i j Hwf Hr Hp Hmv) as (w1 & H1 & _).
  destruct Ho as [Ho|Ho]; rewrite Ho in H1; [|done]. split; [by eapply move_assign_keeps_address|]. by eapply move_assign_steals.
Qed.
Lemma invoke_keeps E w w' i n x b : reachable E w -> env_wf E -> pre E w (OInvoke i n x) -> outcome E (OInvoke i n x) w w' ->
  address w i = Some (PHeap b) -> kept w i w' i b.
Proof.
  intros Hr Hwf ((a & Ha & Hin) & T0 & x0 & Hc) Ho Had. pose proof (reachable_inv _ _ Hwf Hr) as HI.
  destruct (address_heap _ _ _ Had) as (a1 & v & Ha1 & Hv & Hp). rewrite Ha in Ha1. injection Ha1 as <-.
  destruct (any_value _ _ _ _ _ HI Ha Hv) as (T & y & id & He & Hobj & Hcont & Halg).
  pose (w1 := write_w w (a_vp a) (Some (Obj T (fst (e_meth E T n y x)) id))).
  assert (w' = w1) as ->.
  { unfold outcome in Ho. cbn [run] in Ho. unfold invoke in Ho. 
    assert (Hs : any_slot i (MUser n) w = Ok T w) by (by eapply any_slot_ok).
    unfold bindM in Ho. rewrite Hs in Ho. unfold get_any in Ho. rewrite Ha in Ho.
    rewrite (read_as_ok w (a_vp a) (Obj T y id) T Hobj eq_refl) in Ho. cbn [o_val o_id] in Ho.
    rewrite write_place_ok in Ho by (by eapply obj_at_exists). fold w1 in Ho. clearbody w1.
    destruct (snd (e_meth E T n y x)); destruct Ho as [Ho|Ho]; cbn in Ho; by inversion Ho. }
  assert (Hany : w_any w1 = w_any w). { unfold w1. rewrite Hp. by rewrite write_w_any. }
  assert (Hob : obj_at w1 (PHeap b) = Some (Obj T (fst (e_meth E T n y x)) id)).
  { unfold w1. rewrite Hp in Hobj |- *. cbn in Hobj |- *. destruct (w_heap w !! b) as [blk|] eqn:Hb; [|done]. cbn. by rewrite lookup_insert. }
  clearbody w1. split.
  - unfold address. by rewrite Hany, Ha, Hv, Hp.
  - eexists _, _. unfold contained. rewrite Hany, Ha, Hv, Hobj, Hp, Hob. done.
Qed.

Lemma steals_kept E w w' i j b : env_wf E -> reachable E w -> address w i = Some (PHeap b) -> steals w i w' j b -> kept w i w' j b.
Proof.
  intros Hwf Hr Had [H1 H2]. split; [done|]. pose proof (reachable_inv _ _ Hwf Hr) as HI.
  destruct (address_heap _ _ _ Had) as (a & v & Ha & Hv & Hp). destruct (any_value _ _ _ _ _ HI Ha Hv) as (T & y & id & _ & Hobj & _).
  exists (Obj T y id), (Obj T y id). rewrite H2. unfold contained. rewrite Ha, Hv, Hobj. done.
Qed.
Lemma kept_trans w1 i1 w2 i2 w3 i3 b : kept w1 i1 w2 i2 b -> kept w2 i2 w3 i3 b -> kept w1 i1 w3 i3 b.
Proof.
  intros (_ & o & o' & H1 & H2 & H3 & H4) (Ha & p & p' & H5 & H6 & H7 & H8). split; [done|]. exists o, p'. split; [done|]. split; [done|].
  rewrite H2 in H5. injection H5 as <-. split; congruence.
Qed.

(** a step other than a swap *)
Definition is_swap (o : op) : bool := match o with OSwap _ _ _ => true | _ => false end.
Definition is_call (o : op) : bool := match o with OInvoke _ _ _ => true | _ => false end.
Lemma frame_steals E w w' o i b : env_wf E -> reachable E w -> pre E w o -> alloc_safe E w o -> outcome E o w w' ->
  i ∉ touches o -> address w i = Some (PHeap b) -> steals w i w' i b.
Proof. intros Hwf Hr Hp Hs Ho Hi Had. destruct (frame E w w' o i Hwf Hr Hp Hs Ho Hi) as (_ & H2 & H3). split; [congruence|done]. Qed.
Lemma step_steals E w w' o i j b : env_wf E -> reachable E w -> movable_alloc E = true -> pre E w o -> alloc_safe E w o -> outcome E o w w' ->
  is_swap o = false -> is_call o = false -> carries o i = Some j -> address w i = Some (PHeap b) -> steals w i w' j b.
Proof.
  intros Hwf Hr Hmv Hp Hs Ho Hns Hnc Hc Had.
  assert (Hfr : i ∉ touches o -> j = i -> steals w i w' j b). { intros Hi ->. by eapply frame_steals. }
  destruct o; cbn [carries] in Hc; try done;
    try (destruct (decide _) as [->|Hne]; [done|injection Hc as <-; apply Hfr; [cbn; set_solver|done]]);
    try (injection Hc as <-; apply Hfr; [cbn; set_solver|done]).
  - destruct (decide (i = j0)) as [->|Hne]; [injection Hc as <-; by eapply move_steals|].
    destruct (decide _) as [->|Hne']; [done|injection Hc as <-; apply Hfr; [cbn; set_solver|done]].
  - destruct (decide (i = j0)) as [->|Hne]; [injection Hc as <-; by eapply trans_move_steals|].
    destruct (decide _) as [->|Hne']; [done|injection Hc as <-; apply Hfr; [cbn; set_solver|done]].
  - destruct (decide (i = j0)) as [->|Hne]; [injection Hc as <-; by eapply assign_steals|].
    destruct (decide _) as [->|Hne']; [done|injection Hc as <-; apply Hfr; [cbn; set_solver|done]].
Qed.

(** swap as a program of moves *)
Lemma swap_steps E w w' i j t : env_wf E -> reachable E w -> movable_alloc E = true -> pre E w (OSwap i j t) -> alloc_safe E w (OSwap i j t) ->
  outcome E (OSwap i j t) w w' ->
  exists w1 w2 w3, (run E (OMove t i) w = Ok tt w1 /\ pre E w (OMove t i)) /\
    (run E (OMoveAssign i j) w1 = Ok tt w2 /\ reachable E w1 /\ pre E w1 (OMoveAssign i j) /\ alloc_safe E w1 (OMoveAssign i j)) /\
    (run E (OMoveAssign j t) w2 = Ok tt w3 /\ reachable E w2 /\ pre E w2 (OMoveAssign j t) /\ alloc_safe E w2 (OMoveAssign j t)) /\
    (run E (ODtor t) w3 = Ok tt w' /\ reachable E w3 /\ pre E w3 (ODtor t)).
Proof.
  intros Hwf Hr Hmv Hp Hs Ho. destruct Ho as [Ho|Ho]; [|exfalso; by eapply swap_never_throws].
  destruct Hp as (Ht & a & Ha & o & Hoj & Hms & Hm). pose proof (reachable_inv _ _ Hwf Hr) as HI.
  assert (Hti : t <> i) by congruence. assert (Htj : t <> j) by congruence.
  assert (Hcompat : forall x y, compat E x y = true) by (intros; by apply compat_movable).
  assert (Hma : has_move_assign E (a_ms a) = true) by congruence.
  assert (P0 : pre E w (OMove t i)). { split; [done|]. exists a. split; [done|]. by apply has_move_assign_has. }
  destruct (move_ctor_never_throws E w t i Hwf Hr P0) as (w1 & R1 & _).
  assert (Hr1 : reachable E w1) by (by eapply reach_ok).
  pose proof (move_ctor_spec E w t i a Hwf HI Ht Ha (has_move_assign_has _ _ Hma)) as H1. unfold wp in H1. cbn in R1. rewrite R1 in H1.
  destruct H1 as (I1 & F1 & _ & _ & _ & t1 & a1 & Ht1 & Ha1 & _ & Hmt1 & _ & Hm1 & _).
  assert (exists o1, w_any w1 !! j = Some o1 /\ a_ms o1 = a_ms o) as (o1 & Ho1 & Hmo1).
  { destruct (decide (j = i)) as [->|Hij]; [exists a1; split; [done|congruence]|]. exists o. split; [|done]. eapply view_lookup; [done|set_solver|done]. }
  assert (P1 : pre E w1 (OMoveAssign i j)). { exists a1. split; [done|]. exists o1. split; [done|]. split; [congruence|by rewrite Hmo1]. }
  assert (S1 : alloc_safe E w1 (OMoveAssign i j)). { exists a1. split; [done|]. exists o1. split; [done|]. right. right. left. apply Hcompat. }
  destruct (move_assign_never_throws E w1 i j Hwf Hr1 P1) as (w2 & R2 & _); [by apply movable_iff|].
  assert (Hr2 : reachable E w2) by (by eapply reach_ok).
  assert (exists t2 o2, w_any w2 !! t = Some t2 /\ a_ms t2 = a_ms a /\ w_any w2 !! j = Some o2 /\ a_ms o2 = a_ms o) as (t2 & o2 & Ht2 & Hmt2 & Ho2 & Hmo2).
  { cbn in R2. destruct (decide (i = j)) as [->|Hij].
    - rewrite move_assign_self in R2. injection R2 as <-. exists t1, o1. by split.
    - pose proof (move_assign_spec E w1 i j a1 o1 Hwf I1 Hij Ha1 Ho1) as H2. unfold wp in H2. rewrite R2 in H2.
      destruct H2 as (_ & F2 & _ & _ & a' & o' & _ & Ho' & _ & _ & _ & Hmo' & _); [congruence|congruence|intros Hx; by rewrite Hcompat in Hx|].
      exists t1, o'. split; [eapply view_lookup; [done|set_solver|done]|]. split; [done|]. split; [done|congruence]. }
  assert (P2 : pre E w2 (OMoveAssign j t)). { exists o2. split; [done|]. exists t2. split; [done|]. split; [congruence|by rewrite Hmt2]. }
  assert (S2 : alloc_safe E w2 (OMoveAssign j t)). { exists o2. split; [done|]. exists t2. split; [done|]. right. right. left. apply Hcompat. }
  destruct (move_assign_never_throws E w2 j t Hwf Hr2 P2) as (w3 & R3 & _); [by apply movable_iff|].
  assert (Hr3 : reachable E w3) by (by eapply reach_ok).
  assert (exists t3, w_any w3 !! t = Some t3) as [t3 Ht3].
  { pose proof (reachable_inv _ _ Hwf Hr2) as I2.
    pose proof (move_assign_spec E w2 j t o2 t2 Hwf I2) as H3. unfold wp in H3. cbn in R3. rewrite R3 in H3.
    destruct H3 as (_ & _ & _ & _ & a' & o' & _ & Ho' & _); try done; [congruence|by rewrite Hmt2|intros Hx; by rewrite Hcompat in Hx|]. by exists o'. }
  exists w1, w2, w3. split; [done|]. split; [done|]. split; [done|]. split; [|split; [done|by exists t3]].
  cbn in Ho, R1, R2, R3 |- *. unfold swap_any in Ho. unfold bindM at 1 in Ho. rewrite R1 in Ho. unfold bindM at 1, on_exn in Ho.
  unfold bindM in Ho. rewrite R2, R3 in Ho. exact Ho.
Qed.
Lemma swap_steals E w w' i j t h k b : env_wf E -> reachable E w -> movable_alloc E = true -> pre E w (OSwap i j t) -> alloc_safe E w (OSwap i j t) ->
  outcome E (OSwap i j t) w w' -> carries (OSwap i j t) h = Some k -> address w h = Some (PHeap b) -> steals w h w' k b.
Proof.
  intros Hwf Hr Hmv Hp Hs Ho Hc Had.
  destruct (swap_steps E w w' i j t Hwf Hr Hmv Hp Hs Ho) as (w1 & w2 & w3 & (R1 & P1) & (R2 & Hr1 & P2 & S2) & (R3 & Hr2 & P3 & S3) & (R4 & Hr3 & P4)).
  assert (Hht : h <> t). { destruct Hp as (Ht & _). intros ->. unfold address in Had. by rewrite Ht in Had. }
  assert (Hti : t <> i) by (destruct Hp as (Ht & a & Ha & _); congruence).
  assert (Htj : t <> j) by (destruct Hp as (Ht & a & Ha & o & Hoj & _); congruence).
  assert (H : follow [OMove t i; OMoveAssign i j; OMoveAssign j t; ODtor t] h = Some k).
  { cbn [follow carries] in *. destruct (decide (h = i)) as [->|Hi].
    - injection Hc as <-. rewrite (decide_False (P := t = j)), (decide_False (P := t = i)) by done. rewrite (decide_True (P := t = t)) by done.
      by rewrite decide_False by congruence.
    - rewrite (decide_False (P := h = t)) by done. destruct (decide (h = j)) as [->|Hj].
      + injection Hc as <-. rewrite (decide_False (P := i = t)), (decide_False (P := i = j)), (decide_False (P := i = t)) by congruence. done.
      + injection Hc as <-. repeat (rewrite decide_False by congruence). done. }
  cbn [follow] in H.
  destruct (carries (OMove t i) h) as [h1|] eqn:C1; [|done].
  pose proof (step_steals E w w1 _ h h1 b Hwf Hr Hmv P1 I (or_introl R1) eq_refl eq_refl C1 Had) as [A1 K1].
  destruct (carries (OMoveAssign i j) h1) as [h2|] eqn:C2; [|done].
  pose proof (step_steals E w1 w2 _ h1 h2 b Hwf Hr1 Hmv P2 S2 (or_introl R2) eq_refl eq_refl C2 A1) as [A2 K2].
  destruct (carries (OMoveAssign j t) h2) as [h3|] eqn:C3; [|done].
  pose proof (step_steals E w2 w3 _ h2 h3 b Hwf Hr2 Hmv P3 S3 (or_introl R3) eq_refl eq_refl C3 A2) as [A3 K3].
  destruct (carries (ODtor t) h3) as [h4|] eqn:C4; [|done]. injection H as <-.
  pose proof (step_steals E w3 w' _ h3 h4 b Hwf Hr3 Hmv P4 I (or_introl R4) eq_refl eq_refl C4 A3) as [A4 K4].
  split; [done|]. congruence.
Qed.

Lemma step_kept E w w' o i j b : env_wf E -> reachable E w -> movable_alloc E = true -> pre E w o -> alloc_safe E w o -> outcome E o w w' ->
  carries o i = Some j -> address w i = Some (PHeap b) -> kept w i w' j b /\ (is_call o = false -> contained w' j = contained w i).
Proof.
  intros Hwf Hr Hmv Hp Hs Ho Hc Had.
  assert (Hst : steals w i w' j b -> kept w i w' j b /\ (is_call o = false -> contained w' j = contained w i)).
  { intros H. split; [by eapply steals_kept|]. intros _. apply H. }
  destruct (is_swap o) eqn:Hsw.
  { destruct o; try done. apply Hst. by eapply swap_steals. }
  destruct (is_call o) eqn:Hca; [|apply Hst; by eapply step_steals].
  destruct o; try done. cbn in Hc. injection Hc as <-. split; [|done]. destruct (decide (i = i0)) as [->|Hne]; [by eapply invoke_keeps|].
  apply Hst. eapply frame_steals; try done. cbn. set_solver.
Qed.
Lemma follow_kept E l : forall w w' i j b, env_wf E -> reachable E w -> e_always_eq E = true \/ e_pocma E = true -> allowed_alloc E l w ->
  exec E l w = Ok tt w' -> follow l i = Some j -> address w i = Some (PHeap b) ->
  kept w i w' j b /\ (calls_no_method l -> contained w' j = contained w i).
Proof.
  induction l as [|o l IH]; intros w w' i j b Hwf Hr Hmv Ha He Hf Had.
  - cbn in *. injection He as <-. injection Hf as <-. split; [|done]. eapply steals_kept; try done.
  - cbn in Ha, He, Hf. destruct Ha as (Hp & Hs & Ha). destruct (carries o i) as [h|] eqn:Hc; [|done].
    assert (Hstep : forall w1, outcome E o w w1 -> allowed_alloc E l w1 -> exec E l w1 = Ok tt w' ->
      kept w i w' j b /\ (calls_no_method (o :: l) -> contained w' j = contained w i)).
    { intros w1 Ho Ha1 He1. destruct (step_kept E w w1 o i h b Hwf Hr) as [K1 C1]; try done; [by apply movable_iff|].
      assert (Hr1 : reachable E w1) by (by eapply reachable_outcome). destruct K1 as (A1 & K1).
      destruct (IH w1 w' h j b Hwf Hr1 Hmv Ha1 He1 Hf A1) as [K2 C2]. split; [eapply kept_trans; [split; [exact A1|exact K1]|done]|].
      intros Hn. rewrite C2; [apply C1|].
      - destruct o; try done. exfalso. by eapply Hn, or_introl.
      - intros a n x Hin. by eapply Hn, or_intror. }
    destruct (run E o w) as [[] w1|w1| |] eqn:Hrun; try done; eapply Hstep; try done; [by left|by right].
Qed.

(** ** any allocator *)
Lemma step_constructing E w w' o i j b : env_wf E -> reachable E w -> pre E w o -> alloc_safe E w o -> outcome E o w w' ->
  carries_constructing o i = Some j -> address w i = Some (PHeap b) -> kept w i w' j b /\ (is_call o = false -> contained w' j = contained w i).
Proof.
  intros Hwf Hr Hp Hs Ho Hc Had.
  assert (Hst : steals w i w' j b -> kept w i w' j b /\ (is_call o = false -> contained w' j = contained w i)).
  { intros H. split; [by eapply steals_kept|]. intros _. apply H. }
  assert (Hfr : i ∉ touches o -> j = i -> steals w i w' j b). { intros Hi ->. by eapply frame_steals. }
  destruct o; cbn [carries_constructing carries] in Hc; try done;
    try (destruct (decide _) as [Hd|Hne]; [done|injection Hc as <-]); try (injection Hc as <-);
    try (apply Hst, Hfr; [cbn; set_solver|done]).
  - destruct (decide (i = j0)) as [->|Hne]; [injection Hc as <-; apply Hst; by eapply move_steals|].
    destruct (decide _) as [->|Hne']; [done|injection Hc as <-; apply Hst, Hfr; [cbn; set_solver|done]].
  - destruct (decide (i = j0)) as [->|Hne]; [injection Hc as <-; apply Hst; by eapply trans_move_steals|].
    destruct (decide _) as [->|Hne']; [done|injection Hc as <-; apply Hst, Hfr; [cbn; set_solver|done]].
  - destruct (decide (i = i0)) as [->|Hne]; [split; [by eapply invoke_keeps|done]|].
    apply Hst, Hfr; [cbn; set_solver|done].
Qed.
Lemma follow_constructing_kept E l : forall w w' i j b, env_wf E -> reachable E w -> allowed_alloc E l w ->
  exec E l w = Ok tt w' -> follow_constructing l i = Some j -> address w i = Some (PHeap b) ->
  kept w i w' j b /\ (calls_no_method l -> contained w' j = contained w i).
Proof.
  induction l as [|o l IH]; intros w w' i j b Hwf Hr Ha He Hf Had.
  - cbn in *. injection He as <-. injection Hf as <-. split; [|done]. eapply steals_kept; try done.
  - cbn in Ha, He, Hf. destruct Ha as (Hp & Hs & Ha). destruct (carries_constructing o i) as [h|] eqn:Hc; [|done].
    assert (Hstep : forall w1, outcome E o w w1 -> allowed_alloc E l w1 -> exec E l w1 = Ok tt w' ->
      kept w i w' j b /\ (calls_no_method (o :: l) -> contained w' j = contained w i)).
    { intros w1 Ho Ha1 He1. destruct (step_constructing E w w1 o i h b Hwf Hr) as [K1 C1]; try done.
      assert (Hr1 : reachable E w1) by (by eapply reachable_outcome). destruct K1 as (A1 & K1).
      destruct (IH w1 w' h j b Hwf Hr1 Ha1 He1 Hf A1) as [K2 C2]. split; [eapply kept_trans; [split; [exact A1|exact K1]|done]|].
      intros Hn. rewrite C2; [apply C1|].
      - destruct o; try done. exfalso. by eapply Hn, or_introl.
      - intros a n x Hin. by eapply Hn, or_intror. }
    destruct (run E o w) as [[] w1|w1| |] eqn:Hrun; try done; eapply Hstep; try done; [by left|by right].
Qed.
