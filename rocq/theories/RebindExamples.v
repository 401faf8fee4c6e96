(** Programs over pointer and reference variables used by the examples and refutations. *)
From stdpp Require Import gmap list.
From Verif Require Import TypeListModel TypeListSpec TypeListProofs AnyModel AnyInv AnyHistory AnyExec AnyFacts AnyExamples DescModel DescSpec
  PolyModel PolySpec PolyProofs PolyExamples RebindModel RebindSpec RebindProofs.

Definition us : list method := [MUser 0; MUser 1].
Definition ran (l : list stmt) : outcome := run_stmts obs0 l (PState obs_w ∅).
Definition var_of (o : outcome) (x : nat) : option cur := match o with POk s => read_var s x | _ => None end.
Definition world_of (o : outcome) : world := match o with POk s => ps_w s | _ => obs_w end.
Definition on_ptr {A} (o : outcome) (x : nat) (f : pval -> A) : option A := match var_of o x with Some (CView p) => Some (f p) | _ => None end.
Definition ended {A} (o : option (M A)) (w : world) : option (res A) := match o with Some m => Some (m w) | None => None end.

(** a pointer copied, then nulled; a reference rebound twice; a stateful reference rebound *)
Definition rebind_prog : list stmt :=
  [ SNew 0 (SOrigin (OAddr 0)) []; SDefault 1 KPtr eqs; SAssignVar 1 0 (Named false true); SAssignNull 0;
    SNew 2 (SVar 1) [Deref]; SNew 3 (SOrigin (OAddr 2)) [Deref]; SAssignVar 2 3 (Named true true);
    SNew 4 (SVar 1) [Deref; ToSref 0 us]; SAssign 4 (SVar 3) [ToSref 1 us]; SNew 5 (SVar 4) [GetView];
    SNew 6 (SVar 0) [ToCPtr eqs]; SAssign 6 (SVar 1) [ToCPtr eqs]; SEnd 3 ].

Lemma obs_w_norefs : w_sref obs_w = ∅.
Proof. by vm_compute. Qed.
Lemma any_eqs i : methods_of obs_w i = Some eqs -> exists a, w_any obs_w !! i = Some a /\ a_ms a = eqs.
Proof. unfold methods_of. destruct (w_any obs_w !! i) as [a|]; [|done]. intros [= <-]. by exists a. Qed.
Definition tgt (i T : nat) : target := match address obs_w i with Some q => Some (T, q) | None => None end.
Lemma begin_addr i T x : methods_of obs_w i = Some eqs -> content obs_w i = Some (Some (T, x)) -> is_Some (address obs_w i) ->
  begins obs_w (OAddr i) (VView KPtr eqs) (tgt i T).
Proof.
  intros Hm Hc [q Hq]. destruct (any_eqs i Hm) as (a & Ha & <-). apply bg_addr; [done|]. unfold tgt. rewrite Hq. split; [done|]. by exists x.
Qed.

Ltac chain_tac := repeat first [apply ch_nil | eapply ch_cons; [first [apply cv_deref | apply cv_cview | apply cv_view
  | apply cv_sref; intros ? ?; cbn in *; tauto | apply cv_cptr; [reflexivity|]; apply has_sub_inv; reflexivity ] |] ].
Lemma rebind_means w0 d0 d2 : begins w0 (OAddr 0) (VView KPtr eqs) d0 -> begins w0 (OAddr 2) (VView KPtr eqs) d2 -> d0 <> None -> d2 <> None ->
  exists G, means_all w0 ∅ rebind_prog G /\
  option_map vi_target (G !! 0) = Some None /\ option_map vi_target (G !! 1) = Some d0 /\ option_map vi_target (G !! 2) = Some d2 /\
  option_map vi_target (G !! 4) = Some d2 /\ option_map vi_target (G !! 6) = Some d0 /\
  option_map vi_ty (G !! 1) = Some (VView KPtr eqs) /\ option_map vi_ty (G !! 6) = Some (VView KCPtr eqs) /\
  option_map vi_ty (G !! 2) = Some (VView KRef eqs) /\ option_map vi_ty (G !! 4) = Some (VState false us).
Proof.
  intros H0 H2 Hd0 Hd2. eexists. split.
  - eapply ma_cons.
    { eapply mn_new; [done| |done|].
      - eapply em_origin; [exact H0|apply ch_nil|done].
      - by intros _ r. }
    eapply ma_cons; [by apply mn_default|].
    eapply ma_cons. { eapply mn_assign_var; [reflexivity|reflexivity|done|by intros ?|]. intros (vx & y & v & Hx & _ & _ & Hv & _). vm_compute in Hx. by injection Hx as <-. }
    eapply ma_cons. { eapply mn_assign_null; [reflexivity|done]. }
    eapply ma_cons.
    { eapply mn_new; [done| |done|].
      - eapply em_var; [reflexivity| |done]. chain_tac.
      - by intros _ r. }
    eapply ma_cons.
    { eapply mn_new; [done| |done|].
      - eapply em_origin; [exact H2|chain_tac|done].
      - by intros _ r. }
    eapply ma_cons. { eapply mn_assign_var; [reflexivity|reflexivity|done|by intros ?|]. intros (vx & y & v & Hx & _ & _ & Hv & _). vm_compute in Hx. by injection Hx as <-. }
    eapply ma_cons.
    { eapply mn_new; [done| |done|].
      - eapply em_var; [reflexivity| |done]. chain_tac.
      - by intros ?. }
    eapply ma_cons.
    { eapply mn_assign; [reflexivity|eapply em_var; [reflexivity|chain_tac|done]|reflexivity|done|by intros ?|].
      intros (vx & y & v & Hx & Hne & Hy & _ & Hf). cbn in Hx. injection Hx as <-. cbn in Hf.
        repeat (rewrite lookup_insert_Some in Hy; destruct Hy as [[<- <-]|[_ Hy]]; [done|]). by rewrite lookup_empty in Hy. }
    eapply ma_cons.
    { eapply mn_new; [done| |done|].
      - eapply em_var; [reflexivity| |done]. chain_tac.
      - intros _ r Hr. by intros []. }
    eapply ma_cons.
    { eapply mn_new; [done| |done|].
      - eapply em_var; [reflexivity| |by repeat constructor]. chain_tac.
      - by intros _ r. }
    eapply ma_cons.
    { eapply mn_assign; [reflexivity|eapply em_var; [reflexivity|chain_tac|done]|reflexivity|done|by intros _ r|].
      intros (vx & y & v & Hx & _ & _ & Hv & _). vm_compute in Hx. by injection Hx as <-. }
    eapply ma_cons; [|apply ma_nil].
    eapply mn_end; [reflexivity|]. intros (vx & y & v & Hx & _ & _ & Hv & _). vm_compute in Hx. by injection Hx as <-.
  - by repeat split.
Qed.
Lemma rebind_program : exists G, program obs_w rebind_prog G /\
  option_map vi_target (G !! 0) = Some None /\ option_map vi_target (G !! 1) = Some (tgt 0 1) /\ option_map vi_target (G !! 2) = Some (tgt 2 5) /\
  option_map vi_target (G !! 4) = Some (tgt 2 5) /\ option_map vi_target (G !! 6) = Some (tgt 0 1) /\
  option_map vi_ty (G !! 1) = Some (VView KPtr eqs) /\ option_map vi_ty (G !! 6) = Some (VView KCPtr eqs) /\
  option_map vi_ty (G !! 2) = Some (VView KRef eqs) /\ option_map vi_ty (G !! 4) = Some (VState false us).
Proof.
  destruct (rebind_means obs_w (tgt 0 1) (tgt 2 5)) as (G & Hm & H); [apply begin_addr with 10; vm_compute; eauto|apply begin_addr with 10; vm_compute; eauto|by vm_compute|by vm_compute|].
  exists G. split; [|exact H]. split; [apply obs_w_norefs|]. split; [|exact Hm]. apply (bool_decide_eq_true_1 _). by vm_compute.
Qed.

(** a view taken from a stateful reference, which is then rebound to an object of another type *)
Definition stale_prog : list stmt :=
  [ SNew 0 (SOrigin (OAddr 0)) [Deref; ToSref 0 us]; SNew 1 (SVar 0) [GetView]; SAssign 0 (SOrigin (OAddr 2)) [Deref; ToSref 1 us] ].

Lemma null_deref_refuted :
  exists E O w0 l s p q, env_wf E /\ reachable E w0 /\ run_stmts O l (PState w0 ∅) = POk s /\
    read_var s 0 = Some (CView p) /\ pv_k p = KPtr /\ eq_null p = true /\ run_step O Deref (CView p) (ps_w s) = UB UbAssert /\
    read_var s 1 = Some (CView q) /\ pv_k q = KCPtr /\ eq_null q = true /\ exists r, run_step O Deref (CView q) (ps_w s) = Ok r (ps_w s) /\ self_of r (ps_w s) = UB UbNoObject.
Proof.
  exists obsE, obs0, obs_w, [SDefault 0 KPtr eqs; SNull 1 KCPtr eqs]. do 3 eexists. split; [apply mkE_wf|]. split; [apply obs_w_reachable|].
  split; [reflexivity|]. by repeat (split; [reflexivity|]); eexists.
Qed.
Lemma implicit_rebinding_refuted :
  exists E O w0 l G s, env_wf E /\ reachable E w0 /\ program w0 l G /\ run_stmts O l (PState w0 ∅) = POk s /\
  exists x y vx vy, G !! x = Some vx /\ G !! y = Some vy /\ is_ref (vi_ty vx) = true /\ vi_ty vx = vi_ty vy /\ vi_target vx <> vi_target vy /\
    (* x = y, y a const lvalue: accepted *)
    (exists s', run_stmt O (SAssignVar x y (Named true true)) s = POk s') /\
    (* x = y, y a variable that is not const: rejected *)
    run_stmt O (SAssignVar x y (Named false true)) s = PBad UbIllFormed.
Proof.
  pose (l := [SNew 0 (SOrigin (OAddr 0)) [Deref]; SNew 1 (SOrigin (OAddr 2)) [Deref]]).
  assert (Hp : forall w0 d0 d2, begins w0 (OAddr 0) (VView KPtr eqs) d0 -> begins w0 (OAddr 2) (VView KPtr eqs) d2 -> d0 <> None -> d2 <> None ->
     exists G, means_all w0 ∅ l G /\ G !! 0 = Some (VInfo (VView KRef eqs) d0 None) /\ G !! 1 = Some (VInfo (VView KRef eqs) d2 None)).
  { intros w0 d0 d2 H0 H2 Hd0 Hd2. eexists. split; [|split].
    - eapply ma_cons; [|eapply ma_cons; [|apply ma_nil]].
      + eapply mn_new; [done| |done|]; [eapply em_origin; [exact H0|chain_tac|done]|by intros _ r].
      + eapply mn_new; [done| |done|]; [eapply em_origin; [exact H2|chain_tac|done]|by intros _ r].
    - reflexivity.
    - reflexivity. }
  destruct (ran l) as [s| |] eqn:Hs; [|by vm_compute in Hs|by vm_compute in Hs].
  destruct (Hp obs_w (tgt 0 1) (tgt 2 5)) as (G & Hm & HG0 & HG1); [apply begin_addr with 10; vm_compute; eauto|apply begin_addr with 10; vm_compute; eauto|by vm_compute|by vm_compute|].
  exists obsE, obs0, obs_w, l, G, s. split; [apply mkE_wf|]. split; [apply obs_w_reachable|].
  split; [split; [apply obs_w_norefs|split; [apply (bool_decide_eq_true_1 _); by vm_compute|exact Hm]]|].
  split; [exact Hs|]. exists 0, 1, (VInfo (VView KRef eqs) (tgt 0 1) None), (VInfo (VView KRef eqs) (tgt 2 5) None). split; [exact HG0|]. split; [exact HG1|]. split; [done|]. split; [done|]. split; [by vm_compute|].
  vm_compute in Hs. injection Hs as <-. split; [eexists; by vm_compute|by vm_compute].
Qed.
Lemma stale_view_refuted :
  exists E O w0 l s c, env_wf E /\ reachable E w0 /\ w_sref w0 = ∅ /\ run_stmts O l (PState w0 ∅) = POk s /\ read_var s 1 = Some c /\
    cur_methods (ps_w s) c = us /\ self_of c (ps_w s) = Ok (PHeap 0) (ps_w s) /\ cur_invoke E c 0 7 (ps_w s) = UB UbWrongType.
Proof.
  destruct (ran stale_prog) as [s| |] eqn:Hs; [|by vm_compute in Hs|by vm_compute in Hs].
  exists obsE, obs0, obs_w, stale_prog, s. eexists. split; [apply mkE_wf|]. split; [apply obs_w_reachable|]. split; [apply obs_w_norefs|].
  split; [exact Hs|]. vm_compute in Hs. injection Hs as <-. split; [by vm_compute|]. by vm_compute.
Qed.

(** is [x = y] accepted after the statements l? *)
Definition assign_verdict (l : list stmt) (x y : nat) (n : naming) : bool :=
  match ran l with POk s => match run_stmt obs0 (SAssignVar x y n) s with POk _ => true | _ => false end | _ => false end.
Definition rebind_refs : list stmt := [SNew 0 (SOrigin (OAddr 0)) [Deref]; SNew 1 (SOrigin (OAddr 2)) [Deref]].
Definition rebind_ptrs : list stmt := [SNew 0 (SOrigin (OAddr 0)) []; SNew 1 (SOrigin (OAddr 2)) []].
