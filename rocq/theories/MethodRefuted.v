(** The remaining lemmas behind PropMethod.v. *)
From stdpp Require Import list.
From Verif Require Import TypeListModel TypeListSpec MethodModel MethodSpec MethodProofs MethodExamples.

Lemma exist_for_forms T (ms : list (mclass * (nat -> bool))) :
  (forall M a, In (M, a) ms -> (exists w, M = method_class w /\ a = wr_accepts w) \/ (exists v body, M = value_class v a body)) ->
  exist_for T (map fst ms) = Got (forallb (fun m => snd m T) ms).
Proof.
  intros H. apply exist_for_written. intros M a Hin. destruct (H M a Hin) as [(w & -> & ->)|(v & body & ->)].
  - apply check_written.
  - destruct (pseudomethods_written v a body) as (_ & _ & tr & _ & _ & _ & _ & _ & _ & C). apply C.
Qed.
Lemma not_for_int w : ~ signature_found w ->
  signature_t (method_class w) = Fails /\ simple_method (method_class w) = Got false /\
  forall E T, invoker_for E T (method_class w) = Hard.
Proof.
  intros H. pose proof (signature_missing w H) as S. split; [exact S|]. split.
  - unfold simple_method, regular_method, use_invoke, name_invoke, erased_self. cbn.
    unfold signature_found in H. destruct (wr_sig w); [exfalso; apply H; auto|].
    destruct (wr_accepts w 0); [exfalso; apply H; auto|]. done.
  - intros E T. unfold invoker_for, method_traits. rewrite S. done.
Qed.
Lemma auto_return : exists M s,
  mc_sig M = Some (MFun s) /\ simple_method M = Got true /\ check_fn 7 M = Got true /\ signature_t M = Hard.
Proof. exists auto_method. eexists. done. Qed.
Lemma by_value_refuted : exists E w T, signature_found w /\ wr_ref w = NoRef /\ wr_body w T = true /\
  exist_for T [method_class w] = Got true /\ vtable_for E T [method_class w] = Hard.
Proof. exists ex_env, foox, 5. split; [right; done|done]. Qed.
Lemma by_rvalue_refuted E w T :
  signature_found w -> wr_ref w = RRef -> wr_accepts w T = true -> wr_body w T = true ->
  Forall (fun a => t_base a <> BVoid) (wr_args w) -> (t_base (wr_ret w) = BVoid -> t_ref (wr_ret w) = NoRef) ->
  simple_method (method_class w) = Got true /\ exist_for T [method_class w] = Got true /\ vtable_for E T [method_class w] = Hard.
Proof.
  intros Hs Hr Ha Hb Hargs Hret. split; [apply (methods_written w Hs)|]. split; [cbn [exist_for]; rewrite check_written, Ha; done|].
  cbn [vtable_for]. rewrite (invoker_written E w T Hs). rewrite Hr. cbn [bool_decide].
  rewrite bool_decide_false by done. rewrite (call_written E w T Ha Hb Hret).
  destruct (can_init E (Ty LRef true (BObj T)) (self_param w T)) eqn:Hi.
  - apply self_init in Hi. rewrite Hr in Hi. destruct Hi as [[? _]|[? _]]; done.
  - destruct (e_copy E T); done.
Qed.
Lemma arg_by_value_refuted : exists E w T, signature_found w /\ wr_ref w = LRef /\ wr_body w T = true /\
  exist_for T [method_class w] = Got true /\ vtable_for E T [method_class w] = Hard.
Proof. exists ex_env, takes_pinned, 7. split; [right; done|done]. Qed.
Lemma mismatch_refuted : exists E M T, simple_method M = Got true /\ exist_for T [M] = Got true /\ vtable_for E T [M] = Hard.
Proof. exists ex_env, mismatched, 7. done. Qed.
Lemma two_faced_refuted : exists E M T, pseudomethod M = true /\
  (forall T', exists g, call_value M T' = Got g) /\ exist_for T [M] = Got true /\ vtable_for E T [M] = Hard.
Proof. exists ex_env, two_faced, 7. split; [done|]. split; [intros T'; eexists; done|done]. Qed.
Lemma overloaded_refuted : exists E M T e, simple_method M = Got true /\
  vtable_for E T [M] = Got [e] /\ exist_for T [M] = Got false.
Proof. exists ex_env, overloaded, 7. eexists. done. Qed.

Lemma compound_spec (ts : list (TypeListModel.ty mclass)) :
  method_concept (TL ts) = Got true <-> Forall (fun t => exists M, t = Leaf M /\ simple_method M = Got true) ts.
Proof.
  cbn. induction ts as [|t ts IH]; [split; [constructor|done]|]. cbn [all_simple]. rewrite Forall_cons, <- IH. destruct t as [M|l].
  - split.
    + destruct (simple_method M) as [[]| |] eqn:HM; cbn; intros H; try done. split; [|exact H]. eauto.
    + intros [(M' & HL & HM) H]. simplify_eq. rewrite HM. cbn. exact H.
  - cbn. split; [done|]. intros [(M' & ? & _) _]. done.
Qed.
Lemma nested_refuted : exists t : TypeListModel.ty mclass,
  Forall (fun M => simple_method M = Got true) (leaves t) /\ method_concept t = Got false.
Proof. exists (TL [TL [Leaf (method_class barx)]]). split; [repeat constructor|done]. Qed.
