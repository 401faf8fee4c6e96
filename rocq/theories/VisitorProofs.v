(** Proofs about erased visitors. *)
From stdpp Require Import gmap list countable.
From Verif Require Import TypeListModel AnyModel AnyInv AnySteps AnyOps AnyHistory AnyFacts DescModel
  PolyModel PolySpec PolyProofs PolyFacts PolyFacts2 VisitModel VisitSpec VisitProofs VisitorModel VisitorSpec.

Lemma visit1_inj T U : visit1 T = visit1 U -> T = U.
Proof. unfold visit1. intros [= H]. apply (inj encode_nat) in H. congruence. Qed.
Lemma visit2_inj T U T' U' : visit2 T U = visit2 T' U' -> T = T' /\ U = U'.
Proof. unfold visit2. intros [= H]. apply (inj encode_nat) in H. split; congruence. Qed.
Lemma visit12 T U V : visit1 T <> visit2 U V.
Proof. unfold visit1, visit2. intros [= H]. apply (inj encode_nat) in H. congruence. Qed.

Lemma in_interface1 T Ts : In (visit1 T) (visitor_interface Ts) <-> In T Ts.
Proof.
  unfold visitor_interface. rewrite in_map_iff. split; [|eauto]. intros (U & H & HU). by apply visit1_inj in H as <-.
Qed.
Lemma in_interface2 T U Ts Us : In (visit2 T U) (visitor2_interface Ts Us) <-> In T Ts /\ In U Us.
Proof.
  unfold visitor2_interface. rewrite in_concat. split.
  - intros (l & Hl & Hi). apply in_map_iff in Hl as (T' & <- & HT). apply in_map_iff in Hi as (U' & He & HU). by apply visit2_inj in He as [<- <-].
  - intros [HT HU]. exists (map (visit2 T) Us). split; apply in_map_iff; eauto.
Qed.

Lemma check_args_ok w args : Forall (fun a => exists o, obj_at w (snd a) = Some o /\ o_ty o = fst a) args -> check_args args w = Ok tt w.
Proof.
  induction 1 as [|[T q] args (o & Ho & HT) H IH]; [done|]. cbn [check_args]. cbn in Ho, HT. by rewrite (bind_ok _ _ _ _ _ (read_as_ok w q o T Ho HT)).
Qed.
Lemma slot_fn_ok B w V self x id args : obj_at w self = Some (Obj V x id) -> Forall (fun a => exists o, obj_at w (snd a) = Some o /\ o_ty o = fst a) args ->
  slot_fn B V self args w = expected B V x args w.
Proof.
  intros Hs Ha. unfold slot_fn, expected. destruct (vb_noop B V (map fst args)); [done|].
  rewrite (bind_ok _ _ _ _ _ (read_as_ok w self _ V Hs eq_refl)). cbn [o_val]. by rewrite (bind_ok _ _ _ _ _ (check_args_ok _ _ Ha)).
Qed.

Lemma visit_any1 : forall E B w i a V x T q, env_wf E -> reachable E w -> w_any w !! i = Some a -> content w i = Some (Some (V, x)) ->
  In (visit1 T) (a_ms a) -> holds w T q -> adl_visit1 B (OpAny i) T q w = expected B V x [(T, q)] w.
Proof.
  intros E B w i a V x T q Hwf Hr Ha Hc Hm Hq. pose proof (reachable_inv _ _ Hwf Hr) as HI.
  destruct (target_exists w i a E HI Ha) as ([[U s]|] & Hd & _ & _); [|by cbn in Hd; rewrite Hc in Hd].
  assert (U = V) as -> by (destruct Hd as (_ & z & Hz); congruence).
  assert (Hop : opd w (OpAny i) (a_ms a) (Some (V, s))) by by exists a.
  destruct (any_target_some _ _ _ _ _ _ HI Ha Hd) as (-> & v & x' & id & _ & _ & _ & Hobj & Hc'). rewrite Hc in Hc'. injection Hc' as <-.
  unfold adl_visit1. rewrite (bind_ok _ _ _ _ _ (opd_slot _ _ _ _ _ _ _ HI Hop Hm)), (bind_ok _ _ _ _ _ (opd_ptr _ _ _ _ _ _ HI Hop)).
  eapply slot_fn_ok; [exact Hobj|]. by constructor.
Qed.
Lemma visit_any2 : forall E B w i a V x T U q r, env_wf E -> reachable E w -> w_any w !! i = Some a -> content w i = Some (Some (V, x)) ->
  In (visit2 T U) (a_ms a) -> holds w T q -> holds w U r -> adl_visit2 B (OpAny i) T U q r w = expected B V x [(T, q); (U, r)] w.
Proof.
  intros E B w i a V x T U q r Hwf Hr Ha Hc Hm Hq Hr'. pose proof (reachable_inv _ _ Hwf Hr) as HI.
  destruct (target_exists w i a E HI Ha) as ([[V' s]|] & Hd & _ & _); [|by cbn in Hd; rewrite Hc in Hd].
  assert (V' = V) as -> by (destruct Hd as (_ & z & Hz); congruence).
  assert (Hop : opd w (OpAny i) (a_ms a) (Some (V, s))) by by exists a.
  destruct (any_target_some _ _ _ _ _ _ HI Ha Hd) as (-> & v & x' & id & _ & _ & _ & Hobj & Hc'). rewrite Hc in Hc'. injection Hc' as <-.
  unfold adl_visit2. rewrite (bind_ok _ _ _ _ _ (opd_slot _ _ _ _ _ _ _ HI Hop Hm)), (bind_ok _ _ _ _ _ (opd_ptr _ _ _ _ _ _ HI Hop)).
  eapply slot_fn_ok; [exact Hobj|]. by constructor; [|constructor].
Qed.
Lemma visit_view1 : forall E O B w o l s s' V self c w' T q x id, env_wf E -> reachable E w -> begins w o s (Some (V, self)) -> chain s l s' ->
  fresh_names w (all_names o l) -> obtained O w o l c w' -> In (visit1 T) (sty_methods s') -> obj_at w self = Some (Obj V x id) -> holds w T q ->
  adl_visit1 B (OpCur c) T q w' = expected B V x [(T, q)] w'.
Proof.
  intros E O B w o l s s' V self c w' T q x id Hwf Hr Hb Hch Hf Ho Hm Hobj Hq. pose proof (reachable_inv _ _ Hwf Hr) as HI.
  destruct (obtained_stands _ _ _ _ _ _ _ _ _ _ HI Hb Hch (ltac:(done)) Hf Ho) as [Hx Hs]. pose proof (ext_inv _ _ _ _ Hx HI) as HI'.
  assert (Hop : opd w' (OpCur c) (sty_methods s') (Some (V, self))) by by exists s'.
  unfold adl_visit1. rewrite (bind_ok _ _ _ _ _ (opd_slot _ _ _ _ _ _ _ HI' Hop Hm)), (bind_ok _ _ _ _ _ (opd_ptr _ _ _ _ _ _ HI' Hop)).
  eapply slot_fn_ok; [rewrite (ext_obj _ _ _ _ Hx); exact Hobj|]. constructor; [|constructor]. cbn. by rewrite (ext_obj _ _ _ _ Hx).
Qed.
