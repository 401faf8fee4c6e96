(** Classes with any members (C106). *)
From stdpp Require Import gmap list.
From Verif Require Import TypeListModel TypeListSpec TypeListProofs AnyModel AnyInv AnySteps AnyLife AnyAssign AnyHistory AnyLogSpec AnyExec AnyFacts AnyFacts2 AnyDestroyed VectorModel VectorSpec VectorProofs StructModel StructSpec.

Section Proofs.
  Context (E : env) (Hwf : env_wf E).
  Notation has w ms i := (has_any w i (fun a => a_ms a = ms)).

  Lemma has_view w w' ms i : view w' i = view w i -> has w ms i -> has w' ms i.
  Proof. intros Hv (a & H1 & H2). exists a. split; [by apply (view_any w)|done]. Qed.
  Lemma object_view mss w w' l : (forall k, In k l -> view w' k = view w k) -> object mss w l -> object mss w' l.
  Proof.
    intros Hv H. induction H as [|ms i mss l H1 H2 IH]; [constructor|]. constructor; [apply (has_view w); [apply Hv; by left|done]|].
    apply IH. intros k Hk. apply Hv. by right.
  Qed.
  Lemma elements_view w w' l : (forall k, In k l -> view w' k = view w k) -> elements w' l = elements w l.
  Proof. intros Hv. apply map_ext_in. intros k Hk. by apply view_content, Hv. Qed.
  Lemma empty_view w w' l : (forall k, In k l -> view w' k = view w k) -> all_empty w l -> all_empty w' l.
  Proof. intros Hv H k Hk. unfold is_empty. rewrite (view_content w w' k); [by apply H|by apply Hv]. Qed.

  Lemma copy_step w n o ms : reachable E w -> In (MCopy true) ms -> w_any w !! n = None -> has w ms o ->
    match copy_ctor E n o ms w with
    | Ok _ w' => reachable E w' /\ has w' ms n /\ content w' n = content w o /\ (forall k, k <> n -> view w' k = view w k)
    | Exn w' => reachable E w' /\ w_any w' !! n = None /\ (forall k, k <> n -> view w' k = view w k)
    | UB _ | Term => False
    end.
  Proof.
    intros Hr Hcp Hn (a & Ha & Hms). pose proof (reachable_inv _ _ Hwf Hr) as HI. pose proof (inv_ok _ _ HI _ _ Ha) as [Hd _].
    rewrite Hms in Hd. assert (contiguous ms (a_ms a)) as Hct by (rewrite Hms; apply contiguous_refl).
    assert (pre E w (OCopy n o ms)) as Hp. { split; [done|]. split; [done|]. exists a. split; [done|]. by rewrite Hms in *. }
    pose proof (copy_ctor_spec E w n o a ms Hwf HI Hn Ha Hd Hct) as H. rewrite Hms in H. specialize (H Hcp). unfold wp in H.
    destruct (copy_ctor E n o ms w) as [[] w'|w'| |] eqn:Hrun; try done.
    - destruct H as (_ & F & Hc & a' & Ha' & _ & Hm' & _).
      split; [by apply (reachable_outcome E w (OCopy n o ms)); [..|by left]|]. split; [by exists a'|]. split; [done|].
      intros k Hk; apply (eff_view _ _ _ F); set_solver.
    - destruct H as (_ & _ & Hsm). split; [by apply (reachable_outcome E w (OCopy n o ms)); [..|by right]|].
      destruct Hsm as (H1 & H2 & _). split; [by rewrite H1|]. intros k _. unfold view, block_of. by rewrite H1, H2.
  Qed.
  Lemma move_step w n o ms : reachable E w -> has_move E ms = true -> w_any w !! n = None -> has w ms o ->
    exists w', move_ctor E n o w = Ok tt w' /\ reachable E w' /\ has w' ms n /\ has w' ms o /\ content w' n = content w o /\ is_empty w' o /\
      (forall k, k <> n -> k <> o -> view w' k = view w k) /\ Quiet w w' /\ (forall b, address w o = Some (PHeap b) -> address w' n = Some (PHeap b)).
  Proof.
    intros Hr Hm Hn (a & Ha & Hms). pose proof (reachable_inv _ _ Hwf Hr) as HI.
    assert (pre E w (OMove n o)) as Hp. { split; [done|]. exists a. by rewrite Hms. }
    pose proof (move_ctor_spec E w n o a Hwf HI Hn Ha) as H. rewrite Hms in H. specialize (H Hm). unfold wp in H.
    destruct (move_ctor E n o w) as [[] w'|w'| |] eqn:Hrun; try done.
    destruct H as (_ & F & Hc & He & Q & a' & o' & Ha' & Ho' & Hal & Hm1 & _ & Hm2 & _). exists w'. split; [done|].
    split; [by apply (reachable_outcome E w (OMove n o)); [..|by left]|]. split; [by exists a'|]. split; [by exists o'|]. split; [done|]. split; [done|].
    split; [intros k H1 H2; apply (eff_view _ _ _ F); set_solver|]. split; [done|].
    intros b Hb. by apply (move_keeps_address E w w' n o b Hwf Hr Hp).
  Qed.
  Lemma copy_assign_step w i j t ms : reachable E w -> movable_alloc E = true -> In (MCopy true) ms -> w_any w !! t = None -> has w ms i -> has w ms j ->
    match copy_assign E i j t w with
    | Ok _ w' => reachable E w' /\ has w' ms i /\ content w' i = content w j /\ w_any w' !! t = None /\ (forall k, k <> i -> view w' k = view w k)
    | Exn w' => reachable E w' /\ (forall k, view w' k = view w k)
    | UB _ | Term => False
    end.
  Proof.
    intros Hr Hma Hcp Ht (a & Ha & Hms) (o & Ho & Hmo). pose proof (reachable_inv _ _ Hwf Hr) as HI.
    assert (copy_compat E a o = true) as Hcm. { unfold copy_compat. unfold movable_alloc in Hma. by rewrite Hma. }
    assert (pre E w (OCopyAssign i j t)) as Hp. { split; [done|]. exists a. split; [done|]. exists o. rewrite Hms, Hmo. done. }
    assert (alloc_safe E w (OCopyAssign i j t)) as Hs. { exists a. split; [done|]. exists o. split; [done|]. by right; left. }
    pose proof (copy_assign_spec E w i j t a o Hwf HI Ha Ho Ht) as H. rewrite Hms, Hmo in H. specialize (H eq_refl Hcp ltac:(congruence)).
    unfold wp in H. destruct (copy_assign E i j t w) as [[] w'|w'| |] eqn:Hrun; [| |done|destruct H; congruence].
    - destruct H as (_ & F & Hc & Ht' & a' & Ha' & _ & Hm').
      split; [by apply (reachable_outcome E w (OCopyAssign i j t)); [..|by left]|]. split; [by exists a'|]. split; [done|]. split; [done|].
      intros k Hk; apply (eff_view _ _ _ F); set_solver.
    - destruct H as (_ & _ & _ & [(H1 & H2 & _)|[? _]]); [|congruence].
      split; [by apply (reachable_outcome E w (OCopyAssign i j t)); [..|by right]|]. intros k. unfold view, block_of. by rewrite H1, H2.
  Qed.
  Lemma move_assign_step w i j ms : reachable E w -> movable_alloc E = true -> has_move_assign E ms = true -> i <> j -> has w ms i -> has w ms j ->
    exists w', move_assign E i j w = Ok tt w' /\ reachable E w' /\ has w' ms i /\ has w' ms j /\ content w' i = content w j /\ is_empty w' j /\
      (forall k, k <> i -> k <> j -> view w' k = view w k) /\ Quiet w w' /\ (forall b, address w j = Some (PHeap b) -> address w' i = Some (PHeap b)).
  Proof.
    intros Hr Hma Hm Hij (a & Ha & Hms) (o & Ho & Hmo). pose proof (reachable_inv _ _ Hwf Hr) as HI.
    assert (e_always_eq E = true \/ e_pocma E = true) as Hae by by apply orb_prop.
    assert (compat E a o = true) as Hcm. { unfold compat. destruct Hae as [->| ->]; [done|]. by rewrite orb_true_r. }
    assert (pre E w (OMoveAssign i j)) as Hp. { exists a. split; [done|]. exists o. rewrite Hms, Hmo. done. }
    assert (alloc_safe E w (OMoveAssign i j)) as Hs. { exists a. split; [done|]. exists o. split; [done|]. by right; right; left. }
    pose proof (move_assign_spec E w i j a o Hwf HI Hij Ha Ho) as H. rewrite Hms, Hmo in H. specialize (H eq_refl Hm ltac:(congruence)).
    unfold wp in H. destruct (move_assign E i j w) as [[] w1|w1| |] eqn:Hrun; [|destruct H; congruence|done|destruct H; congruence].
    destruct H as (_ & F & Hc & Hcj & a' & o' & Ha' & Ho' & _ & Hm1 & _ & Hm2 & Hq & _). exists w1. split; [done|].
    split; [by apply (reachable_outcome E w (OMoveAssign i j)); [..|by left]|]. split; [exists a'; by rewrite Hm1|]. split; [exists o'; by rewrite Hm2|].
    split; [done|]. split; [done|]. split; [intros k H1 H2; apply (eff_view _ _ _ F); set_solver|]. split; [by apply Hq|].
    intros b Hb. by apply (move_assign_keeps_address E w w1 i j b Hwf Hr Hp Hae).
  Qed.

  Lemma nodup_pair (n : nat) ns o os : NoDup ((n :: ns) ++ o :: os) -> NoDup (ns ++ os) /\ ~ In n ns /\ ~ In n os /\ n <> o /\ ~ In o ns /\ ~ In o os.
  Proof.
    intros Hnd. cbn in Hnd. apply NoDup_cons in Hnd as [Hn Hnd]. apply NoDup_app in Hnd as (Hns & Hd & Hos). apply NoDup_cons in Hos as [Ho Hos].
    rewrite elem_of_app, elem_of_cons in Hn. rewrite <- !elem_of_list_In. split; [apply NoDup_app; split; [done|split; [|done]]|].
    - intros x Hx Hx'. apply (Hd x Hx). by right.
    - split; [tauto|]. split; [tauto|]. split; [tauto|]. split; [|done]. intros Hx. apply (Hd o Hx). by left.
  Qed.
  Lemma object_cons ms mss w l : object (ms :: mss) w l -> exists i tl, l = i :: tl /\ has w ms i /\ object mss w tl.
  Proof. intros H. inversion H; subst. by eexists _, _. Qed.
  Lemma object_nil w l : object [] w l -> l = []. Proof. intros H. by inversion H. Qed.

  Lemma object_in mss w l k : object mss w l -> In k l -> w_any w !! k <> None.
  Proof.
    intros H. induction H as [|ms i mss l (a & H1 & _) H2 IH]; [done|]. intros [<-|Hk]; [congruence|by apply IH].
  Qed.
  Lemma object_length mss w l : object mss w l -> length l = length mss.
  Proof. intros H. symmetry. by apply Forall2_length in H. Qed.

  Lemma s_copy_spec mss : forall news olds w, reachable E w -> all_copyable mss -> length news = length mss -> NoDup news -> gone w news -> object mss w olds ->
    match s_copy E mss news olds w with
    | Ok _ w' => reachable E w' /\ object mss w' news /\ elements w' news = elements w olds /\ (forall k, ~ In k news -> view w' k = view w k)
    | Exn w' => reachable E w' /\ gone w' news /\ (forall k, ~ In k news -> view w' k = view w k)
    | UB _ | Term => False
    end.
  Proof.
    induction mss as [|ms mss IH]; intros news olds w Hr Hcp Hlen Hnd Hg Ho.
    - apply object_nil in Ho as ->. destruct news; [|done]. cbn. split; [done|]. split; [constructor|]. split; [done|done].
    - apply object_cons in Ho as (o & os & -> & Ho & Hos). destruct news as [|n ns]; [done|]. apply NoDup_cons in Hnd as [Hn Hnd]. rewrite elem_of_list_In in Hn.
      apply Forall_cons in Hcp as [Hc Hcp]. pose proof (Hg n (or_introl eq_refl)) as Hgn.
      pose proof (copy_step w n o ms Hr Hc Hgn Ho) as H. cbn [s_copy]. unfold bindM at 1. destruct (copy_ctor E n o ms w) as [[] w1|w1| |]; try done.
      + destruct H as (Hr1 & An & Hcn & V).
        assert (Vos : forall k, In k os -> view w1 k = view w k).
        { intros k Hk. apply V. intros ->. by apply (object_in mss w os n Hos Hk). }
        assert (Vns : forall k, In k ns -> view w1 k = view w k) by (intros k Hk; apply V; congruence).
        cbn in Hlen. pose proof (IH ns os w1 Hr1 Hcp ltac:(lia) Hnd (gone_view w w1 ns Vns (fun k Hk => Hg k (or_intror Hk))) (object_view mss w w1 os Vos Hos)) as H2.
        unfold on_exn. destruct (s_copy E mss ns os w1) as [[] w2|w2| |]; try done.
        * destruct H2 as (Hr2 & An2 & Hc2 & V2). pose proof (V2 n Hn) as Vn.
          split; [done|]. split; [constructor; [by apply (has_view w1)|done]|]. split.
          { unfold elements in *. cbn. rewrite (view_content _ _ _ Vn), Hcn, Hc2. f_equal. by apply (elements_view w w1). }
          intros k Hk. cbn in Hk. rewrite V2 by tauto. apply V. intros ->; tauto.
        * destruct H2 as (Hr2 & Hg2 & V2). pose proof (V2 n Hn) as Vn.
          destruct (dtor_step E ms Hwf w2 n Hr2) as (w3 & -> & Hr3 & _ & Hn3 & V3); [by apply (has_view w1)|].
          split; [done|]. split.
          { intros k [<-|Hk]; [done|]. apply (view_none w2); [apply V3; congruence|by apply Hg2]. }
          intros k Hk. cbn in Hk. rewrite V3 by (intros ->; tauto). rewrite V2 by tauto. apply V. intros ->; tauto.
      + destruct H as (Hr1 & Hn1 & V). split; [done|]. split.
        * intros k [<-|Hk]; [done|]. apply (view_none w); [apply V; congruence|]. apply Hg. by right.
        * intros k Hk. apply V. intros ->. apply Hk. by left.
  Qed.

  Lemma s_dtor_spec mss : forall l w, reachable E w -> NoDup l -> object mss w l ->
    exists w', s_dtor E l w = Ok tt w' /\ reachable E w' /\ Quiet w w' /\ gone w' l /\ (forall k, ~ In k l -> view w' k = view w k).
  Proof.
    induction mss as [|ms mss IH]; intros l w Hr Hnd Ho.
    - apply object_nil in Ho as ->. exists w. split; [done|]. split; [done|]. split; [done|]. split; [by intros ?|done].
    - apply object_cons in Ho as (i & tl & -> & Hi & Ho). apply NoDup_cons in Hnd as [Hni Hnd]. rewrite elem_of_list_In in Hni.
      destruct (IH tl w Hr Hnd Ho) as (w1 & H1 & Hr1 & Q1 & Hg1 & V1).
      destruct (dtor_step E ms Hwf w1 i Hr1) as (w2 & H2 & Hr2 & Q2 & Hi2 & V2); [apply (has_view w); [by apply V1|done]|].
      exists w2. split; [cbn; by rewrite (bind_ok _ _ _ _ _ H1)|]. split; [done|]. split; [by eapply quiet_trans|]. split.
      + intros k [<-|Hk]; [done|]. apply (view_none w1); [apply V2; congruence|by apply Hg1].
      + intros k Hk. cbn in Hk. rewrite V2 by (intros ->; tauto). apply V1. tauto.
  Qed.

  Lemma s_move_spec mss : forall news olds w, reachable E w -> all_movable E mss -> length news = length mss -> NoDup (news ++ olds) -> gone w news -> object mss w olds ->
    exists w', s_move E news olds w = Ok tt w' /\ reachable E w' /\ object mss w' news /\ object mss w' olds /\ elements w' news = elements w olds /\
      all_empty w' olds /\ (forall k, ~ In k (news ++ olds) -> view w' k = view w k) /\ Quiet w w' /\ same_blocks w w' olds news.
  Proof.
    induction mss as [|ms mss IH]; intros news olds w Hr Hcp Hlen Hnd Hg Ho.
    - apply object_nil in Ho as ->. destruct news; [|done]. exists w. split; [done|]. split; [done|]. split; [constructor|]. split; [constructor|]. split; [done|].
      split; [by intros ?|]. split; [done|]. split; [done|by intros ?].
    - apply object_cons in Ho as (o & os & -> & Ho & Hos). destruct news as [|n ns]; [done|]. apply Forall_cons in Hcp as [Hc Hcp].
      apply nodup_pair in Hnd as (Hnd & N1 & N2 & N3 & N4 & N5).
      destruct (move_step w n o ms Hr Hc (Hg n (or_introl eq_refl)) Ho) as (w1 & H1 & Hr1 & An & Ao & Hcn & He & V & Q & P).
      assert (Vos : forall k, In k os -> view w1 k = view w k) by (intros k Hk; apply V; congruence).
      assert (Vns : forall k, In k ns -> view w1 k = view w k) by (intros k Hk; apply V; congruence).
      cbn in Hlen. destruct (IH ns os w1 Hr1 Hcp ltac:(lia) Hnd (gone_view w w1 ns Vns (fun k Hk => Hg k (or_intror Hk))) (object_view mss w w1 os Vos Hos))
        as (w2 & H2 & Hr2 & An2 & Ao2 & Hc2 & He2 & V2 & Q2 & P2).
      assert (view w2 n = view w1 n) as Vn by (apply V2; rewrite in_app_iff; tauto).
      assert (view w2 o = view w1 o) as Vo by (apply V2; rewrite in_app_iff; tauto).
      exists w2. split; [cbn; rewrite (bind_ok _ _ _ _ _ H1); unfold on_exn; by rewrite H2|]. split; [done|].
      split; [constructor; [by apply (has_view w1)|done]|]. split; [constructor; [by apply (has_view w1)|done]|]. split.
      { unfold elements in *. cbn. rewrite (view_content _ _ _ Vn), Hcn, Hc2. f_equal. by apply (elements_view w w1). }
      split. { intros k [<-|Hk]; [|by apply He2]. unfold is_empty. by rewrite (view_content _ _ _ Vo). }
      split. { intros k Hk. cbn in Hk. rewrite in_app_iff in Hk. cbn in Hk. rewrite V2 by (rewrite in_app_iff; tauto). apply V; intros ->; tauto. }
      split; [by eapply quiet_trans|].
      intros k o' n' b Ho' Hn' Hb. destruct k as [|k]; cbn in Ho', Hn'.
      { injection Ho' as <-. injection Hn' as <-. rewrite (view_address _ _ _ Vn). by apply P. }
      apply (P2 k o' n' b Ho' Hn'). rewrite <- Hb. apply view_address, Vos. rewrite <- elem_of_list_In. by eapply elem_of_list_lookup_2.
  Qed.

  Lemma s_move_assign_spec mss : forall is js w, reachable E w -> movable_alloc E = true -> all_move_assignable E mss -> NoDup (is ++ js) ->
    object mss w is -> object mss w js ->
    exists w', s_move_assign E is js w = Ok tt w' /\ reachable E w' /\ object mss w' is /\ object mss w' js /\ elements w' is = elements w js /\
      all_empty w' js /\ (forall k, ~ In k (is ++ js) -> view w' k = view w k) /\ Quiet w w' /\ same_blocks w w' js is.
  Proof.
    induction mss as [|ms mss IH]; intros is js w Hr Hma Hcp Hnd Hi Hj.
    - apply object_nil in Hi as ->. apply object_nil in Hj as ->. exists w. split; [done|]. split; [done|]. split; [constructor|]. split; [constructor|]. split; [done|].
      split; [by intros ?|]. split; [done|]. split; [done|by intros ?].
    - apply object_cons in Hi as (i & is' & -> & Hi & His). apply object_cons in Hj as (j & js' & -> & Hj & Hjs). apply Forall_cons in Hcp as [Hc Hcp].
      apply nodup_pair in Hnd as (Hnd & N1 & N2 & N3 & N4 & N5).
      destruct (move_assign_step w i j ms Hr Hma Hc N3 Hi Hj) as (w1 & H1 & Hr1 & An & Ao & Hcn & He & V & Q & P).
      assert (Vos : forall k, In k js' -> view w1 k = view w k) by (intros k Hk; apply V; congruence).
      assert (Vns : forall k, In k is' -> view w1 k = view w k) by (intros k Hk; apply V; congruence).
      destruct (IH is' js' w1 Hr1 Hma Hcp Hnd (object_view mss w w1 is' Vns His) (object_view mss w w1 js' Vos Hjs))
        as (w2 & H2 & Hr2 & An2 & Ao2 & Hc2 & He2 & V2 & Q2 & P2).
      assert (view w2 i = view w1 i) as Vn by (apply V2; rewrite in_app_iff; tauto).
      assert (view w2 j = view w1 j) as Vo by (apply V2; rewrite in_app_iff; tauto).
      exists w2. split; [cbn; by rewrite (bind_ok _ _ _ _ _ H1)|]. split; [done|].
      split; [constructor; [by apply (has_view w1)|done]|]. split; [constructor; [by apply (has_view w1)|done]|]. split.
      { unfold elements in *. cbn. rewrite (view_content _ _ _ Vn), Hcn, Hc2. f_equal. by apply (elements_view w w1). }
      split. { intros k [<-|Hk]; [|by apply He2]. unfold is_empty. by rewrite (view_content _ _ _ Vo). }
      split. { intros k Hk. cbn in Hk. rewrite in_app_iff in Hk. cbn in Hk. rewrite V2 by (rewrite in_app_iff; tauto). apply V; intros ->; tauto. }
      split; [by eapply quiet_trans|].
      intros k o' n' b Ho' Hn' Hb. destruct k as [|k]; cbn in Ho', Hn'.
      { injection Ho' as <-. injection Hn' as <-. rewrite (view_address _ _ _ Vn). by apply P. }
      apply (P2 k o' n' b Ho' Hn'). rewrite <- Hb. apply view_address, Vos. rewrite <- elem_of_list_In. by eapply elem_of_list_lookup_2.
  Qed.
  Lemma s_move_assign_self l w : s_move_assign E l l w = Ok tt w.
  Proof. induction l as [|i l IH]; [done|]. cbn. by rewrite (bind_ok _ _ _ _ _ (move_assign_self E w i)). Qed.

  (** source and target are different objects or the same one *)
  Fixpoint aligned (is js : list nat) : Prop :=
    match is, js with i :: is, j :: js => ~ In i is /\ ~ In i js /\ aligned is js | _, _ => True end.
  Lemma aligned_apart is : forall js, NoDup is -> apart is js -> aligned is js.
  Proof.
    induction is as [|i is IH]; intros js Hn Ha; [by destruct js|]. destruct js as [|j js]; [done|]. apply NoDup_cons in Hn as [Hi Hn]. rewrite elem_of_list_In in Hi.
    split; [done|]. split; [intros H; apply (Ha i (or_introl eq_refl)); by right|]. apply IH; [done|]. intros k Hk Hk'. apply (Ha k); by right.
  Qed.
  Lemma aligned_self is : NoDup is -> aligned is is.
  Proof. induction is as [|i is IH]; [done|]. intros [Hi Hn]%NoDup_cons. rewrite elem_of_list_In in Hi. split; [done|]. split; [done|by apply IH]. Qed.

  Lemma s_copy_assign_spec mss t : forall is js w, reachable E w -> movable_alloc E = true -> all_copyable mss -> aligned is js -> w_any w !! t = None ->
    object mss w is -> object mss w js ->
    match s_copy_assign E is js t w with
    | Ok _ w' => reachable E w' /\ object mss w' is /\ elements w' is = elements w js /\ w_any w' !! t = None /\ (forall k, ~ In k is -> view w' k = view w k)
    | Exn w' => reachable E w' /\ object mss w' is /\ (exists n, n < length is /\ elements w' is = take n (elements w js) ++ drop n (elements w is)) /\
        (forall k, ~ In k is -> view w' k = view w k)
    | UB _ | Term => False
    end.
  Proof.
    induction mss as [|ms mss IH]; intros is js w Hr Hma Hcp Hal Ht Hi Hj.
    - apply object_nil in Hi as ->. apply object_nil in Hj as ->. cbn. split; [done|]. split; [constructor|]. split; [done|]. split; [done|done].
    - apply object_cons in Hi as (i & is' & -> & Hi & His). apply object_cons in Hj as (j & js' & -> & Hj & Hjs). apply Forall_cons in Hcp as [Hc Hcp].
      destruct Hal as (N1 & N2 & Hal). pose proof (copy_assign_step w i j t ms Hr Hma Hc Ht Hi Hj) as H. cbn [s_copy_assign]. unfold bindM at 1.
      destruct (copy_assign E i j t w) as [[] w1|w1| |]; try done.
      + destruct H as (Hr1 & Ai & Hci & Ht1 & V).
        assert (Vos : forall k, In k js' -> view w1 k = view w k) by (intros k Hk; apply V; congruence).
        assert (Vns : forall k, In k is' -> view w1 k = view w k) by (intros k Hk; apply V; congruence).
        pose proof (IH is' js' w1 Hr1 Hma Hcp Hal Ht1 (object_view mss w w1 is' Vns His) (object_view mss w w1 js' Vos Hjs)) as H2.
        destruct (s_copy_assign E is' js' t w1) as [[] w2|w2| |]; try done.
        * destruct H2 as (Hr2 & Ai2 & Hc2 & Ht2 & V2). pose proof (V2 i N1) as Vi.
          split; [done|]. split; [constructor; [by apply (has_view w1)|done]|]. split.
          { unfold elements in *. cbn. rewrite (view_content _ _ _ Vi), Hci, Hc2. f_equal. by apply (elements_view w w1). }
          split; [done|]. intros k Hk. cbn in Hk. rewrite V2 by tauto. apply V. intros ->; tauto.
        * destruct H2 as (Hr2 & Ai2 & (n & Hn & Hc2) & V2). pose proof (V2 i N1) as Vi.
          split; [done|]. split; [constructor; [by apply (has_view w1)|done]|]. split.
          { exists (S n). split; [cbn; lia|]. rewrite (elements_view w w1 js' Vos), (elements_view w w1 is' Vns) in Hc2.
            unfold elements in *. cbn. rewrite (view_content _ _ _ Vi), Hci, Hc2. done. }
          intros k Hk. cbn in Hk. rewrite V2 by tauto. apply V. intros ->; tauto.
      + destruct H as (Hr1 & V). split; [done|]. split; [apply (object_view _ w); [auto|by constructor]|]. split; [|auto].
        exists 0. split; [cbn; lia|]. rewrite take_0, drop_0. cbn [app]. apply (elements_view w w1). auto.
  Qed.

  (** the order of destruction *)
  Lemma s_dtor_dead mss : forall l w w' j y, reachable E w -> NoDup l -> object mss w l -> s_dtor E l w = Ok tt w' -> In j l -> contained w j = Some y ->
    ty_tdestr (e_ty E (o_ty y)) = false -> dead y w'.
  Proof.
    induction mss as [|ms mss IH]; intros l w w' j y Hr Hnd Ho Hrun Hj Hc Ht; [by apply object_nil in Ho as ->|].
    apply object_cons in Ho as (i & tl & -> & Hi & Ho). apply NoDup_cons in Hnd as [Hni Hnd]. rewrite elem_of_list_In in Hni.
    destruct (s_dtor_spec mss tl w Hr Hnd Ho) as (w1 & H1 & Hr1 & _ & _ & V1). cbn in Hrun. rewrite (bind_ok _ _ _ _ _ H1) in Hrun.
    destruct Hj as [<-|Hj].
    - assert (contained w1 i = Some y) as Hc1. { rewrite <- Hc. apply (view_contained E); [by apply reachable_inv|by apply V1]. }
      pose proof (dtor_kills E w1 i y (reachable_inv _ _ Hwf Hr1) Hc1 Ht) as H. unfold kills in H. by rewrite Hrun in H.
    - pose proof (IH tl w w1 j y Hr Hnd Ho H1 Hj Hc Ht) as Hd. pose proof (grows_dtor E i w1) as H. rewrite Hrun in H. destruct H as [L HL].
      unfold dead in *. rewrite HL. apply in_or_app. by right.
  Qed.
  Lemma s_dtor_order mss : forall l w w' n m i j x y, reachable E w -> NoDup l -> object mss w l -> s_dtor E l w = Ok tt w' -> n < m ->
    l !! n = Some i -> l !! m = Some j -> contained w i = Some x -> contained w j = Some y ->
    ty_tdestr (e_ty E (o_ty x)) = false -> ty_tdestr (e_ty E (o_ty y)) = false ->
    exists later earlier, w_log w' = later ++ earlier /\ dtors_of (o_id y) earlier = 1 /\ dtors_of (o_id x) earlier = 0.
  Proof.
    induction mss as [|ms mss IH]; intros l w w' n m i j x y Hr Hnd Ho Hrun Hnm Hn Hm Hx Hy Tx Ty; [by apply object_nil in Ho as ->|].
    apply object_cons in Ho as (i' & tl & -> & Hi & Ho). apply NoDup_cons in Hnd as [Hni Hnd]. rewrite elem_of_list_In in Hni.
    destruct (s_dtor_spec mss tl w Hr Hnd Ho) as (w1 & H1 & Hr1 & _ & _ & V1). cbn in Hrun. rewrite (bind_ok _ _ _ _ _ H1) in Hrun.
    pose proof (grows_dtor E i' w1) as Hg. rewrite Hrun in Hg. destruct Hg as [L HL].
    destruct m as [|m]; [lia|]. cbn in Hm. destruct n as [|n]; cbn in Hn.
    - injection Hn as ->. exists L, (w_log w1). split; [done|]. split.
      + apply (dead_once E w1 y Hwf Hr1). apply (s_dtor_dead mss tl w w1 j y); try done. apply elem_of_list_In. by eapply elem_of_list_lookup_2.
      + assert (contained w1 i = Some x) as Hc1. { rewrite <- Hx. apply (view_contained E); [by apply reachable_inv|by apply V1]. }
        assert (pre E w1 (ODtor i)) as Hp. { destruct Hi as (a & Ha & _). exists a. split; [|done]. by apply (view_any w); [apply V1|]. }
        by destruct (old_value_destroyed E w1 w' (ODtor i) i x Hwf Hr1 Hp I eq_refl Hrun Hc1 Tx).
    - destruct (IH tl w w1 n m i j x y Hr Hnd Ho H1 ltac:(lia) Hn Hm Hx Hy Tx Ty) as (l1 & l2 & Hl & Hl1 & Hl2).
      exists (L ++ l1), l2. split; [|done]. by rewrite HL, Hl, app_assoc.
  Qed.
End Proofs.
