(** Vectors of anys (C99). *)
From stdpp Require Import gmap list.
From Verif Require Import TypeListModel TypeListSpec TypeListProofs AnyModel AnyInv AnySteps AnyLife AnyAssign AnyHistory AnyLogSpec AnyExec AnyFacts AnyFacts2 NoexceptModel VectorModel VectorSpec.

Section Proofs.
  Context (E : env) (ms : list method) (Hwf : env_wf E).

  Lemma copyable_move : In (MCopy true) ms -> has_move E ms = true.
  Proof.
    intros Hin. unfold has_move, has_move_ms. destruct (some_copy_method ms) as [m|] eqn:H; [done|]. exfalso.
    revert Hin H. clear. induction ms as [|m tl IH]; [done|]. intros [->|Hin]; [done|]. destruct m; cbn; try done; by apply IH.
  Qed.

  Lemma view_any w w' k a : view w' k = view w k -> w_any w !! k = Some a -> w_any w' !! k = Some a.
  Proof. unfold view. intros H Ha. rewrite Ha in H. destruct (w_any w' !! k) as [a'|]; [|done]. by injection H as -> _. Qed.
  Lemma view_none w w' k : view w' k = view w k -> w_any w !! k = None -> w_any w' !! k = None.
  Proof. unfold view. intros H Ha. rewrite Ha in H. by destruct (w_any w' !! k). Qed.

  Definition alloc_of (w : world) (i : nat) : option nat := match w_any w !! i with Some a => Some (a_alloc a) | None => None end.
  Lemma view_alloc w w' k : view w' k = view w k -> alloc_of w' k = alloc_of w k.
  Proof. unfold view, alloc_of. destruct (w_any w' !! k), (w_any w !! k); try done. by intros [= -> _]. Qed.

  (** one element *)
  Lemma relocate_step w n o : reachable E w -> has_move E ms = true -> w_any w !! n = None -> has_any w o (fun a => a_ms a = ms) ->
    match relocate E ms n o w with
    | Ok _ w' => reachable E w' /\ has_any w' n (fun a => a_ms a = ms) /\ has_any w' o (fun a => a_ms a = ms) /\ content w' n = content w o /\
        (forall k, k <> n -> k <> o -> view w' k = view w k) /\
        (by_move E ms = false -> view w' o = view w o) /\
        (by_move E ms = true -> Quiet w w' /\ (forall b, address w o = Some (PHeap b) -> address w' n = Some (PHeap b)) /\ alloc_of w' n = alloc_of w o)
    | Exn w' => by_move E ms = false /\ reachable E w' /\ w_any w' !! n = None /\ (forall k, k <> n -> view w' k = view w k)
    | UB _ | Term => False
    end.
  Proof.
    intros Hr Hm Hn (a & Ha & Hms). pose proof (reachable_inv _ _ Hwf Hr) as HI. pose proof (inv_ok _ _ HI _ _ Ha) as [Hd _].
    assert (Hno : o <> n) by congruence. unfold relocate. destruct (by_move E ms) eqn:Hby.
    - assert (pre E w (OMove n o)) as Hp. { split; [done|]. exists a. by rewrite Hms. }
      pose proof (move_ctor_spec E w n o a Hwf HI Hn Ha) as H. rewrite Hms in H. specialize (H Hm). unfold wp in H.
      destruct (move_ctor E n o w) as [[] w'|w'| |] eqn:Hrun; try done.
      destruct H as (_ & F & Hc & _ & Q & a' & o' & Ha' & Ho' & Hal & Hm1 & _ & Hm2 & _).
      split; [by apply (reachable_outcome E w (OMove n o)); [..|by left]|]. split; [by exists a'|]. split; [by exists o'|]. split; [done|].
      split; [intros k H1 H2; apply (eff_view _ _ _ F); set_solver|]. split; [done|]. intros _. split; [done|]. split.
      + intros b Hb. by apply (move_keeps_address E w w' n o b Hwf Hr Hp).
      + unfold alloc_of. rewrite Ha', Ha. by f_equal.
    - assert (In (MCopy true) ms) as Hcp.
      { unfold by_move, copyable in Hby. destruct (contains_v meqb (MCopy true) ms) eqn:Hc; [|by rewrite andb_false_r in Hby].
        by apply (contains_v_spec meqb meqb_ok) in Hc. }
      rewrite Hms in Hd. assert (contiguous ms (a_ms a)) as Hct by (rewrite Hms; apply contiguous_refl).
      assert (pre E w (OCopy n o ms)) as Hp. { split; [done|]. split; [done|]. exists a. split; [done|]. by rewrite Hms in *. }
      pose proof (copy_ctor_spec E w n o a ms Hwf HI Hn Ha Hd Hct) as H. rewrite Hms in H. specialize (H Hcp). unfold wp in H.
      destruct (copy_ctor E n o ms w) as [[] w'|w'| |] eqn:Hrun; try done.
      + destruct H as (_ & F & Hc & a' & Ha' & _ & Hm' & _).
        assert (forall k, k <> n -> view w' k = view w k) as Hv by (intros k Hk; apply (eff_view _ _ _ F); set_solver).
        split; [by apply (reachable_outcome E w (OCopy n o ms)); [..|by left]|]. split; [by exists a'|].
        split; [exists a; split; [apply (view_any w); [by apply Hv|done]|done]|]. split; [done|]. split; [auto|]. split; [auto|done].
      + destruct H as (_ & _ & Hsm). split; [done|]. split; [by apply (reachable_outcome E w (OCopy n o ms)); [..|by right]|].
        destruct Hsm as (H1 & H2 & _). split; [by rewrite H1|]. intros k _. unfold view, block_of. by rewrite H1, H2.
  Qed.

  Lemma dtor_step w i : reachable E w -> has_any w i (fun a => a_ms a = ms) ->
    exists w', dtor E i w = Ok tt w' /\ reachable E w' /\ Quiet w w' /\ w_any w' !! i = None /\ (forall k, k <> i -> view w' k = view w k).
  Proof.
    intros Hr (a & Ha & _). destruct (dtor_spec E w i a (reachable_inv _ _ Hwf Hr) Ha) as (w' & Hrun & _ & F & Q & Hi).
    exists w'. split; [done|]. split.
    - apply (reachable_outcome E w (ODtor i)); [done|by exists a|done|by left].
    - split; [done|]. split; [done|]. intros k Hk. apply (eff_view _ _ _ F). set_solver.
  Qed.

  Lemma alive_view w w' l : (forall k, In k l -> view w' k = view w k) -> alive ms w l -> alive ms w' l.
  Proof. intros Hv Ha k Hk. destruct (Ha k Hk) as (a & H1 & H2). exists a. split; [|done]. by apply (view_any w); [apply Hv|]. Qed.
  Lemma gone_view w w' l : (forall k, In k l -> view w' k = view w k) -> gone w l -> gone w' l.
  Proof. intros Hv Hg k Hk. apply (view_none w); [by apply Hv|by apply Hg]. Qed.

  Lemma destroy_all_spec l : forall w, reachable E w -> NoDup l -> alive ms w l ->
    exists w', destroy_all E l w = Ok tt w' /\ reachable E w' /\ Quiet w w' /\ gone w' l /\ (forall k, ~ In k l -> view w' k = view w k).
  Proof.
    induction l as [|i tl IH]; intros w Hr Hnd Hal.
    - exists w. split; [done|]. split; [done|]. split; [done|]. split; [by intros ?|done].
    - apply NoDup_cons in Hnd as [Hni Hnd]. rewrite elem_of_list_In in Hni.
      destruct (dtor_step w i Hr) as (w1 & H1 & Hr1 & Q1 & Hi1 & V1); [apply Hal; by left|].
      destruct (IH w1 Hr1 Hnd) as (w2 & H2 & Hr2 & Q2 & Hg2 & V2).
      { apply (alive_view w); [intros k Hk; apply V1; congruence|]. intros k Hk. apply Hal. by right. }
      exists w2. split; [cbn; by rewrite (bind_ok _ _ _ _ _ H1)|]. split; [done|]. split; [by eapply quiet_trans|]. split.
      + intros k [<-|Hk]; [|by apply Hg2]. by apply (view_none w1); [apply V2|].
      + intros k Hk. rewrite V2 by (intros ?; apply Hk; by right). apply V1. intros ->. apply Hk. by left.
  Qed.

  Lemma relocate_all_spec olds : forall news w, reachable E w -> has_move E ms = true -> length news = length olds ->
    NoDup (news ++ olds) -> gone w news -> alive ms w olds ->
    match relocate_all E ms news olds w with
    | Ok _ w' => reachable E w' /\ alive ms w' news /\ alive ms w' olds /\ elements w' news = elements w olds /\
        (forall k, ~ In k (news ++ olds) -> view w' k = view w k) /\
        (by_move E ms = true -> Quiet w w' /\ same_blocks w w' olds news /\ allocators w' news = allocators w olds)
    | Exn w' => by_move E ms = false /\ reachable E w' /\ gone w' news /\ (forall k, ~ In k news -> view w' k = view w k)
    | UB _ | Term => False
    end.
  Proof.
    induction olds as [|o os IH]; intros news w Hr Hm Hlen Hnd Hg Hal.
    - destruct news as [|]; [|done]. cbn. split; [done|]. split; [by intros ?|]. split; [by intros ?|]. split; [done|]. split; [done|]. intros _. split; [done|]. split; [by intros ?|done].
    - destruct news as [|n ns]; [done|]. cbn [relocate_all].
      assert (NoDup (ns ++ os) /\ ~ In n ns /\ ~ In n os /\ n <> o /\ ~ In o ns /\ ~ In o os) as (Hnd' & N1 & N2 & N3 & N4 & N5).
      { cbn in Hnd. apply NoDup_cons in Hnd as [Hn Hnd]. apply NoDup_app in Hnd as (Hns & Hd & Hos). apply NoDup_cons in Hos as [Ho Hos].
        rewrite elem_of_app, elem_of_cons in Hn. rewrite <- !elem_of_list_In. split; [apply NoDup_app; split; [done|split; [|done]]|].
        - intros x Hx Hx'. apply (Hd x Hx). by right.
        - split; [tauto|]. split; [tauto|]. split; [tauto|]. split; [|done]. intros Hx. apply (Hd o Hx). by left. }
      pose proof (relocate_step w n o Hr Hm (Hg n (or_introl eq_refl)) (Hal o (or_introl eq_refl))) as H.
      unfold bindM at 1. destruct (relocate E ms n o w) as [[] w1|w1| |]; try done.
      + destruct H as (Hr1 & An & Ao & Hc & V & Vo & Q).
        assert (Hns : forall k, In k ns -> view w1 k = view w k) by (intros k Hk; apply V; congruence).
        assert (Hos : forall k, In k os -> view w1 k = view w k) by (intros k Hk; apply V; congruence).
        pose proof (IH ns w1 Hr1 Hm) as H2. cbn in Hlen. specialize (H2 ltac:(lia) Hnd').
        specialize (H2 (gone_view w w1 ns Hns (fun k Hk => Hg k (or_intror Hk))) (alive_view w w1 os Hos (fun k Hk => Hal k (or_intror Hk)))).
        unfold on_exn. destruct (relocate_all E ms ns os w1) as [[] w2|w2| |]; try done.
        * destruct H2 as (Hr2 & An2 & Ao2 & Hc2 & V2 & Q2).
          assert (view w2 n = view w1 n) as Vn by (apply V2; rewrite in_app_iff; tauto).
          assert (view w2 o = view w1 o) as Vo2 by (apply V2; rewrite in_app_iff; tauto).
          split; [done|]. split.
          { intros k [<-|Hk]; [|by apply An2]. destruct An as (a & Ha & ?). exists a. split; [by apply (view_any w1)|done]. }
          split.
          { intros k [<-|Hk]; [|by apply Ao2]. destruct Ao as (a & Ha & ?). exists a. split; [by apply (view_any w1)|done]. }
          split.
          { unfold elements in *. cbn. rewrite (view_content _ _ _ Vn), Hc, Hc2. f_equal. apply map_ext_in. intros k Hk. by apply view_content, Hos. }
          split.
          { intros k Hk. cbn in Hk. rewrite in_app_iff in Hk. cbn in Hk. rewrite V2 by (rewrite in_app_iff; tauto). apply V; intros ->; tauto. }
          intros Hby. destruct (Q Hby) as (Q1 & P1 & L1). destruct (Q2 Hby) as (Q3 & P2 & L2). split; [by eapply quiet_trans|].
          split.
          2: { unfold allocators in *. cbn. rewrite L2. fold (alloc_of w2 n) (alloc_of w o). rewrite (view_alloc _ _ _ Vn), L1. f_equal.
               apply map_ext_in. intros k Hk. by apply (view_alloc w w1), Hos. }
          intros k o' n' b Ho' Hn' Hb. destruct k as [|k]; cbn in Ho', Hn'.
          { injection Ho' as <-. injection Hn' as <-. rewrite (view_address _ _ _ Vn). by apply P1. }
          apply (P2 k o' n' b Ho' Hn'). rewrite <- Hb. apply view_address, Hos. rewrite <- elem_of_list_In. by eapply elem_of_list_lookup_2.
        * destruct H2 as (Hby & Hr2 & Hg2 & V2).
          assert (view w2 n = view w1 n) as Vn by by apply V2.
          destruct (dtor_step w2 n Hr2) as (w3 & -> & Hr3 & _ & Hn3 & V3).
          { destruct An as (a & Ha & ?). exists a. split; [by apply (view_any w1)|done]. }
          split; [done|]. split; [done|]. split.
          { intros k [<-|Hk]; [done|]. apply (view_none w2); [apply V3; congruence|by apply Hg2]. }
          intros k Hk. cbn in Hk. rewrite V3 by (intros ->; tauto). rewrite V2 by tauto.
          destruct (decide (k = o)) as [->|]; [by apply Vo|]. apply V; [|done]. intros ->; tauto.
      + destruct H as (Hby & Hr1 & Hn1 & V). split; [done|]. split; [done|]. split.
        * intros k [<-|Hk]; [done|]. apply (view_none w); [apply V; congruence|]. apply Hg. by right.
        * intros k Hk. apply V. intros ->. apply Hk. by left.
  Qed.

  Lemma others_view w w' l : reachable E w -> (forall k, ~ In k l -> view w' k = view w k) -> others w w' l.
  Proof.
    intros Hr Hv k Hk. specialize (Hv k Hk). split; [by apply view_content|]. split; [by apply view_address|].
    eapply view_contained; [by apply reachable_inv|done].
  Qed.

  (** reserve *)
  Theorem grow_spec w olds news : reachable E w -> has_move E ms = true -> length news = length olds ->
    NoDup (news ++ olds) -> gone w news -> alive ms w olds ->
    match grow E ms olds news w with
    | Ok _ w' => reachable E w' /\ alive ms w' news /\ gone w' olds /\ elements w' news = elements w olds /\ others w w' (news ++ olds) /\
        (by_move E ms = true -> Quiet w w' /\ same_blocks w w' olds news /\ allocators w' news = allocators w olds)
    | Exn w' => by_move E ms = false /\ reachable E w' /\ gone w' news /\ others w w' news
    | UB _ | Term => False
    end.
  Proof.
    intros Hr Hm Hlen Hnd Hg Hal. pose proof (relocate_all_spec olds news w Hr Hm Hlen Hnd Hg Hal) as H.
    unfold grow, bindM. destruct (relocate_all E ms news olds w) as [[] w1|w1| |]; try done.
    - destruct H as (Hr1 & An & Ao & Hc & V & Q).
      assert (NoDup olds /\ forall k, In k news -> ~ In k olds) as [Hnd' Hdis].
      { apply NoDup_app in Hnd as (_ & Hd & Hos). split; [done|]. intros k. rewrite <- !elem_of_list_In. apply Hd. }
      destruct (destroy_all_spec olds w1 Hr1 Hnd' Ao) as (w2 & -> & Hr2 & Q2 & Hg2 & V2).
      assert (forall k, In k news -> view w2 k = view w1 k) as Vn by (intros k Hk; apply V2, Hdis, Hk).
      split; [done|]. split; [by apply (alive_view w1)|]. split; [done|]. split.
      { rewrite <- Hc. apply map_ext_in. intros k Hk. by apply view_content, Vn. }
      split.
      { apply others_view; [done|]. intros k Hk. rewrite in_app_iff in Hk. rewrite V2 by tauto. apply V. rewrite in_app_iff. tauto. }
      intros Hby. destruct (Q Hby) as (Q1 & P1 & L1). split; [by eapply quiet_trans|]. split.
      2: { rewrite <- L1. apply map_ext_in. intros k Hk. by apply (view_alloc w1 w2), Vn. }
      intros k o n b Ho Hn Hb.
      rewrite <- (P1 k o n b Ho Hn Hb). apply view_address, Vn. rewrite <- elem_of_list_In. by eapply elem_of_list_lookup_2.
    - destruct H as (Hby & Hr1 & Hg1 & V). split; [done|]. split; [done|]. split; [done|]. by apply others_view.
  Qed.

  (** push_back of a copy *)
  Theorem push_back_spec w olds news x src : reachable E w -> In (MCopy true) ms -> length news = length olds ->
    NoDup (x :: news ++ olds) -> gone w (x :: news) -> alive ms w (src :: olds) ->
    match push_back E ms olds news x src w with
    | Ok _ w' => reachable E w' /\ alive ms w' (news ++ [x]) /\ gone w' olds /\ elements w' (news ++ [x]) = elements w (olds ++ [src]) /\
        others w w' (x :: news ++ olds)
    | Exn w' => reachable E w' /\ gone w' (x :: news) /\ others w w' (x :: news)
    | UB _ | Term => False
    end.
  Proof.
    intros Hr Hcp Hlen Hnd Hg Hal. pose proof (copyable_move Hcp) as Hm.
    apply NoDup_cons in Hnd as [Hx Hnd]. rewrite elem_of_list_In, in_app_iff in Hx.
    destruct (Hal src (or_introl eq_refl)) as (a & Ha & Hms). pose proof (Hg x (or_introl eq_refl)) as Hx0.
    pose proof (reachable_inv _ _ Hwf Hr) as HI. pose proof (inv_ok _ _ HI _ _ Ha) as [Hd _]. rewrite Hms in Hd.
    assert (contiguous ms (a_ms a)) as Hct by (rewrite Hms; apply contiguous_refl).
    assert (pre E w (OCopy x src ms)) as Hp. { split; [done|]. split; [done|]. exists a. split; [done|]. by rewrite Hms in *. }
    pose proof (copy_ctor_spec E w x src a ms Hwf HI Hx0 Ha Hd Hct) as H. rewrite Hms in H. specialize (H Hcp). unfold wp in H.
    unfold push_back. unfold bindM at 1. destruct (copy_ctor E x src ms w) as [[] w1|w1| |] eqn:Hrun; try done.
    2: { destruct H as (_ & _ & (H1 & H2 & _)). assert (forall k, view w1 k = view w k) as V by (intros k; unfold view, block_of; by rewrite H1, H2).
         split; [by apply (reachable_outcome E w (OCopy x src ms)); [..|by right]|]. split; [by apply (gone_view w)|]. apply others_view; auto. }
    destruct H as (_ & F & Hc & a' & Ha' & _ & Hm' & _).
    assert (forall k, k <> x -> view w1 k = view w k) as V by (intros k Hk; apply (eff_view _ _ _ F); set_solver).
    assert (reachable E w1) as Hr1 by by apply (reachable_outcome E w (OCopy x src ms)); [..|by left].
    pose proof (relocate_all_spec olds news w1 Hr1 Hm Hlen Hnd) as H.
    assert (forall k, In k olds -> view w1 k = view w k) as Vo. { intros k Hk. apply V. intros ->. tauto. }
    assert (forall k, In k news -> view w1 k = view w k) as Vn. { intros k Hk. apply V. intros ->. tauto. }
    specialize (H (gone_view w w1 news Vn (fun k Hk => Hg k (or_intror Hk))) (alive_view w w1 olds Vo (fun k Hk => Hal k (or_intror Hk)))).
    unfold bindM, on_exn. destruct (relocate_all E ms news olds w1) as [[] w2|w2| |]; try done.
    - destruct H as (Hr2 & An & Ao & Hc2 & V2 & _).
      assert (NoDup olds /\ forall k, In k news -> ~ In k olds) as [Hnd' Hdis].
      { apply NoDup_app in Hnd as (_ & Hdj & Hos). split; [done|]. intros k. rewrite <- !elem_of_list_In. apply Hdj. }
      destruct (destroy_all_spec olds w2 Hr2 Hnd' Ao) as (w3 & -> & Hr3 & _ & Hg3 & V3).
      assert (view w3 x = view w1 x) as Vx. { rewrite V3 by tauto. apply V2. by rewrite in_app_iff. }
      assert (forall k, In k news -> view w3 k = view w2 k) as Vn3 by (intros k Hk; apply V3, Hdis, Hk).
      split; [done|]. split.
      { intros k Hk. rewrite in_app_iff in Hk. destruct Hk as [Hk|[<-|[]]]; [by apply (alive_view w2 w3 news Vn3 An)|].
        exists a'. split; [by apply (view_any w1)|done]. }
      split; [done|]. split.
      { unfold elements in *. rewrite !map_app. cbn. rewrite (view_content _ _ _ Vx), Hc. f_equal.
        rewrite (map_ext_in _ (content w2)) by (intros k Hk; by apply view_content, Vn3). rewrite Hc2.
        apply map_ext_in. intros k Hk. by apply view_content, Vo. }
      apply others_view; [done|]. intros k Hk. cbn in Hk. rewrite in_app_iff in Hk. rewrite V3 by tauto.
      rewrite V2 by (rewrite in_app_iff; tauto). apply V. intros ->. tauto.
    - destruct H as (Hby & Hr2 & Hg2 & V2).
      assert (view w2 x = view w1 x) as Vx by (apply V2; tauto).
      destruct (dtor_step w2 x Hr2) as (w3 & -> & Hr3 & _ & Hx3 & V3).
      { exists a'. split; [by apply (view_any w1)|done]. }
      split; [done|]. split.
      { intros k [<-|Hk]; [done|]. apply (view_none w2); [apply V3; intros ->; tauto|by apply Hg2]. }
      apply others_view; [done|]. intros k Hk. cbn in Hk. rewrite V3 by (intros ->; tauto). rewrite V2 by tauto. apply V. intros ->. tauto.
  Qed.

  (** push_back of an rvalue *)
  Theorem push_back_move_spec w olds news x src : reachable E w -> has_move E ms = true -> by_move E ms = true -> length news = length olds ->
    NoDup (x :: news ++ olds) -> gone w (x :: news) -> alive ms w (src :: olds) -> ~ In src (x :: news) ->
    exists w', push_back_move E ms olds news x src w = Ok tt w' /\ reachable E w' /\ alive ms w' (news ++ [x]) /\ gone w' olds /\
      elements w' (news ++ [x]) = map (fun k => if k =? src then Some None else content w k) olds ++ [content w src] /\
      (~ In src olds -> is_empty w' src) /\ others w w' (x :: src :: news ++ olds) /\ nothing_made w w' /\
      (~ In src olds -> same_blocks w w' (olds ++ [src]) (news ++ [x])) /\ allocators w' (news ++ [x]) = allocators w (olds ++ [src]).
  Proof.
    intros Hr Hm Hby Hlen Hnd Hg Hal Hsrc.
    apply NoDup_cons in Hnd as [Hx Hnd]. rewrite elem_of_list_In, in_app_iff in Hx.
    destruct (Hal src (or_introl eq_refl)) as (a & Ha & Hms). pose proof (Hg x (or_introl eq_refl)) as Hx0.
    pose proof (reachable_inv _ _ Hwf Hr) as HI.
    assert (pre E w (OMove x src)) as Hp. { split; [done|]. exists a. by rewrite Hms. }
    pose proof (move_ctor_spec E w x src a Hwf HI Hx0 Ha) as H. rewrite Hms in H. specialize (H Hm). unfold wp in H.
    unfold push_back_move. unfold bindM at 1. destruct (move_ctor E x src w) as [[] w1|w1| |] eqn:Hrun; try done.
    destruct H as (_ & F & Hc & Hcs & Q & a' & o' & Ha' & Ho' & Hal1 & Hm1 & Hal2 & Hm2 & _).
    assert (forall k, k <> x -> k <> src -> view w1 k = view w k) as V by (intros k H1 H2; apply (eff_view _ _ _ F); set_solver).
    assert (reachable E w1) as Hr1 by by apply (reachable_outcome E w (OMove x src)); [..|by left].
    assert (forall b, address w src = Some (PHeap b) -> address w1 x = Some (PHeap b)) as P0.
    { intros b Hb. by apply (move_keeps_address E w w1 x src b Hwf Hr Hp). }
    pose proof (relocate_all_spec olds news w1 Hr1 Hm Hlen Hnd) as H.
    assert (forall k, In k news -> view w1 k = view w k) as Vn.
    { intros k Hk. apply V; intros ->; [tauto|]. apply Hsrc. by right. }
    assert (alive ms w1 olds) as Al1.
    { intros k Hk. destruct (decide (k = src)) as [->|Hne]; [by exists o'|]. destruct (Hal k (or_intror Hk)) as (b & Hb & ?).
      exists b. split; [|done]. apply (view_any w); [|done]. apply V; [|done]. intros ->. tauto. }
    specialize (H (gone_view w w1 news Vn (fun k Hk => Hg k (or_intror Hk))) Al1).
    unfold bindM, on_exn. destruct (relocate_all E ms news olds w1) as [[] w2|w2| |]; try done; [|destruct H; congruence].
    destruct H as (Hr2 & An & Ao & Hc2 & V2 & Q2). destruct (Q2 Hby) as (Q3 & P2 & L2).
    assert (NoDup olds /\ forall k, In k news -> ~ In k olds) as [Hnd' Hdis].
    { apply NoDup_app in Hnd as (_ & Hdj & Hos). split; [done|]. intros k. rewrite <- !elem_of_list_In. apply Hdj. }
    destruct (destroy_all_spec olds w2 Hr2 Hnd' Ao) as (w3 & -> & Hr3 & Q4 & Hg3 & V3).
    assert (view w3 x = view w1 x) as Vx. { rewrite V3 by tauto. apply V2. by rewrite in_app_iff. }
    assert (forall k, In k news -> view w3 k = view w2 k) as Vn3 by (intros k Hk; apply V3, Hdis, Hk).
    exists w3. split; [done|]. split; [done|]. split.
    { intros k Hk. rewrite in_app_iff in Hk. destruct Hk as [Hk|[<-|[]]]; [by apply (alive_view w2 w3 news Vn3 An)|].
      exists a'. split; [by apply (view_any w1)|done]. }
    split; [done|]. split.
    { unfold elements in *. rewrite !map_app. cbn. rewrite (view_content _ _ _ Vx), Hc. f_equal.
      rewrite (map_ext_in _ (content w2)) by (intros k Hk; by apply view_content, Vn3). rewrite Hc2.
      apply map_ext_in. intros k Hk. destruct (Nat.eqb_spec k src) as [->|Hne]; [done|]. apply view_content, V; [|done]. intros ->. tauto. }
    split.
    { intros Hns. unfold is_empty. rewrite <- Hcs. apply view_content. rewrite V3 by done. apply V2. rewrite in_app_iff. intros [Hi|Hi]; [|done].
      apply Hsrc. by right. }
    split.
    { apply others_view; [done|]. intros k Hk. cbn in Hk. rewrite in_app_iff in Hk. rewrite V3 by tauto.
      rewrite V2 by (rewrite in_app_iff; tauto). apply V; intros ->; tauto. }
    split. { assert (Quiet w w3) as Hq; [|exact Hq]. eapply quiet_trans; [done|]. by eapply quiet_trans. }
    split.
    { intros Hns k o n b Ho Hn Hb. destruct (decide (k < length olds)) as [Hk|Hk].
      - rewrite lookup_app_l in Ho by done. rewrite lookup_app_l in Hn by lia.
        assert (In o olds) as Hino by (rewrite <- elem_of_list_In; by eapply elem_of_list_lookup_2).
        assert (In n news) as Hinn by (rewrite <- elem_of_list_In; by eapply elem_of_list_lookup_2).
        rewrite (view_address _ _ _ (Vn3 n Hinn)). apply (P2 k o n b Ho Hn). rewrite <- Hb. apply view_address, V; intros ->; tauto.
      - rewrite lookup_app_r in Ho by lia. rewrite lookup_app_r in Hn by lia. rewrite Hlen in Hn.
        destruct (k - length olds) as [|[|?]]; cbn in Ho, Hn; try done. injection Ho as <-. injection Hn as <-.
        rewrite (view_address _ _ _ Vx). by apply P0. }
    unfold allocators in *. rewrite !map_app. cbn. fold (alloc_of w3 x) (alloc_of w src). rewrite (view_alloc _ _ _ Vx). unfold alloc_of. rewrite Ha', Ha, Hal1.
    f_equal. rewrite (map_ext_in _ (alloc_of w2)) by (intros k Hk; by apply (view_alloc w2 w3), Vn3). unfold alloc_of at 1. rewrite L2.
    apply map_ext_in. intros k Hk. destruct (decide (k = src)) as [->|Hne]; [by rewrite Ho', Ha, Hal2|].
    apply (view_alloc w w1), V; [|done]. intros ->. tauto.
  Qed.

  (** erase *)
  Theorem erase_spec rest : forall w i, reachable E w -> movable_alloc E = true -> has_move_assign E ms = true ->
    NoDup (i :: rest) -> alive ms w (i :: rest) ->
    exists w', erase E i rest w = Ok tt w' /\ reachable E w' /\ alive ms w' (removelast (i :: rest)) /\ gone w' [List.last (i :: rest) i] /\
      elements w' (removelast (i :: rest)) = elements w rest /\ (forall k, ~ In k (i :: rest) -> view w' k = view w k) /\ Quiet w w' /\
      same_blocks w w' rest (removelast (i :: rest)).
  Proof.
    induction rest as [|j tl IH]; intros w i Hr Hma Hm Hnd Hal.
    - destruct (dtor_step w i Hr (Hal i (or_introl eq_refl))) as (w' & Hrun & Hr' & Q & Hi & V). exists w'.
      split; [done|]. split; [done|]. split; [by intros ?|]. split; [by intros ? [<-|[]]|]. split; [done|].
      split; [intros k Hk; apply V; intros ->; apply Hk; by left|]. split; [done|]. by intros ?.
    - apply NoDup_cons in Hnd as [Hi Hnd]. rewrite elem_of_list_In in Hi.
      destruct (Hal i (or_introl eq_refl)) as (a & Ha & Hms). destruct (Hal j (or_intror (or_introl eq_refl))) as (o & Ho & Hmo).
      assert (Hij : i <> j) by (intros ->; apply Hi; by left). pose proof (reachable_inv _ _ Hwf Hr) as HI.
      assert (e_always_eq E = true \/ e_pocma E = true) as Hae by by apply orb_prop.
      assert (compat E a o = true) as Hcm. { unfold compat. destruct Hae as [->| ->]; [done|]. by rewrite orb_true_r. }
      assert (pre E w (OMoveAssign i j)) as Hp. { exists a. split; [done|]. exists o. rewrite Hms, Hmo. done. }
      assert (alloc_safe E w (OMoveAssign i j)) as Hs. { exists a. split; [done|]. exists o. split; [done|]. by right; right; left. }
      pose proof (move_assign_spec E w i j a o Hwf HI Hij Ha Ho) as H. rewrite Hms, Hmo in H. specialize (H eq_refl Hm ltac:(congruence)).
      unfold wp in H. cbn [erase]. unfold bindM at 1.
      destruct (move_assign E i j w) as [[] w1|w1| |] eqn:Hrun; [|destruct H; congruence|done|destruct H; congruence].
      destruct H as (_ & F & Hc & Hcj & a' & o' & Ha' & Ho' & _ & Hm1 & _ & Hm2 & Hq & _).
      assert (forall k, k <> i -> k <> j -> view w1 k = view w k) as V by (intros k H1 H2; apply (eff_view _ _ _ F); set_solver).
      assert (reachable E w1) as Hr1 by by apply (reachable_outcome E w (OMoveAssign i j)); [..|by left].
      assert (Hnj : ~ In j tl). { apply NoDup_cons in Hnd as [Hj _]. by rewrite elem_of_list_In in Hj. }
      assert (Vt : forall k, In k tl -> view w1 k = view w k). { intros k Hk. apply V; intros ->; [|done]. apply Hi. by right. }
      destruct (IH w1 j Hr1 Hma Hm Hnd) as (w2 & -> & Hr2 & Al2 & Hg2 & Hc2 & V2 & Q2 & P2).
      { intros k [<-|Hk]; [exists o'; by rewrite Hm2|]. apply (alive_view w w1 tl Vt); [|done]. intros k' Hk'. apply Hal. by right; right. }
      assert (view w2 i = view w1 i) as Vi by by apply V2.
      exists w2. split; [done|]. split; [done|].
      change (removelast (i :: j :: tl)) with (i :: removelast (j :: tl)).
      split. { intros k [<-|Hk]; [|by apply Al2]. exists a'. split; [by apply (view_any w1)|by rewrite Hm1]. }
      split. { intros k [<-|[]]. apply Hg2. left. cbn. destruct tl; [done|]. clear. revert n. induction tl as [|m tl IH]; intros n; [done|]. apply IH. }
      split. { unfold elements in *. cbn. rewrite (view_content _ _ _ Vi), Hc. f_equal. cbn in Hc2. rewrite Hc2. apply map_ext_in. intros k Hk. by apply view_content, Vt. }
      split. { intros k Hk. rewrite V2 by (intros Hk'; apply Hk; by right). apply V; intros ->; apply Hk; [by left|by right; left]. }
      split. { eapply quiet_trans; [|done]. by apply Hq. }
      intros k o1 n1 b H1 H2 Hb. destruct k as [|k]; cbn in H1, H2.
      { injection H1 as <-. injection H2 as <-. rewrite (view_address _ _ _ Vi). by apply (move_assign_keeps_address E w w1 i j b Hwf Hr Hp Hae). }
      apply (P2 k o1 n1 b H1 H2). rewrite <- Hb. apply view_address, Vt. rewrite <- elem_of_list_In. by eapply elem_of_list_lookup_2.
  Qed.
End Proofs.
