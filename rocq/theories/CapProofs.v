From stdpp Require Import list.
From Verif Require Import CapModel CapSpec.

Section Proofs.
  Context (alloc : nat -> option nat) (shrinks : nat -> option nat) (mx : nat -> nat).
  Notation colop := (nat -> vcol -> nat -> option (vcol * nat)).

  (** ** Column by column *)
  Definition ran (f : colop) (j : nat) (c c' : vcol) : Prop := exists k k', f j c k = Some (c', k').
  Definition cols_ran (f : colop) (s s' : cstate) : Prop :=
    length (s_cols s') = length (s_cols s) /\
    forall j c c', s_cols s !! j = Some c -> s_cols s' !! j = Some c' -> ran f j c c'.
  Lemma c_each_ok f todo j acc k :
    match c_each j f acc todo k with
    | COk s' => exists l, s_cols s' = acc ++ l /\ length l = length todo /\
                  forall i c c', todo !! i = Some c -> l !! i = Some c' -> ran f (j + i) c c'
    | CThrow s' => (exists l, s_cols s' = acc ++ l /\ length l = length todo /\
                      forall i c c', todo !! i = Some c -> l !! i = Some c' -> ran f (j + i) c c' \/ c' = c) /\
                   exists i c q, todo !! i = Some c /\ f (j + i) c q = None
    | CBad => False
    end.
  Proof using Type.
    revert j acc k. induction todo as [|c todo IH]; intros j acc k; cbn.
    - exists []. rewrite app_nil_r. repeat split; [done..|]. intros i c c' H. by rewrite lookup_nil in H.
    - destruct (f j c k) as [[c1 k1]|] eqn:E.
      + specialize (IH (S j) (acc ++ [c1]) k1). destruct (c_each _ _ _ _ _) as [s'|s'|]; [| |done].
        * destruct IH as (l & H1 & H2 & H3). exists (c1 :: l). rewrite H1, <-app_assoc. cbn. split; [done|]. split; [lia|].
          intros [|i] a b Ha Hb; cbn in *.
          -- simplify_eq. rewrite Nat.add_0_r. by exists k, k1.
          -- rewrite Nat.add_succ_r. eapply H3; eauto.
        * destruct IH as ((l & H1 & H2 & H3) & i & a & q & H4 & H5). split.
          -- exists (c1 :: l). rewrite H1, <-app_assoc. cbn. split; [done|]. split; [lia|].
             intros [|i'] a' b' Ha Hb; cbn in *.
             ++ simplify_eq. left. rewrite Nat.add_0_r. by exists k, k1.
             ++ rewrite Nat.add_succ_r. eapply H3; eauto.
          -- exists (S i), a, q. rewrite Nat.add_succ_r. done.
      + split.
        * exists (c :: todo). split; [done|]. split; [done|]. intros i a b Ha Hb. right. congruence.
        * exists 0, c, k. rewrite Nat.add_0_r. done.
  Qed.
  Lemma c_all_ok f s :
    match c_all f s with
    | COk s' => cols_ran f s s'
    | CThrow s' => length (s_cols s') = length (s_cols s) /\
        (forall j c c', s_cols s !! j = Some c -> s_cols s' !! j = Some c' -> ran f j c c' \/ c' = c) /\
        exists j c q, s_cols s !! j = Some c /\ f j c q = None
    | CBad => False
    end.
  Proof using Type.
    unfold c_all. pose proof (c_each_ok f (s_cols s) 0 [] (s_next s)) as H.
    destruct (c_each _ _ _ _ _) as [s'|s'|]; [| |done].
    - destruct H as (l & H1 & H2 & H3). cbn in H1. subst l. split; [done|]. apply H3.
    - destruct H as ((l & H1 & H2 & H3) & H4). cbn in H1. subst l. split; [done|]. split; [apply H3|apply H4].
  Qed.

  (** ** Invariant *)
  Definition fits (n j : nat) (c : vcol) : Prop := v_size c = n /\ n <= v_cap c <= mx j.
  Definition inv (N n : nat) (s : cstate) : Prop := length (s_cols s) = N /\ forall j c, s_cols s !! j = Some c -> fits n j c.
  (** minimum *)
  Lemma min_list_ok l m : min_list l = Some m <-> m ∈ l /\ forall x, x ∈ l -> m <= x.
  Proof using Type.
    revert m. induction l as [|x l IH]; intros m; cbn.
    - split; [done|]. intros [H _]. by apply elem_of_nil in H.
    - destruct (min_list l) as [y|] eqn:E.
      + destruct (proj1 (IH y) eq_refl) as [H1 H2]. split.
        * intros [= <-]. split.
          -- destruct (Nat.min_spec x y) as [[_ ->]|[_ ->]]; [by left|by right].
          -- intros z [->|Hz]%elem_of_cons; [lia|]. apply H2 in Hz. lia.
        * intros [[->|Hm]%elem_of_cons H3]; f_equal.
          -- assert (x <= y) by (apply H3; by right). lia.
          -- assert (m <= x) by (apply H3; by left). assert (m <= y) by (apply H3; by right). apply H2 in Hm. lia.
      + destruct l as [|z l]; [|cbn in E; destruct (min_list l); done]. split.
        * intros [= <-]. split; [by left|]. intros z [->|Hz]%elem_of_cons; [done|]. by apply elem_of_nil in Hz.
        * intros [[->|Hm]%elem_of_cons _]; [done|]. by apply elem_of_nil in Hm.
  Qed.
  Lemma min_list_some l : l <> [] -> is_Some (min_list l).
  Proof using Type. destruct l; cbn; [done|]. intros _. destruct (min_list l); eauto. Qed.
  Lemma capacity_ok s m : c_capacity s = Some m <->
    (exists j c, s_cols s !! j = Some c /\ v_cap c = m) /\ forall j c, s_cols s !! j = Some c -> m <= v_cap c.
  Proof using Type.
    unfold c_capacity. rewrite min_list_ok. setoid_rewrite elem_of_list_fmap. setoid_rewrite elem_of_list_lookup.
    split; intros [H1 H2]; split.
    - destruct H1 as (c & -> & j & Hj). eauto.
    - intros j c Hj. apply H2. eauto.
    - destruct H1 as (j & c & Hj & <-). eauto.
    - intros x (c & -> & j & Hj). eauto.
  Qed.
  Lemma max_size_ok s m : c_max_size mx s = Some m <->
    (exists j c, s_cols s !! j = Some c /\ mx j = m) /\ forall j c, s_cols s !! j = Some c -> m <= mx j.
  Proof using Type.
    unfold c_max_size. rewrite min_list_ok. setoid_rewrite elem_of_list_lookup. setoid_rewrite list_lookup_imap.
    split; intros [H1 H2]; split.
    - destruct H1 as (j & Hj). destruct (s_cols s !! j) as [c|] eqn:E; cbn in Hj; [|done]. simplify_eq. eauto.
    - intros j c Hj. apply H2. exists j. by rewrite Hj.
    - destruct H1 as (j & c & Hj & <-). exists j. by rewrite Hj.
    - intros x (j & Hj). destruct (s_cols s !! j) as [c|] eqn:E; cbn in Hj; [|done]. simplify_eq. eauto.
  Qed.
  Lemma cols_nonempty N n s : inv N n s -> 0 < N -> exists c, s_cols s !! 0 = Some c.
  Proof using Type. intros [H _] HN. destruct (lookup_lt_is_Some_2 (s_cols s) 0) as [c Hc]; [lia|]. eauto. Qed.
  Lemma inv_size N n s : inv N n s -> 0 < N -> c_size s = Some n.
  Proof using Type.
    intros Hi HN. destruct (cols_nonempty _ _ _ Hi HN) as [c Hc]. destruct Hi as [_ Hi].
    unfold c_size. destruct (s_cols s) as [|c' l]; cbn in Hc; [done|]. simplify_eq. by destruct (Hi 0 c eq_refl) as [<- _].
  Qed.
  Lemma inv_caps N n s : inv N n s -> 0 < N -> exists c m, c_capacity s = Some c /\ c_max_size mx s = Some m /\ n <= c <= m.
  Proof using Type.
    intros Hi HN. destruct (cols_nonempty _ _ _ Hi HN) as [c0 Hc].
    assert (s_cols s <> []) as Hne by (intros H; by rewrite H in Hc).
    destruct (min_list_some (map v_cap (s_cols s))) as [c Hcap]; [by destruct (s_cols s)|].
    destruct (min_list_some (imap (fun j _ => mx j) (s_cols s))) as [m Hmax]; [by destruct (s_cols s)|].
    fold (c_capacity s) in Hcap. fold (c_max_size mx s) in Hmax. exists c, m. split; [done|]. split; [done|].
    apply capacity_ok in Hcap as [(j & a & Ha & <-) Hcap]. apply max_size_ok in Hmax as [(i & b & Hb & <-) Hmax].
    destruct Hi as [_ Hi]. pose proof (Hi _ _ Ha) as [? ?]. pose proof (Hi _ _ Hb) as [? ?]. pose proof (Hcap _ _ Hb). lia.
  Qed.

  (** ** Column operations *)
  Definition grows (f : colop) (n n' : nat) : Prop := forall j c c', fits n j c -> ran f j c c' -> fits n' j c'.
  Lemma grow_fits n k : grows (v_grow alloc mx k) n (n + k).
  Proof using Type.
    intros j c c' [H1 H2] (q & q' & H). unfold v_grow, v_realloc in H. rewrite H1 in H.
    destruct (v_cap c <? n + k) eqn:E1.
    - destruct (n + k <=? mx j) eqn:E2; [|done]. destruct (alloc q) as [e|]; [|done]. simplify_eq.
      apply Nat.leb_le in E2. split; cbn; lia.
    - simplify_eq. apply Nat.ltb_ge in E1. split; cbn; lia.
  Qed.
  Lemma reserve_fits n k : grows (v_reserve alloc mx k) n n.
  Proof using Type.
    intros j c c' [H1 H2] (q & q' & H). unfold v_reserve, v_realloc in H.
    destruct (v_cap c <? k) eqn:E1; [|by simplify_eq].
    destruct (k <=? mx j) eqn:E2; [|done]. destruct (alloc q) as [e|]; [|done]. simplify_eq.
    apply Nat.leb_le in E2. apply Nat.ltb_lt in E1. split; cbn; lia.
  Qed.
  Lemma cut_fits n k : k <= n -> grows (v_cut k) n k.
  Proof using Type. intros Hk j c c' [H1 H2] (q & q' & H). unfold v_cut in H. simplify_eq. split; cbn; lia. Qed.
  Lemma pred_fits n : grows (fun j c => v_cut (pred (v_size c)) j c) n (n - 1).
  Proof using Type. intros j c c' [H1 H2] (q & q' & H). unfold v_cut in H. simplify_eq. split; cbn; lia. Qed.
  Lemma resize_fits n k : grows (v_resize alloc mx k) n k.
  Proof using Type.
    intros j c c' Hf (q & q' & H). unfold v_resize in H. pose proof Hf as [H1 H2]. rewrite H1 in H. destruct (n <? k) eqn:E.
    - apply Nat.ltb_lt in E. replace k with (n + (k - n)) by lia. eapply grow_fits; [exact Hf|]. by exists q, q'.
    - apply Nat.ltb_ge in E. eapply (cut_fits n); [done|exact Hf|]. by exists q, q'.
  Qed.
  Lemma shrink_fits n : grows (v_shrink shrinks) n n.
  Proof using Type.
    intros j c c' [H1 H2] (q & q' & H). unfold v_shrink in H. destruct (shrinks q) as [e|]; [|by simplify_eq].
    destruct (v_size c <? v_cap c) eqn:E; simplify_eq; split; cbn; lia.
  Qed.
  Lemma all_inv f N n n' s s' : grows f n n' -> inv N n s -> c_all f s = COk s' -> inv N n' s'.
  Proof using Type.
    intros Hg [Hl Hi] H. pose proof (c_all_ok f s) as Hok. rewrite H in Hok. destruct Hok as [H1 H2].
    split; [lia|]. intros j c' Hc'. destruct (lookup_lt_is_Some_2 (s_cols s) j) as [c Hc]; [apply lookup_lt_Some in Hc'; lia|].
    eapply Hg; eauto.
  Qed.
  Lemma throw_inv f N n s s' : grows f n n -> inv N n s -> c_all f s = CThrow s' -> inv N n s'.
  Proof using Type.
    intros Hg [Hl Hi] H. pose proof (c_all_ok f s) as Hok. rewrite H in Hok. destruct Hok as (H1 & H2 & _).
    split; [lia|]. intros j c' Hc'. destruct (lookup_lt_is_Some_2 (s_cols s) j) as [c Hc]; [apply lookup_lt_Some in Hc'; lia|].
    destruct (H2 _ _ _ Hc Hc') as [Hr| ->]; eauto.
  Qed.
  Lemma repeat_inv N m : forall n s s', inv N n s -> c_repeat m (v_grow alloc mx 1) s = COk s' -> inv N (n + m) s'.
  Proof using Type.
    induction m as [|m IH]; intros n s s' Hi H; cbn in H.
    - simplify_eq. by rewrite Nat.add_0_r.
    - destruct (c_all _ s) as [s1| |] eqn:E; [|done..].
      replace (n + S m) with (n + 1 + m) by lia. eapply IH; [|exact H]. eapply all_inv; [apply grow_fits|exact Hi|exact E].
  Qed.
  Lemma step_inv o N n s s' : 0 < N -> inv N n s -> c_step alloc shrinks mx o s = COk s' -> inv N (new_size o n) s'.
  Proof using Type.
    intros HN Hi H. unfold c_step in H. rewrite (inv_size _ _ _ Hi HN) in H.
    destruct o as [|i|i k|i|i k rnd| | |k|k|]; cbn [new_size].
    - eapply all_inv; [apply grow_fits|done..].
    - destruct (i <=? n); [|done]. eapply all_inv; [apply grow_fits|done..].
    - destruct (i <=? n); [|done]. eapply all_inv; [apply grow_fits|done..].
    - destruct (i <? n); [|done]. eapply all_inv; [apply pred_fits|done..].
    - destruct (n <? i); [done|]. destruct (i =? n); [by eapply repeat_inv|].
      destruct rnd; [|by eapply repeat_inv].
      destruct (c_all _ s) as [s1| |] eqn:E; [|done..]. eapply repeat_inv; [|done].
      eapply all_inv; [apply reserve_fits|done..].
    - eapply all_inv; [apply (cut_fits n); lia|done..].
    - destruct (0 <? n); [|done]. eapply all_inv; [apply pred_fits|done..].
    - eapply all_inv; [apply reserve_fits|done..].
    - eapply all_inv; [apply resize_fits|done..].
    - eapply all_inv; [apply shrink_fits|done..].
  Qed.
  Lemma history_inv N s : 0 < N -> cap_history alloc shrinks mx N s -> exists n, inv N n s.
  Proof using Type.
    intros HN. induction 1 as [|o s s' _ [n Hi] H|k s s' _ [n Hi] H].
    - exists 0. unfold c_empty. split; cbn; [by rewrite map_length, seq_length|].
      intros j c Hj. rewrite list_lookup_fmap in Hj. destruct (seq 0 N !! j); cbn in Hj; [|done]. simplify_eq. split; cbn; lia.
    - eexists. eapply step_inv; eauto.
    - exists n. unfold c_step in H. rewrite (inv_size _ _ _ Hi HN) in H. eapply throw_inv; [apply reserve_fits|done..].
  Qed.
  Lemma inv_sizes N n s : inv N n s -> all_sizes s n.
  Proof using Type. intros [_ Hi] c [j Hj]%elem_of_list_lookup. by destruct (Hi _ _ Hj). Qed.

  (** ** No reallocation *)
  Definition keeps (f : colop) (n k : nat) : Prop :=
    forall j c q, fits n j c -> k <= v_cap c -> exists c', f j c q = Some (c', q) /\ v_buf c' = v_buf c /\ v_cap c' = v_cap c.
  Definition same_caps (s s' : cstate) : Prop := forall j : nat, v_cap <$> s_cols s !! j = v_cap <$> s_cols s' !! j.
  Lemma grow_keeps n k : keeps (v_grow alloc mx k) n (n + k).
  Proof using Type.
    intros j c q [H1 H2] Hk. unfold v_grow. rewrite H1. replace (v_cap c <? n + k) with false by (symmetry; apply Nat.ltb_ge; lia). eauto.
  Qed.
  Lemma reserve_keeps n k : keeps (v_reserve alloc mx k) n k.
  Proof using Type.
    intros j c q [H1 H2] Hk. unfold v_reserve. replace (v_cap c <? k) with false by (symmetry; apply Nat.ltb_ge; lia). eauto.
  Qed.
  Lemma cut_keeps n m k : keeps (v_cut m) n k.
  Proof using Type. intros j c q _ _. unfold v_cut. eauto. Qed.
  Lemma pred_keeps n k : keeps (fun j c => v_cut (pred (v_size c)) j c) n k.
  Proof using Type. intros j c q _ _. unfold v_cut. eauto. Qed.
  Lemma resize_keeps n k : keeps (v_resize alloc mx k) n k.
  Proof using Type.
    intros j c q Hf Hk. unfold v_resize. pose proof Hf as [H1 H2]. rewrite H1. destruct (n <? k) eqn:E.
    - apply Nat.ltb_lt in E. apply (grow_keeps n); [done|]. lia.
    - by apply (cut_keeps n k k).
  Qed.
  Lemma all_keeps f N n k s : keeps f n k -> inv N n s -> (forall j c, s_cols s !! j = Some c -> k <= v_cap c) ->
    exists s', c_all f s = COk s' /\ same_storage s s' /\ same_caps s s'.
  Proof using Type.
    intros Hk [Hl Hi] Hc. pose proof (c_all_ok f s) as Hok. destruct (c_all f s) as [s'|s'|]; [| |done].
    - exists s'. split; [done|]. destruct Hok as [H1 H2].
      assert (forall j, v_buf <$> s_cols s !! j = v_buf <$> s_cols s' !! j /\ v_cap <$> s_cols s !! j = v_cap <$> s_cols s' !! j) as H.
      { intros j. destruct (s_cols s !! j) as [c|] eqn:Ec.
        - destruct (lookup_lt_is_Some_2 (s_cols s') j) as [c' Ec']; [apply lookup_lt_Some in Ec; lia|].
          destruct (H2 _ _ _ Ec Ec') as (q & q' & Hf). destruct (Hk j c q (Hi _ _ Ec) (Hc _ _ Ec)) as (c1 & Hf' & Hb & Hcap).
          rewrite Ec'. cbn. rewrite Hf' in Hf. simplify_eq. by rewrite Hb, Hcap.
        - apply lookup_ge_None in Ec. destruct (s_cols s' !! j) as [c'|] eqn:Ec'; [apply lookup_lt_Some in Ec'; lia|done]. }
      split; intros j; apply H.
    - destruct Hok as (_ & _ & j & c & q & H1 & H2). destruct (Hk j c q (Hi _ _ H1) (Hc _ _ H1)) as (c1 & Hf' & _). congruence.
  Qed.
  Lemma same_caps_capacity s s' m : same_caps s s' -> c_capacity s = Some m -> c_capacity s' = Some m.
  Proof using Type.
    intros Hs. rewrite !capacity_ok. intros [(j & c & Hj & Hm) H]. split.
    - pose proof (Hs j) as E. rewrite Hj in E. cbn in E. destruct (s_cols s' !! j) as [c'|] eqn:E'; cbn in E; [|done]. simplify_eq. eauto.
    - intros i c' Hi. pose proof (Hs i) as E. rewrite Hi in E. cbn in E. destruct (s_cols s !! i) as [c''|] eqn:E'; cbn in E; [|done].
      assert (v_cap c'' = v_cap c') as <- by congruence. eauto.
  Qed.
  Lemma same_storage_refl s : same_storage s s.
  Proof using Type. by intros j. Qed.
  Lemma same_storage_trans s1 s2 s3 : same_storage s1 s2 -> same_storage s2 s3 -> same_storage s1 s3.
  Proof using Type. intros H1 H2 j. by rewrite (H1 j). Qed.
  Lemma same_caps_trans s1 s2 s3 : same_caps s1 s2 -> same_caps s2 s3 -> same_caps s1 s3.
  Proof using Type. intros H1 H2 j. by rewrite (H1 j). Qed.
  Lemma same_caps_bound s s' k : same_caps s s' -> (forall j c, s_cols s !! j = Some c -> k <= v_cap c) ->
    forall j c, s_cols s' !! j = Some c -> k <= v_cap c.
  Proof using Type.
    intros Hs H j c Hj. pose proof (Hs j) as E. rewrite Hj in E. cbn in E. destruct (s_cols s !! j) as [c'|] eqn:E'; cbn in E; [|done].
    assert (v_cap c' = v_cap c) as <- by congruence. eauto.
  Qed.
  Lemma repeat_keeps N m : forall n k s, inv N n s -> n + m <= k -> (forall j c, s_cols s !! j = Some c -> k <= v_cap c) ->
    exists s', c_repeat m (v_grow alloc mx 1) s = COk s' /\ same_storage s s' /\ same_caps s s'.
  Proof using Type.
    induction m as [|m IH]; intros n k s Hi Hn Hk; cbn.
    - exists s. done.
    - destruct (all_keeps _ _ _ (n + 1) s (grow_keeps n 1) Hi) as (s1 & E & H1 & H2).
      { intros j c Hj. apply Hk in Hj. lia. }
      rewrite E. destruct (IH (n + 1) k s1) as (s2 & H3 & H4 & H5).
      { eapply all_inv; [apply grow_fits|done..]. }
      { lia. }
      { by eapply same_caps_bound. }
      exists s2. split; [done|]. split; [by eapply same_storage_trans|by eapply same_caps_trans].
  Qed.
  Lemma step_keeps o N n k s : 0 < N -> inv N n s -> o <> CShrink -> n <= k -> (forall w, wanted o n = Some w -> w <= k) ->
    (forall j c, s_cols s !! j = Some c -> k <= v_cap c) -> c_step alloc shrinks mx o s <> CBad ->
    exists s', c_step alloc shrinks mx o s = COk s' /\ same_storage s s' /\ same_caps s s'.
  Proof using Type.
    intros HN Hi Ho Hnk Hw Hk Hb. unfold c_step in *. rewrite (inv_size _ _ _ Hi HN) in *.
    assert (Hkn : forall w, w <= k -> forall j c, s_cols s !! j = Some c -> w <= v_cap c).
    { intros w Hwk j c Hj. apply Hk in Hj. lia. }
    destruct o as [|i|i m|i|i m rnd| | |m|m|]; cbn [wanted] in Hw; try done.
    - eapply (all_keeps _ N n (n + 1)); [apply grow_keeps|done|]. apply Hkn. auto.
    - destruct (i <=? n); [|done]. eapply (all_keeps _ N n (n + 1)); [apply grow_keeps|done|]. apply Hkn. auto.
    - destruct (i <=? n); [|done]. eapply (all_keeps _ N n (n + m)); [apply grow_keeps|done|]. apply Hkn. auto.
    - destruct (i <? n); [|done]. eapply (all_keeps _ N n k); [apply pred_keeps|done|]. apply Hkn. auto.
    - destruct (n <? i); [done|].
      assert (Hr : forall s, inv N n s -> (forall j c, s_cols s !! j = Some c -> k <= v_cap c) ->
        exists s', c_repeat m (v_grow alloc mx 1) s = COk s' /\ same_storage s s' /\ same_caps s s').
      { intros s0 H1 H2. eapply repeat_keeps; [done| |done]. auto. }
      destruct (i =? n); [by apply Hr|]. destruct rnd; [|by apply Hr].
      destruct (all_keeps _ N n (n + m) s (reserve_keeps n (n + m)) Hi) as (s1 & E & H1 & H2).
      { apply Hkn. auto. }
      rewrite E. destruct (Hr s1) as (s2 & H3 & H4 & H5).
      { eapply all_inv; [apply reserve_fits|done..]. }
      { by eapply same_caps_bound. }
      exists s2. split; [done|]. split; [by eapply same_storage_trans|by eapply same_caps_trans].
    - eapply (all_keeps _ N n k); [apply cut_keeps|done|]. apply Hkn. auto.
    - destruct (0 <? n); [|done]. eapply (all_keeps _ N n k); [apply pred_keeps|done|]. apply Hkn. auto.
    - eapply (all_keeps _ N n m); [apply reserve_keeps|done|]. apply Hkn. auto.
    - eapply (all_keeps _ N n m); [apply resize_keeps|done|]. apply Hkn. auto.
  Qed.

  (** ** Theorems *)
  Theorem size_and_capacity N s : 0 < N -> cap_history alloc shrinks mx N s ->
    exists n c m, c_size s = Some n /\ all_sizes s n /\ c_capacity s = Some c /\ c_max_size mx s = Some m /\ n <= c <= m.
  Proof using Type.
    intros HN H. destruct (history_inv _ _ HN H) as [n Hi]. destruct (inv_caps _ _ _ Hi HN) as (c & m & H1 & H2 & H3).
    exists n, c, m. split; [by eapply inv_size|]. split; [by eapply inv_sizes|]. done.
  Qed.
  Theorem no_reallocation N s o n c : 0 < N -> cap_history alloc shrinks mx N s -> c_size s = Some n -> c_capacity s = Some c ->
    o <> CShrink -> (forall w, wanted o n = Some w -> w <= c) -> c_step alloc shrinks mx o s <> CBad ->
    exists s', c_step alloc shrinks mx o s = COk s' /\ same_storage s s' /\ all_sizes s' (new_size o n) /\ c_capacity s' = Some c.
  Proof using Type.
    intros HN H Hn Hc Ho Hw Hb. destruct (history_inv _ _ HN H) as [n' Hi].
    assert (n' = n) as -> by (pose proof (inv_size _ _ _ Hi HN); congruence).
    pose proof Hc as Hc'. apply capacity_ok in Hc' as [_ Hk].
    destruct (step_keeps o N n c s) as (s' & H1 & H2 & H3); [done..| |done|done|done|].
    { destruct (inv_caps _ _ _ Hi HN) as (c' & m & H1 & _ & H3). assert (c' = c) as -> by congruence. lia. }
    exists s'. split; [done|]. split; [done|]. split; [|by eapply same_caps_capacity].
    eapply inv_sizes. by eapply step_inv.
  Qed.
  Lemma reserve_ran n k j c c' : fits n j c -> ran (v_reserve alloc mx k) j c c' -> k <= v_cap c' /\ v_cap c <= v_cap c'.
  Proof using Type.
    intros [H1 H2] (q & q' & H). unfold v_reserve, v_realloc in H. destruct (v_cap c <? k) eqn:E1.
    - destruct (k <=? mx j) eqn:E2; [|done]. destruct (alloc q) as [e|]; [|done]. simplify_eq. cbn.
      apply Nat.leb_le in E2. apply Nat.ltb_lt in E1. lia.
    - simplify_eq. apply Nat.ltb_ge in E1. lia.
  Qed.
  Theorem reserve_ok N s n c k : 0 < N -> cap_history alloc shrinks mx N s -> c_size s = Some n -> c_capacity s = Some c ->
    match c_step alloc shrinks mx (CReserve k) s with
    | COk s' => all_sizes s' n /\ exists c', c_capacity s' = Some c' /\ c <= c' /\ k <= c'
    | CThrow s' => all_sizes s' n /\ exists c', c_capacity s' = Some c' /\ c <= c'
    | CBad => False
    end.
  Proof using Type.
    intros HN H Hn Hc. destruct (history_inv _ _ HN H) as [n' Hi].
    assert (n' = n) as -> by (pose proof (inv_size _ _ _ Hi HN); congruence).
    unfold c_step. rewrite Hn. pose proof (c_all_ok (v_reserve alloc mx k) s) as Hok.
    apply capacity_ok in Hc as [_ Hk].
    destruct (c_all _ s) as [s'|s'|] eqn:E; [| |done].
    - assert (inv N n s') as Hi' by (eapply all_inv; [apply reserve_fits|done..]).
      split; [by eapply inv_sizes|]. destruct (inv_caps _ _ _ Hi' HN) as (c' & m & H1 & _ & _). exists c'. split; [done|].
      apply capacity_ok in H1 as [(j & a & Ha & <-) _]. destruct Hok as [Hl Hr].
      destruct (lookup_lt_is_Some_2 (s_cols s) j) as [b Hb]; [apply lookup_lt_Some in Ha; lia|].
      destruct (reserve_ran n k j b a) as [H2 H3]; [by apply Hi|by apply Hr|]. pose proof (Hk _ _ Hb). lia.
    - assert (inv N n s') as Hi' by (eapply throw_inv; [apply reserve_fits|done..]).
      split; [by eapply inv_sizes|]. destruct (inv_caps _ _ _ Hi' HN) as (c' & m & H1 & _ & _). exists c'. split; [done|].
      apply capacity_ok in H1 as [(j & a & Ha & <-) _]. destruct Hok as (Hl & Hr & _).
      destruct (lookup_lt_is_Some_2 (s_cols s) j) as [b Hb]; [apply lookup_lt_Some in Ha; lia|].
      destruct (Hr j b a Hb Ha) as [Hq| ->]; [|by eapply Hk].
      destruct (reserve_ran n k j b a) as [H2 H3]; [by apply Hi|done|]. pose proof (Hk _ _ Hb). lia.
  Qed.
  Theorem within_reserved N s k s1 s2 : 0 < N -> cap_history alloc shrinks mx N s ->
    c_step alloc shrinks mx (CReserve k) s = COk s1 -> within alloc shrinks mx k s1 s2 -> same_storage s1 s2.
  Proof using Type.
    intros HN H Hr Hw.
    destruct (size_and_capacity _ _ HN H) as (n0 & c0 & m0 & Hn0 & _ & Hc0 & _).
    pose proof (reserve_ok N s n0 c0 k HN H Hn0 Hc0) as Hk. rewrite Hr in Hk. destruct Hk as (_ & c & Hc & _ & Hkc).
    assert (cap_history alloc shrinks mx N s1) as H1 by (by eapply ch_step).
    clear H Hr Hn0 Hc0 s n0 c0 m0.
    revert c Hc Hkc H1. induction Hw as [s|o s s1 s2 n Hn Ho Hw Hs _ IH]; intros c Hc Hkc H; [apply same_storage_refl|].
    destruct (no_reallocation N s o n c HN H Hn Hc Ho) as (s' & H1 & H2 & _ & H3).
    { intros w Hww. apply Hw in Hww. lia. }
    { by rewrite Hs. }
    assert (s' = s1) as -> by congruence.
    eapply same_storage_trans; [exact H2|]. eapply IH; [exact H3|done|]. by eapply ch_step.
  Qed.
  (** ** length_error *)
  Definition fails_over (f : colop) (n w : nat) : Prop :=
    forall j c q, fits n j c -> (f j c q = None <-> mx j < w).
  Lemma all_fails f N n w m s : 0 < N -> fails_over f n w -> inv N n s -> c_max_size mx s = Some m ->
    (exists s', c_all f s = CThrow s') <-> m < w.
  Proof using Type.
    intros HN Hf [Hl Hi] Hm. pose proof (c_all_ok f s) as Hok. apply max_size_ok in Hm as [(j & c & Hj & <-) Hm]. split.
    - intros [s' E]. rewrite E in Hok. destruct Hok as (_ & _ & i & a & q & Ha & Hn). apply (Hf i a q (Hi _ _ Ha)) in Hn.
      pose proof (Hm _ _ Ha). lia.
    - intros Hw. destruct (c_all f s) as [s'|s'|]; [|eauto|done].
      destruct Hok as [H1 H2]. destruct (lookup_lt_is_Some_2 (s_cols s') j) as [c' Hc']; [apply lookup_lt_Some in Hj; lia|].
      destruct (H2 _ _ _ Hj Hc') as (q & q' & Hq). apply (Hf j c q (Hi _ _ Hj)) in Hw. congruence.
  Qed.
  Context (never_fails : forall k, alloc k <> None).
  Lemma realloc_fails j n c k : v_realloc alloc mx j n c k = None <-> mx j < n.
  Proof using never_fails.
    unfold v_realloc. destruct (n <=? mx j) eqn:E.
    - apply Nat.leb_le in E. specialize (never_fails k). destruct (alloc k); [|done]. split; [done|lia].
    - apply Nat.leb_gt in E. done.
  Qed.
  Lemma reserve_fails n w : fails_over (v_reserve alloc mx w) n w.
  Proof using never_fails.
    intros j c q [H1 H2]. unfold v_reserve. destruct (v_cap c <? w) eqn:E; [apply realloc_fails|].
    apply Nat.ltb_ge in E. split; [done|lia].
  Qed.
  Lemma grow_fails n k : fails_over (v_grow alloc mx k) n (n + k).
  Proof using never_fails.
    intros j c q [H1 H2]. unfold v_grow. rewrite H1. destruct (v_cap c <? n + k) eqn:E.
    - rewrite <-(realloc_fails j (n + k) c q). destruct (v_realloc _ _ _ _ _ _) as [[]|]; done.
    - apply Nat.ltb_ge in E. split; [done|lia].
  Qed.
  Lemma resize_fails n k : fails_over (v_resize alloc mx k) n k.
  Proof using never_fails.
    intros j c q Hf. pose proof Hf as [H1 H2]. unfold v_resize. rewrite H1. destruct (n <? k) eqn:E.
    - apply Nat.ltb_lt in E. rewrite (grow_fails n (k - n) j c q Hf). lia.
    - apply Nat.ltb_ge in E. unfold v_cut. split; [done|lia].
  Qed.
  Lemma total_fails (f : colop) n w : (forall j c q, f j c q <> None) -> w = 0 -> fails_over f n w.
  Proof using Type. intros H -> j c q _. split; [by intros ?%H|lia]. Qed.
  Lemma max_size_same s s' : length (s_cols s') = length (s_cols s) -> c_max_size mx s' = c_max_size mx s.
  Proof using Type.
    intros H. unfold c_max_size. f_equal. apply list_eq. intros i. rewrite !list_lookup_imap.
    destruct (s_cols s !! i) as [a|] eqn:E1, (s_cols s' !! i) as [b|] eqn:E2; cbn; try done.
    - apply lookup_lt_Some in E1. apply lookup_ge_None in E2. lia.
    - apply lookup_lt_Some in E2. apply lookup_ge_None in E1. lia.
  Qed.
  Lemma repeat_fails N k : forall n m s, 0 < N -> inv N n s -> c_max_size mx s = Some m -> n <= m ->
    (exists s', c_repeat k (v_grow alloc mx 1) s = CThrow s') <-> m < n + k.
  Proof using never_fails.
    induction k as [|k IH]; intros n m s HN Hi Hm Hnm; cbn.
    - split; [by intros [? ?]|lia].
    - pose proof (all_fails (v_grow alloc mx 1) N n (n + 1) m s HN (grow_fails n 1) Hi Hm) as Hf.
      pose proof (c_all_ok (v_grow alloc mx 1) s) as Hok.
      destruct (c_all _ s) as [s1|s1|] eqn:E; [| |done].
      + assert (~ m < n + 1) as Hlt by (intros [? ?]%Hf; done).
        assert (inv N (n + 1) s1) as Hi1 by (eapply all_inv; [apply grow_fits|done..]).
        rewrite (IH (n + 1) m s1 HN Hi1); [lia| |lia]. rewrite <-Hm. apply max_size_same. destruct Hok as [Hl _]. done.
      + split; [|eauto]. intros _. assert (m < n + 1) by (apply Hf; eauto). lia.
  Qed.
  Theorem throws_iff N s o n m : 0 < N -> cap_history alloc shrinks mx N s -> c_size s = Some n -> c_max_size mx s = Some m ->
    c_step alloc shrinks mx o s <> CBad ->
    (exists s', c_step alloc shrinks mx o s = CThrow s') <-> exists w, wanted o n = Some w /\ m < w.
  Proof using never_fails.
    intros HN H Hn Hm Hb. destruct (history_inv _ _ HN H) as [n' Hi].
    assert (n' = n) as -> by (pose proof (inv_size _ _ _ Hi HN); congruence).
    assert (n <= m) as Hnm.
    { destruct (inv_caps _ _ _ Hi HN) as (c' & m' & _ & H2 & H3). assert (m' = m) as -> by congruence. lia. }
    assert (Hex : forall w, (exists w', Some w = Some w' /\ m < w') <-> m < w).
    { intros w. split; [intros (? & [= <-] & ?); done|eauto]. }
    assert (Hno : (exists w' : nat, None = Some w' /\ m < w') <-> m < 0) by (split; [intros (? & ? & ?); done|lia]).
    assert (Hcut : forall g : vcol -> nat, fails_over (fun j c => v_cut (g c) j c) n 0) by (intros g; by apply total_fails).
    unfold c_step in *. rewrite Hn in *.
    destruct o as [|i|i k|i|i k rnd| | |k|k|]; cbn [wanted]; rewrite ?Hex, ?Hno.
    - by apply (all_fails _ N n); [|apply grow_fails|..].
    - destruct (i <=? n); [|done]. by apply (all_fails _ N n); [|apply grow_fails|..].
    - destruct (i <=? n); [|done]. by apply (all_fails _ N n); [|apply grow_fails|..].
    - destruct (i <? n); [|done]. by apply (all_fails _ N n); [|apply Hcut|..].
    - destruct (n <? i); [done|]. destruct (i =? n); [by apply (repeat_fails N)|]. destruct rnd; [|by apply (repeat_fails N)].
      pose proof (all_fails (v_reserve alloc mx (n + k)) N n (n + k) m s HN (reserve_fails n (n + k)) Hi Hm) as Hf.
      pose proof (c_all_ok (v_reserve alloc mx (n + k)) s) as Hok.
      destruct (c_all _ s) as [s1|s1|] eqn:E; [| |done].
      + assert (inv N n s1) as Hi1 by (eapply all_inv; [apply reserve_fits|done..]).
        apply (repeat_fails N); [done|done| |done]. rewrite <-Hm. apply max_size_same. destruct Hok as [Hl _]. done.
      + split; [|eauto]. intros _. apply Hf. eauto.
    - by apply (all_fails _ N n); [|apply (Hcut (fun _ => 0))|..].
    - destruct (0 <? n); [|done]. by apply (all_fails _ N n); [|apply Hcut|..].
    - by apply (all_fails _ N n); [|apply reserve_fails|..].
    - by apply (all_fails _ N n); [|apply resize_fails|..].
    - apply (all_fails _ N n); [done| |done|done]. apply total_fails; [|done].
      intros j c q. unfold v_shrink. destruct (shrinks q); [|done]. by destruct (v_size c <? v_cap c).
  Qed.
End Proofs.
