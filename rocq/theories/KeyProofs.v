(** Anys as keys of std::unordered_set (C100). *)
From stdpp Require Import gmap list.
From Verif Require Import TypeListModel TypeListSpec TypeListProofs AnyModel AnyInv AnySteps AnyLife AnyHistory AnyExec AnyFacts PolyModel PolySpec PolyFacts2 VectorSpec VectorProofs KeyModel KeySpec KeyHistory.

Lemma concat_alter {A} (f : list A -> list A) (s : list (list A)) i l : s !! i = Some l ->
  exists r, concat s ≡ₚ l ++ r /\ concat (alter f i s) ≡ₚ f l ++ r.
Proof.
  revert i. induction s as [|a s IH]; intros [|i] H; try done; cbn in H.
  - injection H as ->. by exists (concat s).
  - destruct (IH i H) as (r & H1 & H2). exists (a ++ r). split.
    + cbn. rewrite H1. rewrite !app_assoc. f_equiv. apply Permutation_app_comm.
    + change (concat (alter f (Datatypes.S i) (a :: s))) with (a ++ concat (alter f i s)). rewrite H2. rewrite !app_assoc. f_equiv. apply Permutation_app_comm.
Qed.
Lemma filter_one (l : list node) c x : NoDup (map snd l) -> In (c, x) l -> l ≡ₚ (c, x) :: filter (fun nd => nd.2 <> x) l.
Proof.
  induction l as [|[c' y] l IH]; intros Hn Hin; [done|]. cbn in Hn. apply NoDup_cons in Hn as [Hy Hn].
  destruct Hin as [[= -> ->]|Hin].
  - rewrite filter_cons_False by (cbn; tauto). f_equiv.
    assert (forall nd, In nd l -> nd.2 <> x) as Hall. { intros nd Hnd Heq. apply Hy. rewrite elem_of_list_In. apply in_map_iff. by exists nd. }
    clear -Hall. induction l as [|nd l IH]; [done|]. rewrite filter_cons_True by (apply Hall; by left). f_equiv. apply IH. intros ? ?. apply Hall. by right.
  - assert (y <> x). { intros ->. apply Hy. rewrite elem_of_list_In. apply in_map_iff. by exists (c, x). }
    rewrite filter_cons_True by done. rewrite (IH Hn Hin) at 1. apply perm_swap.
Qed.

Section Proofs.
  Context (E : env) (O : obs) (ms : list method) (cached : bool) (Hwf : env_wf E) (HO : obs_wf O) (HH : hashable O) (HK : key_class ms).

  Lemma same_sym u v : same_value O u v -> same_value O v u.
  Proof. destruct u as [[T x]|], v as [[U y]|]; cbn; try done. intros [-> H]. split; [done|]. by apply (h_sym O HH). Qed.
  Lemma same_trans u v t : same_value O u v -> same_value O v t -> same_value O u t.
  Proof.
    destruct u as [[T x]|], v as [[U y]|], t as [[V z]|]; cbn; try done. intros [-> H] [-> H']. split; [done|]. by apply (h_trans O HH _ _ y).
  Qed.
  Lemma same_hash u v : same_value O u v -> hash_of O u = hash_of O v.
  Proof. destruct u as [[T x]|], v as [[U y]|]; cbn; try done. intros [-> H]. by apply (h_hash O HH). Qed.

  Lemma hash_key w k v : reachable E w -> key ms w k v -> hash_op O (OpAny k) w = Ok (hash_of O v) w.
  Proof.
    intros Hr [(a & Ha & Hm) Hc]. destruct (hash_any_fact E O w k a Hwf Hr Ha) as (c & Hc' & Hh); [rewrite Hm; apply HK|]. congruence.
  Qed.
  Lemma eq_key w k x v u : reachable E w -> key ms w k v -> key ms w x u ->
    exists r, eq_op O (OpAny k) (OpAny x) w = Ok r w /\ (r = true <-> same_value O v u).
  Proof.
    intros Hr [(a & Ha & Hm) Hc] [(b & Hb & Hm') Hc'].
    destruct (eq_any_fact E O w k x a b Hwf HO Hr Ha Hb) as (r & ci & cj & H & H1 & H2 & H3); [rewrite Hm; apply HK|rewrite Hm; apply HK|rewrite Hm'; apply HK|].
    exists r. split; [done|]. by replace ci with v in H3 by congruence; replace cj with u in H3 by congruence.
  Qed.

  Definition nodes_ok (w : world) (l : list node) : Prop := forall c x, In (c, x) l -> exists v, key ms w x v /\ c = hash_of O v.

  Lemma find_node_spec w k v l : reachable E w -> key ms w k v -> nodes_ok w l ->
    exists r, find_node O cached l (hash_of O v) k w = Ok r w /\
      match r with
      | Some (c, x) => In (c, x) l /\ exists u, key ms w x u /\ same_value O u v
      | None => forall c x u, In (c, x) l -> content w x = Some u -> ~ same_value O u v
      end.
  Proof.
    intros Hr Hk. induction l as [|[c x] tl IH]; intros Hl.
    - exists None. split; [done|]. by intros ? ? ? [].
    - destruct IH as (r & IH & Hres). { intros c' x' Hin. apply Hl. by right. }
      destruct (Hl c x) as (u & Hu & ->); [by left|]. cbn [find_node].
      destruct (cached && negb (hash_of O u =? hash_of O v)) eqn:Hc.
      + exists r. split; [done|]. destruct r as [[c' x']|].
        * destruct Hres as [? ?]. split; [by right|done].
        * intros c' x' u' [[= <- <-]|Hin] Hu' Hs; [|by eapply Hres]. destruct Hu as [_ Hu]. rewrite Hu in Hu'. injection Hu' as <-.
          apply same_hash in Hs. apply andb_prop in Hc as [_ Hc]. rewrite Hs, Nat.eqb_refl in Hc. done.
      + destruct (eq_key w k x v u Hr Hk Hu) as (b & Hb & Hiff). rewrite (bind_ok _ _ _ _ _ Hb). destruct b.
        * exists (Some (hash_of O u, x)). split; [done|]. split; [by left|]. exists u. split; [done|]. apply same_sym. by apply Hiff.
        * exists r. split; [done|]. destruct r as [[c' x']|].
          -- destruct Hres as [? ?]. split; [by right|done].
          -- intros c' x' u' [[= <- <-]|Hin] Hu' Hs; [|by eapply Hres]. destruct Hu as [_ Hu]. rewrite Hu in Hu'. injection Hu' as <-.
             apply same_sym in Hs. apply Hiff in Hs. done.
  Qed.

  Record sound (w : world) (s : uset) (S : list value) : Prop := {
    so_reach : reachable E w;
    so_len : 0 < length s;
    so_nodes : nodes_ok w (concat s);
    so_place : forall i l c x, s !! i = Some l -> In (c, x) l -> c mod length s = i;
    so_nodup : NoDup (names s);
    so_hold : hold_values w (names s) S;
    so_dist : distinct O S
  }.

  Lemma in_bucket (s : uset) i l nd : s !! i = Some l -> In nd l -> In nd (concat s).
  Proof. intros H Hin. apply in_concat. exists l. split; [|done]. rewrite <- elem_of_list_In. by eapply elem_of_list_lookup_2. Qed.
  Lemma of_bucket (s : uset) nd : In nd (concat s) -> exists i l, s !! i = Some l /\ In nd l.
  Proof. intros H. apply in_concat in H as (l & Hl & Hin). rewrite <- elem_of_list_In in Hl. apply elem_of_list_lookup_1 in Hl as [i Hi]. by exists i, l. Qed.
  Lemma in_names (s : uset) x : In x (names s) <-> exists c, In (c, x) (concat s).
  Proof.
    unfold names. rewrite in_map_iff. split.
    - intros ([c y] & <- & H). by exists c.
    - intros [c H]. by exists (c, x).
  Qed.
  Lemma bucket_ok w s S h : sound w s S -> exists l, bucket s h w = Ok l w /\ s !! (h mod length s) = Some l.
  Proof.
    intros HS. pose proof (so_len _ _ _ HS). destruct (lookup_lt_is_Some_2 s (h mod length s)) as [l Hl]; [apply Nat.mod_upper_bound; lia|].
    exists l. split; [|done]. unfold bucket. by rewrite Hl.
  Qed.

  (** the search *)
  Definition search (s : uset) (k : nat) : M (option node) :=
    let! h := hash_op O (OpAny k) in let! l := bucket s h in find_node O cached l h k.
  Lemma member_node w s S v : sound w s S -> member O S v <-> exists c x u, In (c, x) (concat s) /\ key ms w x u /\ same_value O u v.
  Proof.
    intros HS. pose proof (so_hold _ _ _ HS) as Hh. split.
    - intros (u & Hu & Hs). assert (In (Some u) (map (content w) (names s))) as Hin.
      { rewrite <- elem_of_list_In. rewrite Hh. rewrite elem_of_list_In. by apply in_map. }
      apply in_map_iff in Hin as (x & Hx & Hin). apply in_names in Hin as [c Hin]. destruct (so_nodes _ _ _ HS _ _ Hin) as (u' & Hu' & _).
      exists c, x, u. split; [done|]. split; [|done]. destruct Hu' as [H1 H2]. split; [done|]. congruence.
    - intros (c & x & u & Hin & [_ Hx] & Hs). exists u. split; [|done].
      assert (In (Some u) (map Some S)) as Hi.
      { rewrite <- elem_of_list_In, <- Hh. rewrite elem_of_list_In. rewrite <- Hx. apply in_map. apply in_names. by exists c. }
      apply in_map_iff in Hi as (u' & [= ->] & ?). done.
  Qed.
  Lemma search_spec w s S k v : sound w s S -> key ms w k v ->
    exists l r, hash_op O (OpAny k) w = Ok (hash_of O v) w /\ bucket s (hash_of O v) w = Ok l w /\ s !! (hash_of O v mod length s) = Some l /\
      find_node O cached l (hash_of O v) k w = Ok r w /\
      match r with
      | Some (c, x) => In (c, x) l /\ (exists u, key ms w x u /\ same_value O u v) /\ member O S v
      | None => ~ member O S v
      end.
  Proof.
    intros HS Hk. pose proof (so_reach _ _ _ HS) as Hr. destruct (bucket_ok w s S (hash_of O v) HS) as (l & Hl & Hi).
    destruct (find_node_spec w k v l Hr Hk) as (r & Hf & Hres).
    { intros c x Hin. apply (so_nodes _ _ _ HS). by eapply in_bucket. }
    exists l, r. split; [by apply hash_key|]. split; [done|]. split; [done|]. split; [done|]. destruct r as [[c x]|].
    - destruct Hres as [H1 (u & H2 & H3)]. split; [done|]. split; [by exists u|]. apply (member_node w s S v HS). exists c, x, u. split; [by eapply in_bucket|done].
    - intros Hm. apply (member_node w s S v HS) in Hm as (c & x & u & Hin & Hu & Hs).
      destruct (so_nodes _ _ _ HS _ _ Hin) as (u' & Hu' & ->). assert (u' = u) as -> by (destruct Hu, Hu'; congruence).
      apply of_bucket in Hin as (i & l' & Hl' & Hin'). pose proof (so_place _ _ _ HS _ _ _ _ Hl' Hin') as Hp. rewrite (same_hash _ _ Hs) in Hp.
      rewrite Hp, Hl' in Hi. injection Hi as <-. destruct Hu as [_ Hu]. by eapply Hres.
  Qed.

  Lemma key_view w w' k v : view w' k = view w k -> key ms w k v -> key ms w' k v.
  Proof.
    intros Hv [(a & Ha & Hm) Hc]. split; [exists a; split; [|done]|by rewrite (view_content _ _ _ Hv)]. by apply (view_any w).
  Qed.
  Lemma sound_view w w' s S : sound w s S -> reachable E w' -> (forall x, In x (names s) -> view w' x = view w x) -> sound w' s S.
  Proof.
    intros HS Hr Hv. split; [done|apply HS| |apply HS|apply HS| |apply HS].
    - intros c x Hin. destruct (so_nodes _ _ _ HS _ _ Hin) as (u & Hu & ->). exists u. split; [|done]. apply (key_view w); [|done]. apply Hv, in_names. by eexists.
    - unfold hold_values. rewrite <- (so_hold _ _ _ HS). erewrite map_ext_in; [done|]. intros x Hx. cbn. by apply view_content, Hv.
  Qed.
  Lemma key_any w k v : key ms w k v -> exists a, w_any w !! k = Some a /\ a_ms a = ms.
  Proof. by intros [? _]. Qed.
  Lemma distinct_perm S S' : S ≡ₚ S' -> distinct O S -> distinct O S'.
  Proof.
    assert (forall L L' v, L ≡ₚ L' -> member O L v -> member O L' v) as Hm.
    { intros L L' v HP (u & Hu & Hs). exists u. split; [|done]. rewrite <- elem_of_list_In in *. by rewrite <- HP. }
    induction 1 as [|v L L' HP IH|u v L|L1 L2 L3 H1 IH1 H2 IH2]; cbn; try done.
    - intros [Hn Hd]. split; [|by apply IH]. intros H. apply Hn. by apply (Hm L' L).
    - intros (Hn1 & Hn2 & Hd). split; [|split; [|done]].
      + intros (x & [<-|Hx] & Hs); [|apply Hn2; by exists x]. apply Hn1. exists u. split; [by left|]. by apply same_sym.
      + intros (x & Hx & Hs). apply Hn1. exists x. split; [by right|done].
    - auto.
  Qed.

  Lemma insert_step w s S k v x : sound w s S -> key ms w k v -> w_any w !! x = None ->
    match u_insert E O ms cached s k x w with
    | Ok (s', b) w' => (b = true <-> ~ member O S v) /\ sound w' s' (if b then v :: S else S) /\
        (if b then names s' ≡ₚ x :: names s /\ key ms w' x v else s' = s) /\ (forall j, j <> x -> view w' j = view w j) /\ (b = false -> w' = w)
    | Exn w' => ~ member O S v /\ sound w' s S /\ w_any w' !! x = None /\ (forall j, view w' j = view w j)
    | UB _ | Term => False
    end.
  Proof.
    intros HS Hk Hx. pose proof (so_reach _ _ _ HS) as Hr. pose proof (reachable_inv _ _ Hwf Hr) as HI.
    destruct (search_spec w s S k v HS Hk) as (l & r & H1 & H2 & Hl & H3 & Hres).
    unfold u_insert. rewrite (bind_ok _ _ _ _ _ H1). rewrite (bind_ok _ _ _ _ _ H2). rewrite (bind_ok _ _ _ _ _ H3).
    destruct r as [[c y]|].
    - destruct Hres as (_ & _ & Hm). cbn. split; [split; [done|tauto]|]. split; [done|]. split; [done|]. split; done.
    - destruct (key_any _ _ _ Hk) as (a & Ha & Hma). destruct HK as (Kd & Kc & _).
      assert (contiguous ms (a_ms a)) as Hct by (rewrite Hma; apply contiguous_refl).
      assert (pre E w (OCopy x k ms)) as Hp. { split; [done|]. split; [done|]. exists a. split; [done|]. by rewrite Hma in *. }
      pose proof (copy_ctor_spec E w x k a ms Hwf HI Hx Ha Kd Hct) as H. rewrite Hma in H. specialize (H Kc). unfold wp in H.
      unfold bindM. destruct (copy_ctor E x k ms w) as [[] w'|w'| |] eqn:Hrun; try done.
      + destruct H as (_ & F & Hc & a' & Ha' & _ & Hm' & _). cbn.
        assert (forall j, j <> x -> view w' j = view w j) as V by (intros j Hj; apply (eff_view _ _ _ F); set_solver).
        assert (Hr' : reachable E w') by by apply (reachable_outcome E w (OCopy x k ms)); [..|by left].
        assert (Hkx : key ms w' x v). { split; [by exists a'|]. rewrite Hc. by destruct Hk. }
        assert (Hxn : ~ In x (names s)).
        { intros Hin. apply in_names in Hin as [c Hin]. destruct (so_nodes _ _ _ HS _ _ Hin) as (u & Hu & _). destruct (key_any _ _ _ Hu) as (? & ? & _). congruence. }
        split; [done|].
        destruct (concat_alter (cons (hash_of O v, x)) s _ l Hl) as (rest & P1 & P2).
        assert (P : concat (alter (cons (hash_of O v, x)) (hash_of O v mod length s) s) ≡ₚ (hash_of O v, x) :: concat s) by (rewrite P2, P1; done).
        assert (PN : names (alter (cons (hash_of O v, x)) (hash_of O v mod length s) s) ≡ₚ x :: names s).
        { unfold names. rewrite P. done. }
        split; [|split; [done|split; [done|done]]]. split.
        * done.
        * rewrite alter_length. apply HS.
        * intros c y Hin. rewrite <- elem_of_list_In, P, elem_of_list_In in Hin. destruct Hin as [[= <- <-]|Hin]; [by exists v|].
          destruct (so_nodes _ _ _ HS _ _ Hin) as (u & Hu & ->). exists u. split; [|done]. apply (key_view w); [|done]. apply V. intros ->.
          apply Hxn, in_names. by eexists.
        * intros i l' c y Hl' Hin. rewrite alter_length. destruct (decide (i = hash_of O v mod length s)) as [->|Hi].
          -- rewrite list_lookup_alter, Hl in Hl'. injection Hl' as <-. destruct Hin as [[= <- <-]|Hin]; [done|]. by eapply (so_place _ _ _ HS).
          -- rewrite list_lookup_alter_ne in Hl' by done. by eapply (so_place _ _ _ HS).
        * rewrite PN. apply NoDup_cons. split; [by rewrite elem_of_list_In|apply HS].
        * unfold hold_values. rewrite PN. cbn. destruct Hkx as [_ ->]. f_equiv. rewrite <- (so_hold _ _ _ HS).
          erewrite map_ext_in; [done|]. intros j Hj. cbn. apply view_content, V. by intros ->.
        * split; [done|apply HS].
      + destruct H as (_ & _ & (E1 & E2 & _)). assert (forall j, view w' j = view w j) as V by (intros j; unfold view, block_of; by rewrite E1, E2).
        split; [done|]. split; [|split; [by rewrite E1|done]]. apply (sound_view w); [done| |auto].
        by apply (reachable_outcome E w (OCopy x k ms)); [..|by right].
  Qed.

  Lemma names_perm s s' : concat s ≡ₚ concat s' -> names s ≡ₚ names s'.
  Proof. unfold names. by intros ->. Qed.
  Lemma same_member w s S v c x u : sound w s S -> In (c, x) (concat s) -> key ms w x u -> same_value O u v ->
    forall S', without O S S' v -> map (content w) (names s) ≡ₚ Some u :: map Some S'.
  Proof.
    intros HS Hin Hu Hs S' (u' & Hs' & HP). rewrite (so_hold _ _ _ HS), HP. cbn. cut (u' = u); [by intros ->|].
    assert (In u S) as HuS.
    { assert (In (Some u) (map Some S)) as Hi.
      { rewrite <- elem_of_list_In, <- (so_hold _ _ _ HS), elem_of_list_In. destruct Hu as [_ <-]. apply in_map, in_names. by exists c. }
      apply in_map_iff in Hi as (? & [= ->] & ?). done. }
    pose proof (distinct_perm _ _ HP (so_dist _ _ _ HS)) as [Hn _]. rewrite <- elem_of_list_In, HP, elem_of_list_In in HuS.
    destruct HuS as [->|Hin']; [done|]. exfalso. apply Hn. exists u. split; [done|]. apply (same_trans _ v); [done|]. by apply same_sym.
  Qed.

  Lemma erase_step w s S k v : sound w s S -> key ms w k v ->
    exists s' b w', u_erase E O cached s k w = Ok (s', b) w' /\ (b = true <-> member O S v) /\
      (b = false -> s' = s /\ w' = w) /\
      (b = true -> forall S', without O S S' v -> sound w' s' S') /\
      (exists x, (forall j, j <> x -> view w' j = view w j) /\ (b = true -> In x (names s) /\ names s ≡ₚ x :: names s' /\ w_any w' !! x = None)).
  Proof.
    intros HS Hk. pose proof (so_reach _ _ _ HS) as Hr.
    destruct (search_spec w s S k v HS Hk) as (l & r & H1 & H2 & Hl & H3 & Hres).
    unfold u_erase. rewrite (bind_ok _ _ _ _ _ H1). rewrite (bind_ok _ _ _ _ _ H2). rewrite (bind_ok _ _ _ _ _ H3).
    destruct r as [[c x]|].
    - destruct Hres as (Hin & (u & Hu & Hs) & Hm).
      destruct (dtor_step E ms Hwf w x Hr) as (w' & Hd & Hr' & _ & Hx' & V); [by destruct Hu|].
      rewrite (bind_ok _ _ _ _ _ Hd). eexists _, true, w'. split; [done|]. split; [done|]. split; [done|].
      set (f := filter (fun nd : node => nd.2 <> x)).
      destruct (concat_alter f s _ l Hl) as (rest & P1 & P2).
      assert (NoDup (map snd l)) as Hnl.
      { pose proof (so_nodup _ _ _ HS) as Hn. unfold names in Hn. rewrite P1, map_app in Hn. by apply NoDup_app in Hn as (? & _). }
      assert (P : concat s ≡ₚ (c, x) :: concat (alter f (hash_of O v mod length s) s)).
      { rewrite P2. rewrite P1 at 1. rewrite (filter_one l c x Hnl Hin) at 1. done. }
      set (s' := alter f (hash_of O v mod length s) s) in *.
      assert (PN : names s ≡ₚ x :: names s') by (unfold names; rewrite P at 1; done).
      assert (Hxn : ~ In x (names s')).
      { pose proof (so_nodup _ _ _ HS) as Hn. rewrite PN in Hn. apply NoDup_cons in Hn as [Hn _]. by rewrite elem_of_list_In in Hn. }
      split.
      + intros _ S' HS'. split.
        * done.
        * unfold s'. rewrite alter_length. apply HS.
        * intros c' y Hin'. destruct (so_nodes _ _ _ HS c' y) as (u' & Hu' & ->).
          { rewrite <- elem_of_list_In, P, elem_of_list_In. by right. }
          exists u'. split; [|done]. apply (key_view w); [|done]. apply V. intros ->. apply Hxn, in_names. by eexists.
        * intros i l' c' y Hl' Hin'. unfold s'. rewrite alter_length. destruct (decide (i = hash_of O v mod length s)) as [->|Hi].
          -- unfold s' in Hl'. rewrite list_lookup_alter, Hl in Hl'. injection Hl' as <-. apply (so_place _ _ _ HS _ l c' y); [done|].
             unfold f in Hin'. rewrite <- elem_of_list_In, elem_of_list_filter, elem_of_list_In in Hin'. by destruct Hin'.
          -- unfold s' in Hl'. rewrite list_lookup_alter_ne in Hl' by done. by eapply (so_place _ _ _ HS).
        * pose proof (so_nodup _ _ _ HS) as Hn. rewrite PN in Hn. by apply NoDup_cons in Hn as [_ ?].
        * assert (In (c, x) (concat s)) as Hinc by by eapply in_bucket.
          pose proof (same_member w s S v c x u HS Hinc Hu Hs S' HS') as Hp. rewrite PN in Hp. cbn in Hp. destruct Hu as [_ Hu]. rewrite Hu in Hp.
          apply Permutation_cons_inv in Hp. unfold hold_values. rewrite <- Hp. erewrite map_ext_in; [done|]. intros j Hj. cbn. apply view_content, V. by intros ->.
        * destruct HS' as (u' & _ & HP). pose proof (distinct_perm _ _ HP (so_dist _ _ _ HS)) as [_ ?]. done.
      + exists x. split; [done|]. intros _. split; [|done]. apply in_names. exists c. by eapply in_bucket.
    - cbn. exists s, false, w. split; [done|]. split; [by split|]. split; [done|]. split; [done|]. exists 0. split; done.
  Qed.

  Lemma contains_step w s S k v : sound w s S -> key ms w k v ->
    exists b, u_contains O cached s k w = Ok b w /\ (b = true <-> member O S v).
  Proof.
    intros HS Hk. destruct (search_spec w s S k v HS Hk) as (l & r & H1 & H2 & Hl & H3 & Hres).
    unfold u_contains. rewrite (bind_ok _ _ _ _ _ H1). rewrite (bind_ok _ _ _ _ _ H2). rewrite (bind_ok _ _ _ _ _ H3).
    destruct r as [[c x]|]; eexists; (split; [done|]).
    - split; [|done]. intros _. by destruct Hres as (_ & _ & ?).
    - by split.
  Qed.

  Lemma place_spec w : reachable E w -> forall l s, nodes_ok w l -> 0 < length s ->
    (forall i l' c x, s !! i = Some l' -> In (c, x) l' -> c mod length s = i) ->
    exists s', u_place O cached l s w = Ok s' w /\ length s' = length s /\ concat s' ≡ₚ l ++ concat s /\
      (forall i l' c x, s' !! i = Some l' -> In (c, x) l' -> c mod length s' = i).
  Proof.
    intros Hr. induction l as [|[c x] tl IH]; intros s Hn Hlen Hp.
    - exists s. done.
    - destruct (Hn c x) as (v & Hv & ->); [by left|]. cbn [u_place].
      assert ((if cached then retM (hash_of O v) else hash_op O (OpAny x)) w = Ok (hash_of O v) w) as Hh.
      { destruct cached; [done|]. by apply hash_key. }
      rewrite (bind_ok _ _ _ _ _ Hh). set (h := hash_of O v) in *.
      destruct (lookup_lt_is_Some_2 s (h mod length s)) as [l Hl]; [apply Nat.mod_upper_bound; lia|].
      destruct (concat_alter (cons (h, x)) s _ l Hl) as (rest & P1 & P2).
      destruct (IH (alter (cons (h, x)) (h mod length s) s)) as (s' & H1 & H2 & H3 & H4).
      { intros c' y Hin. apply Hn. by right. }
      { by rewrite alter_length. }
      { intros i l' c' y Hl' Hin. rewrite alter_length. destruct (decide (i = h mod length s)) as [->|Hi].
        - rewrite list_lookup_alter, Hl in Hl'. injection Hl' as <-. destruct Hin as [[= <- <-]|Hin]; [done|]. by eapply Hp.
        - rewrite list_lookup_alter_ne in Hl' by done. by eapply Hp. }
      exists s'. split; [done|]. split; [by rewrite H2, alter_length|]. split; [|done].
      rewrite H3, P2. cbn. rewrite P1. by rewrite <- Permutation_middle.
  Qed.
  Lemma replicate_place {A} n i (l' : list A) x : replicate n [] !! i = Some l' -> ~ In x l'.
  Proof. intros H. apply lookup_replicate in H as [-> _]. intros []. Qed.
  Lemma concat_replicate {A} n : concat (replicate n (@nil A)) = [].
  Proof. by induction n. Qed.
  Lemma rehash_step w s S n : sound w s S -> 0 < n ->
    exists s', u_rehash O cached s n w = Ok s' w /\ length s' = n /\ sound w s' S /\ names s' ≡ₚ names s.
  Proof.
    intros HS Hn. unfold u_rehash.
    destruct (place_spec w (so_reach _ _ _ HS) (concat s) (replicate n [])) as (s' & H1 & H2 & H3 & H4).
    - apply HS.
    - by rewrite replicate_length.
    - intros i l' c x Hl' Hin. by destruct (replicate_place _ _ _ _ Hl' Hin).
    - rewrite replicate_length in H2. rewrite concat_replicate, app_nil_r in H3. exists s'. split; [done|]. split; [done|].
      assert (names s' ≡ₚ names s) as PN by by apply names_perm. split; [|done]. split.
      + apply HS.
      + lia.
      + intros c x Hin. apply (so_nodes _ _ _ HS). by rewrite <- elem_of_list_In, <- H3, elem_of_list_In.
      + done.
      + rewrite PN. apply HS.
      + unfold hold_values. rewrite PN. apply HS.
      + apply HS.
  Qed.

  Theorem history_sound w s S : set_history E O ms cached w s S -> sound w s S.
  Proof.
    induction 1 as [w n Hr Hn|w s S o w' _ HS Hp Ha Ht Ho|w s S k v x s' b w' _ HS Hk Hx Hm Hrun|w s S k v x s' b w' _ HS Hk Hx Hm Hrun
      |w s S k v x w' _ HS Hk Hx Hrun|w s S k v s' b w' S' _ HS Hk HS' Hrun|w s S k v s' b w' _ HS Hk Hm Hrun|w s S n s' w' _ HS Hn Hrun].
    - split; [done|by rewrite replicate_length| | | | |done].
      + intros c x. by rewrite concat_replicate.
      + intros i l c x Hl Hin. by destruct (replicate_place _ _ _ _ Hl Hin).
      + unfold names. rewrite concat_replicate. constructor.
      + unfold hold_values, names. by rewrite concat_replicate.
    - apply (sound_view w); [done|by apply (reachable_outcome E w o); [apply HS|..]|]. intros x Hx.
      pose proof (step_safe E w o Hwf (reachable_inv _ _ Hwf (so_reach _ _ _ HS)) Hp Ha) as H. unfold wp in H.
      assert (untouched (touches o) w w') as Hu by (destruct Ho as [Ho|Ho]; rewrite Ho in H; by destruct H). by apply Hu, Ht.
    - pose proof (insert_step w s S k v x HS Hk Hx) as H. rewrite Hrun in H. destruct H as (H1 & H2 & _). by rewrite (proj2 H1 Hm) in H2.
    - pose proof (insert_step w s S k v x HS Hk Hx) as H. rewrite Hrun in H. destruct H as (H1 & H2 & _). destruct b; [|done]. by destruct (proj1 H1 Logic.eq_refl).
    - pose proof (insert_step w s S k v x HS Hk Hx) as H. rewrite Hrun in H. by destruct H as (_ & H & _).
    - destruct (erase_step w s S k v HS Hk) as (s1 & b1 & w1 & Hrun' & Hb & _ & HT & _). rewrite Hrun in Hrun'. injection Hrun' as <- <- <-.
      apply HT; [|done]. apply Hb. destruct HS' as (u & Hu & HP). exists u. split; [|done]. rewrite <- elem_of_list_In, HP. by left.
    - destruct (erase_step w s S k v HS Hk) as (s1 & b1 & w1 & Hrun' & Hb & HF & _). rewrite Hrun in Hrun'. injection Hrun' as <- <- <-.
      destruct b; [by destruct (Hm (proj1 Hb Logic.eq_refl))|]. by destruct (HF Logic.eq_refl) as [-> ->].
    - destruct (rehash_step w s S n HS Hn) as (s1 & Hrun' & _ & HS1 & _). rewrite Hrun in Hrun'. by injection Hrun' as <- <-.
  Qed.
End Proofs.
