(** Proofs about programs on data_parallel_vectors. *)
From Coq Require Import ZArith.
From stdpp Require Import gmap list sorting.
From Verif Require Import AnyModel DpvModel DpvIterModel DpvSpec DpvProofs DpvLawProofs DpvExprModel DpvExprSpec DpvExprProofs DpvExprSim DpvProgModel DpvProgSpec DpvAlgoModel.

Section Sim.
  Context (N : nat) (HN : 0 < N) (dfl mf : nat -> nat) (ndebug : bool) (cmp : nat -> nat -> nat -> option comparison) (eqf : nat -> nat -> nat -> bool).
  Context (Heq : forall j x y, cmp j x y = Some Eq <-> eqf j x y = true).
  Notation vruns := (vruns N dfl mf ndebug cmp eqf).
  Notation drun := (drun N dfl mf ndebug cmp).
  Theorem prog_sim {A} (p : prog A) m a m' : vruns false p m a m' -> forall w, sim N w m -> exists w', drun p w = Some (a, w') /\ sim N w' m'.
  Proof.
    induction 1 as [a m|o k m a m' Hl _ IH|e k m t v m1 a m' Ht Hs Hf Hb Hv _ IH|e k m t x i m1 r a m' Hau Ht Hs Hf Hb Hv Hr _ IH]; intros w Hw; cbn.
    - by exists w.
    - destruct (step_ok N HN dfl mf o w m Hw Hl) as (w1 & He & Hw1). rewrite He. by apply IH.
    - pose proof (supported_dty N e t Ht Hs) as Hd. rewrite Hd.
      assert (Hf' : ndebug || forward_only e = true) by (destruct Hf as [-> | ->]; [done|apply orb_true_r]).
      destruct (simulates N HN mf ndebug cmp eqf Heq e t w m v m1 Hw Hb Hf' Hd Hv) as (w1 & He & Hw1 & _ & _). rewrite He. by apply IH.
    - discriminate Hau.
  Qed.
  Lemma sim_same w m : sim N w m -> same_vectors N w m.
  Proof.
    intros Hs. split.
    - intros x. specialize (Hs x). inversion Hs; split; intros [? ?]; (done || by eexists).
    - intros x c v Hc Hx. destruct (sim_some N w m x v Hs Hx) as (c' & Hc' & Hh). rewrite Hc in Hc'. injection Hc' as <-. split; [by apply (holds_contents N HN)|by apply (holds_columns N)].
  Qed.
  Lemma sim_empty : sim N ∅ ∅.
  Proof. intros x. rewrite !lookup_empty. constructor. Qed.
  Lemma vruns_bind {A B} b (p : prog A) (f : A -> prog B) m a m1 c m2 : vruns b p m a m1 -> vruns b (f a) m1 c m2 -> vruns b (pbind p f) m c m2.
  Proof. induction 1; intros Hf; cbn; [done|econstructor; eauto..]. Qed.
End Sim.

Theorem program_as_vectors {A} N dfl mf ndebug cmp eqf (p : prog A) a m : 0 < N -> (forall j x y, cmp j x y = Some Eq <-> eqf j x y = true) ->
  vruns N dfl mf ndebug cmp eqf false p ∅ a m -> exists w, drun N dfl mf ndebug cmp p ∅ = Some (a, w) /\ same_vectors N w m.
Proof.
  intros HN Heq H. destruct (prog_sim N HN dfl mf ndebug cmp eqf Heq p ∅ a m H ∅ (sim_empty N)) as (w & Hr & Hs). exists w. split; [done|by apply sim_same].
Qed.

(** ** Rows are ordered if the fields are *)
Section Order.
  Context (cmp : nat -> nat -> nat -> option comparison) (Ht : total_order cmp).
  Lemma f_eq_sym j x y : cmp j x y = Some Eq -> cmp j y x = Some Eq.
  Proof.
    destruct Ht as (Hs & Ha & _). intros H. destruct (Hs j y x) as [[] E]; [done| |].
    - apply Ha in E. congruence.
    - apply Ha in E. congruence.
  Qed.
  Lemma f_eq_right j x y z : cmp j x y = Some Eq -> cmp j z x = cmp j z y.
  Proof.
    destruct Ht as (Hs & Ha & _ & He). intros H. pose proof (He j x y z H) as E. destruct (Hs j z x) as [[] E1]; rewrite E1; symmetry.
    - apply f_eq_sym. rewrite <- E. by apply f_eq_sym.
    - apply Ha. rewrite <- E. by apply Ha.
    - apply Ha. rewrite <- E. by apply Ha.
  Qed.
  Lemma t_some a : forall j b, is_Some (t_cmp cmp j a b).
  Proof. destruct Ht as (Hs & _). induction a as [|x a IH]; intros j [|y b]; cbn; try (by eexists). destruct (Hs j x y) as [[] E]; rewrite E; [apply IH|by eexists..]. Qed.
  Lemma t_anti a : forall j b, length a = length b -> t_cmp cmp j a b = Some Lt <-> t_cmp cmp j b a = Some Gt.
  Proof.
    destruct Ht as (Hs & Ha & _). induction a as [|x a IH]; intros j [|y b] Hl; cbn in *; try done. destruct (Hs j x y) as [[] E]; rewrite E.
    - rewrite (f_eq_sym _ _ _ E). apply IH. lia.
    - apply Ha in E. by rewrite E.
    - apply Ha in E. by rewrite E.
  Qed.
  Lemma t_trans a : forall j b c, length a = length b -> length b = length c -> t_cmp cmp j a b <> Some Gt -> t_cmp cmp j b c <> Some Gt -> t_cmp cmp j a c <> Some Gt.
  Proof.
    destruct Ht as (Hs & Ha & Htr & He). induction a as [|x a IH]; intros j [|y b] [|z c] Hl Hl'; cbn in *; try done.
    destruct (Hs j x y) as [[] E]; rewrite E.
    - rewrite (He j x y z E). destruct (Hs j y z) as [[] E']; rewrite E'; [|done..]. apply IH; lia.
    - intros _. destruct (Hs j y z) as [[] E']; rewrite E'; [|by rewrite (Htr j x y z E E')|done]. rewrite <- (f_eq_right j y z x E'), E. done.
    - done.
  Qed.
  Lemma t_not_less a b : length a = length b -> t_cmp cmp 0 a b <> Some Lt -> t_cmp cmp 0 b a <> Some Gt.
  Proof. intros Hl H H'. by apply H, t_anti. Qed.
End Order.
Lemma sorted_app {A} (R : A -> A -> Prop) l k : StronglySorted R (l ++ k) <-> StronglySorted R l /\ StronglySorted R k /\ forall a b, a ∈ l -> b ∈ k -> R a b.
Proof.
  induction l as [|a l IH]; cbn.
  - split; [intros H; split; [constructor|split; [done|]]; intros a b Ha; by apply elem_of_nil in Ha|by intros (_ & H & _)].
  - split.
    + intros H. apply StronglySorted_inv in H as [H Hf]. apply IH in H as (H1 & H2 & H3). apply Forall_app in Hf as [Hf1 Hf2]. split; [by constructor|]. split; [done|].
      intros c b Hc Hb. apply elem_of_cons in Hc as [-> |Hc]; [by eapply Forall_forall|by apply H3].
    + intros (H1 & H2 & H3). apply StronglySorted_inv in H1 as [H1 Hf]. constructor; [apply IH; split; [done|split; [done|]]; intros c b Hc Hb; apply H3; [by right|done]|].
      apply Forall_app. split; [done|]. apply Forall_forall. intros b Hb. apply H3; [by left|done].
Qed.

(** ** Algorithms on std::vectors *)
Section Algo.
  Context (N : nat) (dfl mf : nat -> nat) (ndebug : bool) (cmp : nat -> nat -> nat -> option comparison) (eqf : nat -> nat -> nat -> bool).
  Notation vruns := (vruns N dfl mf ndebug cmp eqf false).
  Notation vev := (vev N mf cmp eqf).
  Notation vecs := (gmap nat (list row)).
  Notation small m := (forall (x : nat) (u : list row), (m : vecs) !! x = Some u -> (Z.of_nat (length u) < 2 ^ 63)%Z).
  Lemma v1_some (f : vM) k w b w1 : f w = Some (b, w1) -> v1 f k w = k b w1.
  Proof. intros H. unfold v1. by rewrite H. Qed.
  Lemma vev_index c x i (m : vecs) v a : m !! x = Some v -> v !! i = Some a -> vev (EIndex (EVec c x) i) m = Some (XRef x i, m).
  Proof. intros Hx Hi. cbn. unfold vref, elem. rewrite Hx, Nat2Z.id, Hi. destruct (0 <=? Z.of_nat i)%Z eqn:E; [done|]. apply Z.leb_gt in E. lia. Qed.
  Lemma vev_at c x i (m : vecs) v : m !! x = Some v -> i < length v -> vev (EAdd (EBegin (EVec c x)) (Z.of_nat i)) m = Some (XIter x (Z.of_nat i), m).
  Proof.
    intros Hx Hi. cbn. unfold v1. unfold viter at 1. rewrite Hx. assert (((0 <=? 0) && (0 <=? Z.of_nat (length v)))%Z = true) as ->. { apply andb_true_iff. split; apply Z.leb_le; lia. }
    unfold viter. rewrite Hx. rewrite Z.add_0_l. assert (((0 <=? Z.of_nat i) && (Z.of_nat i <=? Z.of_nat (length v)))%Z = true) as ->; [|done]. apply andb_true_iff. split; apply Z.leb_le; lia.
  Qed.
  Lemma small_same (m : vecs) x (u u' : list row) : small m -> m !! x = Some u -> length u' = length u -> small (<[x := u']> m).
  Proof. intros Hb Hx Hl y z Hz. destruct (decide (y = x)) as [-> |?]; [rewrite lookup_insert in Hz; injection Hz as <-; rewrite Hl; by eapply Hb|rewrite lookup_insert_ne in Hz by done; by eapply Hb]. Qed.

  Section Sorting.
    Context (Ht : total_order cmp).
    Notation le a b := (t_cmp cmp 0 a b <> Some Gt).
    Lemma sink_ok x : forall l (m : vecs) a r rest, m !! x = Some (l ++ a :: r ++ rest) -> small m -> Forall (is_row N) (l ++ a :: r) ->
      in_order cmp (l ++ r) -> Forall (fun b => le a b) r ->
      exists s, vruns (sink x (length l)) m tt (<[x := s ++ rest]> m) /\ s ≡ₚ l ++ a :: r /\ in_order cmp s.
    Proof.
      induction l as [|b l IH] using rev_ind; intros m a r rest Hx Hb Hrow Ho Hf.
      - exists (a :: r). cbn. rewrite insert_id by done. split; [constructor|]. split; [done|]. constructor; [done|done].
      - rewrite app_length, Nat.add_comm. cbn [Nat.add length]. cbn [sink]. rewrite <- (app_assoc l [b]) in Hx. cbn [app] in Hx.
        assert (Hlen : length l < length (l ++ b :: a :: r ++ rest) /\ S (length l) < length (l ++ b :: a :: r ++ rest)) by (rewrite app_length; cbn; lia). destruct Hlen as [Hl1 Hl2].
        assert (Hib : (l ++ b :: a :: r ++ rest) !! length l = Some b) by (by rewrite lookup_app_r, Nat.sub_diag by lia).
        assert (Hia : (l ++ b :: a :: r ++ rest) !! S (length l) = Some a). { rewrite lookup_app_r by lia. by replace (S (length l) - length l) with 1 by lia. }
        pose proof Hrow as Hrow'. rewrite <- (app_assoc l [b]) in Hrow'. cbn [app] in Hrow'. apply Forall_app in Hrow' as [Hrl Hrr]. apply Forall_cons in Hrr as [Hrb Hrr]. apply Forall_cons in Hrr as [Hra Hrr].
        assert (Hcmp : vev (ECmp (EIndex (EVec false x) (S (length l))) (EIndex (EVec false x) (length l))) m = Some (XOrd (t_cmp cmp 0 a b), m)).
        { cbn [DpvExprSpec.vev]. unfold v2. pose proof (vev_index false x (S (length l)) m _ a Hx Hia) as E1. pose proof (vev_index false x (length l) m _ b Hx Hib) as E2. cbn [DpvExprSpec.vev] in E1, E2. rewrite (v1_some _ _ _ _ _ E1), (v1_some _ _ _ _ _ E2). unfold elem. by rewrite Hx, Hia, Hib. }
        destruct (decide (t_cmp cmp 0 a b = Some Lt)) as [Hlt|Hge].
        + (* swap and go on *)
          destruct (IH (<[x := l ++ a :: (b :: r) ++ rest]> m) a (b :: r) rest) as (s & Hr & Hp & Hs).
          { by rewrite lookup_insert. } { eapply small_same; [done|done|]. rewrite !app_length. cbn. done. }
          { apply Forall_app. split; [done|]. by repeat (constructor; [done|]). }
          { by rewrite <- (app_assoc l [b]) in Ho. } { constructor; [|done]. by rewrite Hlt. }
          exists s. split; [|split; [|done]].
          * eapply vr_ex; [reflexivity|reflexivity|by right|done|exact Hcmp|]. rewrite Hlt.
            eapply vr_ex; [reflexivity|reflexivity|by right|done| |].
            { cbn [DpvExprSpec.vev]. unfold v2. pose proof (vev_at false x (S (length l)) m _ Hx Hl2) as E1. pose proof (vev_at false x (length l) m _ Hx Hl1) as E2. cbn [DpvExprSpec.vev] in E1, E2. rewrite (v1_some _ _ _ _ _ E1), (v1_some _ _ _ _ _ E2). rewrite !Nat2Z.id. unfold elem. rewrite Hx, Hia, Hib. reflexivity. }
            cbv beta. assert (store x (length l) a (store x (S (length l)) b m) = <[x := l ++ a :: (b :: r) ++ rest]> m) as ->.
            { unfold store. rewrite (alter_as_insert _ x _ m Hx). rewrite (alter_as_insert _ x _ _ (lookup_insert _ _ _)), insert_insert. f_equal.
              rewrite insert_app_r_alt by lia. replace (S (length l) - length l) with 1 by lia. cbn [list_insert insert]. rewrite insert_app_r_alt by lia. by rewrite Nat.sub_diag. }
            rewrite insert_insert in Hr. exact Hr.
          * rewrite Hp, <- (app_assoc l [b]). cbn. f_equiv. constructor.
        + exists (l ++ b :: a :: r). split; [|split].
          * eapply vr_ex; [reflexivity|reflexivity|by right|done|exact Hcmp|]. rewrite <- app_assoc. cbn [app]. rewrite insert_id by done.
            destruct (t_cmp cmp 0 a b) as [[]|]; try constructor. done.
          * by rewrite <- (app_assoc l [b]).
          * assert (Hba : le b a) by (apply t_not_less; [done|unfold is_row in *; lia|done]).
            rewrite <- (app_assoc l [b]) in Ho. cbn [app] in Ho. unfold in_order in *. apply sorted_app in Ho as (H1 & H2 & H3). apply StronglySorted_inv in H2 as [H2 H2'].
            apply sorted_app. split; [done|]. split.
            { constructor; [by constructor|]. constructor; done. }
            intros c d Hc Hd. apply elem_of_cons in Hd as [-> |Hd]; [apply H3; [done|by left]|]. apply elem_of_cons in Hd as [-> |Hd]; [|apply H3; [done|by right]].
            assert (is_row N c) by (rewrite Forall_forall in Hrl; by apply Hrl). apply (t_trans cmp Ht c 0 b a); [unfold is_row in *; lia..| |done]. apply H3; [done|by left].
    Qed.
    Lemma sort_first_ok x : forall n v (m : vecs), m !! x = Some v -> small m -> Forall (is_row N) v -> n <= length v ->
      exists s, vruns (sort_first x n) m tt (<[x := s ++ drop n v]> m) /\ s ≡ₚ take n v /\ in_order cmp s.
    Proof.
      induction n as [|n IH]; intros v m Hx Hb Hrow Hn; cbn [sort_first].
      - exists []. rewrite take_0, drop_0. cbn. rewrite insert_id by done. split; [constructor|]. split; [done|constructor].
      - destruct (IH v m Hx Hb Hrow ltac:(lia)) as (s & Hr & Hp & Hs). destruct (lookup_lt_is_Some_2 v n ltac:(lia)) as [a Ha].
        assert (Hl : length s = n) by (rewrite Hp, take_length; lia). rewrite (drop_S v a n Ha) in Hr.
        destruct (sink_ok x s (<[x := s ++ a :: drop (S n) v]> m) a [] (drop (S n) v)) as (s' & Hr' & Hp' & Hs').
        { by rewrite lookup_insert. } { eapply small_same; [done|done|]. rewrite app_length. cbn. rewrite drop_length. lia. }
        { rewrite Hp. rewrite <- (take_S_r v n a Ha). by apply Forall_take. } { by rewrite app_nil_r. } { constructor. }
        rewrite insert_insert, Hl in Hr'. exists s'. split; [by eapply vruns_bind|]. split; [|done]. by rewrite Hp', Hp, (take_S_r v n a Ha).
    Qed.
    Theorem sort_ok x v (m : vecs) : m !! x = Some v -> small m -> Forall (is_row N) v -> exists s, vruns (sort x) m tt (<[x := s]> m) /\ s ≡ₚ v /\ in_order cmp s.
    Proof.
      intros Hx Hb Hrow. destruct (sort_first_ok x (length v) v m Hx Hb Hrow ltac:(lia)) as (s & Hr & Hp & Hs). rewrite drop_all, app_nil_r in Hr. rewrite take_ge in Hp by lia.
      exists s. split; [|done]. eapply vr_ex; [reflexivity|reflexivity|by right|done|cbn; unfold v1; by rewrite Hx|done].
    Qed.
  End Sorting.

  Lemma erase_first_ok x p : forall l r (m : vecs), m !! x = Some (l ++ r) -> small m -> vruns (erase_first x p (length l)) m tt (<[x := filter (fun a => p a = false) l ++ r]> m).
  Proof.
    induction l as [|a l IH] using rev_ind; intros r m Hx Hb.
    - cbn. rewrite insert_id by done. constructor.
    - rewrite app_length, Nat.add_comm. cbn [length Nat.add erase_first]. rewrite <- app_assoc in Hx. cbn [app] in Hx. assert (Ha : (l ++ a :: r) !! length l = Some a) by (by rewrite lookup_app_r, Nat.sub_diag by lia).
      eapply vr_ex; [reflexivity|reflexivity|by right|done| |].
      { cbn [DpvExprSpec.vev]. pose proof (vev_index true x (length l) m _ a Hx Ha) as E1. cbn [DpvExprSpec.vev] in E1. rewrite (v1_some _ _ _ _ _ E1). unfold elem. rewrite Hx, Ha. reflexivity. }
      cbv beta iota. rewrite filter_app. destruct (p a) eqn:E.
      + rewrite filter_cons_False by congruence. rewrite filter_nil, app_nil_r. eapply vr_op.
        { cbn. exists (l ++ a :: r). split; [done|]. rewrite app_length. cbn. lia. }
        cbn [fst snd vec_step]. rewrite (alter_as_insert _ x _ m Hx). rewrite take_app, drop_app_ge by lia. replace (S (length l) - length l) with 1 by lia. cbn [drop]. rewrite drop_0.
        pose proof (IH r (<[x := l ++ r]> m)) as H. rewrite insert_insert in H. apply H; [by rewrite lookup_insert|].
        intros y z Hz. destruct (decide (y = x)) as [-> |?]; [rewrite lookup_insert in Hz; injection Hz as <-; specialize (Hb x _ Hx); rewrite app_length in *; cbn in Hb; lia|rewrite lookup_insert_ne in Hz by done; by eapply Hb].
      + rewrite filter_cons_True by done. rewrite filter_nil, <- app_assoc. cbn [app]. by apply IH.
  Qed.
  Theorem erase_if_ok x p v (m : vecs) : m !! x = Some v -> small m -> vruns (erase_if x p) m tt (<[x := filter (fun a => p a = false) v]> m).
  Proof.
    intros Hx Hb. eapply vr_ex; [reflexivity|reflexivity|by right|done|cbn; unfold v1; by rewrite Hx|]. cbv beta iota. pose proof (erase_first_ok x p v [] m) as H. rewrite !app_nil_r in H. by apply H.
  Qed.
End Algo.

(** ** The algorithms on data_parallel_vectors *)
Section Run.
  Context (N : nat) (dfl mf : nat -> nat) (ndebug : bool) (cmp : nat -> nat -> nat -> option comparison) (l : list dop) (m : gmap nat (list row)) (w : dworld).
  Context (HN : 0 < N) (Hh : vec_history N dfl l m) (He : dexec N dfl mf l ∅ = WOk w None None) (Hb : forall x v, m !! x = Some v -> (Z.of_nat (length v) < 2 ^ 63)%Z).
  (** == that agrees with <=> *)
  Notation eqf := (fun j x y => bool_decide (cmp j x y = Some Eq)).
  Lemma eqf_ok : forall j x y, cmp j x y = Some Eq <-> eqf j x y = true.
  Proof. intros j x y. by rewrite bool_decide_eq_true. Qed.
  Lemma hist_sim : sim N w m.
  Proof. destruct (history_ok N HN dfl mf l m Hh) as (w0 & He0 & Hs). rewrite He in He0. by injection He0 as <-. Qed.
  Theorem sort_sorts x v : total_order cmp -> m !! x = Some v ->
    exists w' s, drun N dfl mf ndebug cmp (sort x) w = Some (tt, w') /\ s ≡ₚ v /\ in_order cmp s /\ same_vectors N w' (<[x := s]> m).
  Proof.
    intros Ht Hx. pose proof hist_sim as Hs. destruct (sim_some N w m x v Hs Hx) as (c & _ & [Hrow _]).
    destruct (sort_ok N dfl mf ndebug cmp eqf Ht x v m Hx Hb Hrow) as (s & Hr & Hp & Ho).
    destruct (prog_sim N HN dfl mf ndebug cmp eqf eqf_ok _ m _ _ Hr w Hs) as (w' & Hd & Hs'). exists w', s. split; [done|]. split; [done|]. split; [done|by apply sim_same].
  Qed.
  Theorem erase_if_filters x p v : m !! x = Some v ->
    exists w', drun N dfl mf ndebug cmp (erase_if x p) w = Some (tt, w') /\ same_vectors N w' (<[x := filter (fun a => p a = false) v]> m).
  Proof.
    intros Hx. pose proof hist_sim as Hs. pose proof (erase_if_ok N dfl mf ndebug cmp eqf x p v m Hx Hb) as Hr.
    destruct (prog_sim N HN dfl mf ndebug cmp eqf eqf_ok _ m _ _ Hr w Hs) as (w' & Hd & Hs'). exists w'. split; [done|by apply sim_same].
  Qed.
  Lemma vev_set x i j u b (m0 : gmap nat (list row)) : m0 !! x = Some u -> i < length u -> u !! j = Some b ->
    vev N mf cmp eqf (ESetRef (EIndex (EVec false x) i) (EIndex (EVec false x) j)) m0 = Some (XRef x i, <[x := <[i := b]> u]> m0).
  Proof.
    intros Hx Hi Hj. destruct (lookup_lt_is_Some_2 u i Hi) as [a Ha]. cbn [vev]. unfold v2.
    pose proof (vev_index N mf cmp eqf false x i m0 u a Hx Ha) as E1. pose proof (vev_index N mf cmp eqf false x j m0 u b Hx Hj) as E2. cbn [vev] in E1, E2.
    rewrite (v1_some _ _ _ _ _ E1), (v1_some _ _ _ _ _ E2). unfold elem. rewrite Hx, Hj. unfold store. by rewrite (alter_as_insert _ x u m0 Hx).
  Qed.
  Theorem swap_auto_vectors x i j v a b : m !! x = Some v -> v !! i = Some a -> v !! j = Some b ->
    vruns N dfl mf ndebug cmp eqf true (swap_auto x i j) m tt (<[x := <[j := a]> (<[i := b]> v)]> m).
  Proof.
    intros Hx Hi Hj. pose proof (lookup_lt_Some _ _ _ Hi) as Hli. pose proof (lookup_lt_Some _ _ _ Hj) as Hlj. pose proof hist_sim as Hs.
    destruct (sim_some N w m x v Hs Hx) as (c & _ & [Hrow _]). rewrite Forall_forall in Hrow. assert (Ha : is_row N a) by (apply Hrow; by eapply elem_of_list_lookup_2).
    eapply vr_auto; [done|reflexivity|reflexivity|by right|done|by eapply vev_index|unfold elem; by rewrite Hx|].
    eapply vr_ex; [reflexivity|reflexivity|by right|done|by apply vev_set|]. cbn [assign_var].
    eapply vr_ex; [cbn; unfold is_row in Ha; by rewrite Ha, Nat.eqb_refl|reflexivity|by right|eapply small_same; [done|done|apply insert_length]| |].
    { cbn [vev]. assert (Hj' : exists b', (<[i := b]> v) !! j = Some b') by (apply lookup_lt_is_Some_2; by rewrite insert_length). destruct Hj' as [b' Hj'].
      pose proof (vev_index N mf cmp eqf false x j (<[x := <[i := b]> v]> m) _ b' (lookup_insert _ _ _) Hj') as E1. cbn [vev] in E1. rewrite (v1_some _ _ _ _ _ E1). reflexivity. }
    unfold store. rewrite (alter_as_insert _ x _ _ (lookup_insert _ _ _)), insert_insert. constructor.
  Qed.
  Theorem swap_auto_loses x i j v a b : m !! x = Some v -> v !! i = Some a -> v !! j = Some b ->
    exists w', drun N dfl mf ndebug cmp (swap_auto x i j) w = Some (tt, w') /\ same_vectors N w' (<[x := <[i := b]> v]> m).
  Proof.
    intros Hx Hi Hj. pose proof (lookup_lt_Some _ _ _ Hi) as Hli. pose proof (lookup_lt_Some _ _ _ Hj) as Hlj.
    set (p := PEx (EIndex (EVec false x) i) (fun t => PEx (ESetRef (EIndex (EVec false x) i) (EIndex (EVec false x) j)) (fun _ => PEx (assign_var (EIndex (EVec false x) j) t) (fun _ => PRet tt)))).
    assert (Hr : vruns N dfl mf ndebug cmp eqf false p m tt (<[x := <[i := b]> v]> m)).
    { eapply vr_ex; [reflexivity|reflexivity|by right|done|by eapply vev_index|]. eapply vr_ex; [reflexivity|reflexivity|by right|done|by apply vev_set|]. cbn [assign_var].
      eapply vr_ex; [reflexivity|reflexivity|by right|eapply small_same; [done|done|apply insert_length]| |].
      { apply (vev_set x j i (<[i := b]> v) b); [by rewrite lookup_insert|by rewrite insert_length|by apply list_lookup_insert]. }
      rewrite insert_insert. rewrite (list_insert_id (<[i := b]> v) j b); [constructor|]. destruct (decide (i = j)) as [-> |?]; [by apply list_lookup_insert|by rewrite list_lookup_insert_ne]. }
    destruct (prog_sim N HN dfl mf ndebug cmp eqf eqf_ok _ m _ _ Hr w hist_sim) as (w' & Hd & Hs'). exists w'. split; [exact Hd|by apply sim_same].
  Qed.
End Run.
Lemma swap_auto_differs (v : list row) i j a b : v !! i = Some a -> v !! j = Some b -> a <> b -> <[j := a]> (<[i := b]> v) <> <[i := b]> v.
Proof.
  intros Hi Hj Hab H. pose proof (lookup_lt_Some _ _ _ Hj) as Hlj. apply Hab. assert (Hij : i <> j) by (intros ->; congruence).
  assert (Hl : (<[j := a]> (<[i := b]> v)) !! j = Some a) by (apply list_lookup_insert; by rewrite insert_length). rewrite H, list_lookup_insert_ne, Hj in Hl by done. by injection Hl.
Qed.
