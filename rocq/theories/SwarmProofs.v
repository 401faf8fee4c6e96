(** Proofs about the variant swarm. *)
From stdpp Require Import gmap list sorting.
From Verif Require Import AnyModel SwarmModel SwarmSpec.

(** ** Lists *)
Local Arguments values_of : simpl never.
Local Arguments set_insert : simpl never.
Local Arguments smaller : simpl never.
Lemma values_app T s t : values_of T (s ++ t) = values_of T s ++ values_of T t.
Proof. unfold values_of. by rewrite filter_app, map_app. Qed.
Lemma values_cons T x s : values_of T (x :: s) = (if decide (fst x = T) then [snd x] else []) ++ values_of T s.
Proof. unfold values_of. rewrite filter_cons. by destruct (decide _). Qed.
Lemma in_values T v s : v ∈ values_of T s <-> (T, v) ∈ s.
Proof.
  unfold values_of. rewrite elem_of_list_fmap. setoid_rewrite elem_of_list_filter. split.
  - intros ([T' v'] & -> & H1 & H2). cbn in *. by subst.
  - intros H. by exists (T, v).
Qed.
Lemma erase_back_other T U b e s : U <> T -> forall n, values_of U (seq_erase_back T b e n s) = values_of U s.
Proof.
  intros Hne. induction s as [|[W v] s IH]; intros n; [done|]. cbn [seq_erase_back fst]. destruct (decide (W = T)) as [->|Hw].
  - rewrite values_app, IH, values_cons. cbn. destruct (decide (T = U)); [congruence|]. destruct (_ && _); [done|]. rewrite values_cons. cbn. by destruct (decide (T = U)).
  - rewrite !values_cons. by rewrite IH.
Qed.
Lemma erase_back_same T b e s : b <= e -> forall n, values_of T (seq_erase_back T b e n s) = take (b - n) (values_of T s) ++ drop (e - n) (values_of T s).
Proof.
  intros Hbe. induction s as [|[W v] s IH]; intros n; [by destruct (b - n), (e - n)|]. cbn [seq_erase_back fst]. destruct (decide (W = T)) as [->|Hw].
  - rewrite values_app, IH, !values_cons. cbn [fst snd]. destruct (decide (T = T)); [|done]. cbn [app]. destruct (Nat.leb_spec b n), (Nat.ltb_spec n e); cbn [andb].
    + replace (b - n) with 0 by lia. replace (b - S n) with 0 by lia. replace (e - n) with (S (e - S n)) by lia. done.
    + replace (b - n) with 0 by lia. replace (b - S n) with 0 by lia. replace (e - n) with 0 by lia. replace (e - S n) with 0 by lia. rewrite values_cons. cbn. by destruct (decide (T = T)).
    + replace (b - n) with (S (b - S n)) by lia. replace (e - n) with (S (e - S n)) by lia. rewrite values_cons. cbn. by destruct (decide (T = T)).
    + lia.
  - rewrite !values_cons. rewrite IH. cbn. by destruct (decide (W = T)).
Qed.

(** strictly sorted lists *)
Lemma sorted_app (l1 l2 : list nat) : StronglySorted lt (l1 ++ l2) <-> StronglySorted lt l1 /\ StronglySorted lt l2 /\ forall x y, x ∈ l1 -> y ∈ l2 -> x < y.
Proof.
  induction l1 as [|a l IH]; cbn.
  - split; [intros H; split; [constructor|split; [done|]]; intros x y Hx; by apply elem_of_nil in Hx|by intros (_ & H & _)].
  - split.
    + intros H. inversion H as [|? ? H1 H2]; subst. apply IH in H1 as (Ha & Hb & Hc). rewrite Forall_forall in H2. split; [|split; [done|]].
      * constructor; [done|]. apply Forall_forall. intros x Hx. apply H2. apply elem_of_app. by left.
      * intros x y Hx Hy. apply elem_of_cons in Hx as [->|Hx]; [apply H2, elem_of_app; by right|by apply Hc].
    + intros (H & Hb & Hc). inversion H as [|? ? H1 H2]; subst. constructor.
      * apply IH. split; [done|]. split; [done|]. intros x y Hx Hy. apply Hc; [by right|done].
      * apply Forall_app. split; [done|]. apply Forall_forall. intros y Hy. apply Hc; [by left|done].
Qed.
Lemma sorted_filter (P : nat -> Prop) `{!forall x, Decision (P x)} l : StronglySorted lt l -> StronglySorted lt (filter P l).
Proof.
  induction 1 as [|a l Hs IH Hf]; [constructor|]. rewrite filter_cons. destruct (decide (P a)); [|done]. constructor; [done|].
  rewrite Forall_forall in *. intros x Hx. apply elem_of_list_filter in Hx as [_ Hx]. by apply Hf.
Qed.
Lemma sorted_nodup (l : list nat) : StronglySorted lt l -> NoDup l.
Proof.
  induction 1 as [|a l H IH Hf]; constructor; [|done]. intros Ha. rewrite Forall_forall in Hf. specialize (Hf a Ha). lia.
Qed.
Lemma sorted_eq (l1 l2 : list nat) : StronglySorted lt l1 -> StronglySorted lt l2 -> (forall v, v ∈ l1 <-> v ∈ l2) -> l1 = l2.
Proof.
  revert l2. induction l1 as [|a l IH]; intros l2 H1 H2 He.
  - destruct l2 as [|b l2]; [done|]. exfalso. apply (not_elem_of_nil b), He. by left.
  - destruct l2 as [|b l2]; [exfalso; apply (not_elem_of_nil a), He; by left|]. inversion H1 as [|? ? Hs Hf]; inversion H2 as [|? ? Hs' Hf']; subst. rewrite Forall_forall in Hf, Hf'.
    assert (a = b) as ->.
    { assert (a ∈ b :: l2) as Ha by (apply He; by left). assert (b ∈ a :: l) as Hb by (apply He; by left). apply elem_of_cons in Ha as [->|Ha]; [done|]. apply elem_of_cons in Hb as [->|Hb]; [done|].
      specialize (Hf b Hb). specialize (Hf' a Ha). lia. }
    f_equal. apply IH; [done..|]. intros v. split; intros Hv.
    + assert (v ∈ b :: l2) as H by (apply He; by right). apply elem_of_cons in H as [->|H]; [|done]. specialize (Hf b Hv). lia.
    + assert (v ∈ b :: l) as H by (apply He; by right). apply elem_of_cons in H as [->|H]; [|done]. specialize (Hf' b Hv). lia.
Qed.
Lemma set_insert_spec v l : StronglySorted lt l -> StronglySorted lt (fst (set_insert v l)) /\ forall x, x ∈ fst (set_insert v l) <-> x = v \/ x ∈ l.
Proof.
  intros H. unfold set_insert. cbn [fst]. split.
  - apply sorted_app. split; [by apply sorted_filter|]. split.
    + constructor; [by apply sorted_filter|]. apply Forall_forall. intros x Hx. by apply elem_of_list_filter in Hx as [Hx _].
    + intros x y Hx Hy. apply elem_of_list_filter in Hx as [Hx _]. apply elem_of_cons in Hy as [->|Hy]; [done|]. apply elem_of_list_filter in Hy as [Hy _]. lia.
  - intros x. rewrite elem_of_app, elem_of_cons, !elem_of_list_filter. split; [tauto|]. intros [->|Hx]; [tauto|]. destruct (Nat.lt_total x v) as [?|[?|?]]; tauto.
Qed.
(** the position of a value of a strictly sorted list is the number of smaller ones *)
Lemma sorted_rank l v : StronglySorted lt l -> forall i, l !! i = Some v -> length (filter (fun x => x < v) l) = i.
Proof.
  induction 1 as [|a l H IH Hf]; intros i Hi; [done|]. rewrite filter_cons. destruct i as [|i]; cbn in Hi.
  - injection Hi as ->. destruct (decide (v < v)); [lia|]. assert (filter (fun x => x < v) l = []) as ->; [|done]. rewrite Forall_forall in Hf.
    destruct (filter _ l) as [|y ys] eqn:E; [done|]. assert (y ∈ filter (fun x => x < v) l) as Hy by (rewrite E; by left). apply elem_of_list_filter in Hy as [Hy Hin]. specialize (Hf y Hin). lia.
  - rewrite Forall_forall in Hf. specialize (Hf v (elem_of_list_lookup_2 _ _ _ Hi)). destruct (decide (a < v)); [|lia]. cbn. by rewrite (IH i Hi).
Qed.
Lemma nodup_values T s : NoDup s -> NoDup (values_of T s).
Proof.
  induction 1 as [|[W v] s Hn H IH]; [constructor|]. rewrite values_cons. cbn. destruct (decide (W = T)) as [->|]; [|done]. cbn. constructor; [|done]. by rewrite in_values.
Qed.
Lemma sorted_perm T s l : NoDup s -> StronglySorted lt l -> (forall v, v ∈ l <-> (T, v) ∈ s) -> l ≡ₚ values_of T s.
Proof.
  intros Hs Hl He. apply NoDup_Permutation; [by apply sorted_nodup|by apply nodup_values|]. intros v. by rewrite He, in_values.
Qed.
Lemma filter_perm_length (P : nat -> Prop) `{!forall x, Decision (P x)} (l l' : list nat) : l ≡ₚ l' -> length (filter P l) = length (filter P l').
Proof. intros Hp. by rewrite Hp. Qed.

Section Swarm.
  Context (cont : nat -> nat) (Hcont : forall T U, cont T = cont U -> T = U) (k : ckind) (Ts : list nat) (HTs : NoDup Ts).

  Lemma get_index_iff X i : get_index cont Ts X = Some i <-> exists T, Ts !! i = Some T /\ cont T = X.
  Proof.
    unfold get_index. split.
    - destruct (filter _ _) as [|j [|? ?]] eqn:E; try done. intros [= ->]. assert (i ∈ filter (fun i => map cont Ts !! i = Some X) (seq 0 (length Ts))) as H by (rewrite E; by left).
      apply elem_of_list_filter in H as [H _]. rewrite list_lookup_fmap in H. destruct (Ts !! i) as [T|]; [|done]. cbn in H. injection H as H. by exists T.
    - intros (T & HT & <-). assert (Huniq : forall j, map cont Ts !! j = Some (cont T) -> j = i).
      { intros j Hj. rewrite list_lookup_fmap in Hj. destruct (Ts !! j) as [U|] eqn:HU; [|done]. cbn in Hj. injection Hj as Hj. apply Hcont in Hj as ->. by eapply NoDup_lookup. }
      assert (Hi : i ∈ filter (fun i => map cont Ts !! i = Some (cont T)) (seq 0 (length Ts))).
      { apply elem_of_list_filter. split; [by rewrite list_lookup_fmap, HT|]. apply elem_of_seq. apply lookup_lt_Some in HT. lia. }
      assert (Hnd : NoDup (filter (fun i => map cont Ts !! i = Some (cont T)) (seq 0 (length Ts)))) by (apply NoDup_filter, NoDup_seq).
      destruct (filter _ _) as [|j l] eqn:E; [by apply elem_of_nil in Hi|].
      assert (Hall : forall m, m ∈ j :: l -> m = i). { intros m Hm. rewrite <- E in Hm. apply elem_of_list_filter in Hm as [Hm _]. by apply Huniq. }
      destruct l as [|m l]; [by rewrite (Hall j) by by left|]. exfalso. inversion Hnd as [|? ? Hn _]; subst. apply Hn. rewrite (Hall j) by by left. rewrite (Hall m) by by (right; left). by left.
  Qed.
  Lemma get_index_in T : T ∈ Ts -> exists i, get_index cont Ts (cont T) = Some i /\ Ts !! i = Some T.
  Proof. intros H. apply elem_of_list_lookup in H as (i & Hi). exists i. split; [apply get_index_iff; by exists T|done]. Qed.
  Lemma get_index_T T i : get_index cont Ts (cont T) = Some i -> Ts !! i = Some T.
  Proof. intros H. apply get_index_iff in H as (U & HU & Hc). apply Hcont in Hc. by subst. Qed.

  (** a swarm that shows a sequence of variants *)
  Definition repr (c : swarm) (s : list variant) : Prop :=
    length c = length Ts /\ (k = KSet -> NoDup s) /\ (forall x, x ∈ s -> fst x ∈ Ts) /\ forall i T, Ts !! i = Some T -> exists l, c !! i = Some l /\ shown k T s l.

  Lemma repr_view c s T : repr c s -> T ∈ Ts -> exists l, s_view cont Ts T c = Some l /\ shown k T s l.
  Proof. intros (_ & _ & _ & H) HT. destruct (get_index_in T HT) as (i & Hi & Hl). unfold s_view. rewrite Hi. by apply H. Qed.

  Lemma at_ok c s s' T f : repr c s -> T ∈ Ts ->
    (k = KSet -> NoDup s') -> (forall x, x ∈ s' -> fst x ∈ Ts) ->
    (forall l, shown k T s l -> exists l' r, f l = Some (l', r) /\ shown k T s' l') ->
    (forall U l, U <> T -> shown k U s l -> shown k U s' l) ->
    exists c' r, at_container cont Ts (cont T) f c = SOk (c', r) /\ repr c' s' /\ (forall U, U <> T -> s_view cont Ts U c' = s_view cont Ts U c) /\
      exists l l', s_view cont Ts T c = Some l /\ s_view cont Ts T c' = Some l' /\ f l = Some (l', r).
  Proof.
    intros Hr HT Hnd Hin Hf Ho. destruct (get_index_in T HT) as (i & Hi & HiT). destruct Hr as (Hlen & _ & _ & Hr). destruct (Hr i T HiT) as (l & Hl & Hsh).
    destruct (Hf l Hsh) as (l' & r & Hfl & Hsh'). unfold at_container. rewrite Hi, Hl, Hfl. exists (<[i := l']> c), r. split; [done|].
    assert (Hil : i < length c) by by apply lookup_lt_Some in Hl.
    split; [|split].
    - split; [by rewrite insert_length|]. split; [done|]. split; [done|]. intros j U HU. destruct (decide (j = i)) as [->|Hne].
      + rewrite list_lookup_insert by done. rewrite HiT in HU. injection HU as <-. by exists l'.
      + rewrite list_lookup_insert_ne by done. destruct (Hr j U HU) as (m & Hm & Hs). exists m. split; [done|]. apply Ho; [|done]. intros ->. apply Hne. by eapply NoDup_lookup.
    - intros U HU. unfold s_view. destruct (get_index cont Ts (cont U)) as [j|] eqn:Hj; [|done]. apply get_index_T in Hj. apply list_lookup_insert_ne. intros ->. congruence.
    - exists l, l'. unfold s_view. rewrite Hi, list_lookup_insert by done. done.
  Qed.

  (** ** The single operations *)
  Lemma insert_shown T v s l : shown k T s l -> shown k T (seq_insert k T v s) (fst (c_insert k v l)).
  Proof.
    destruct k; cbn.
    - intros ->. rewrite values_app, values_cons. cbn. by destruct (decide (T = T)).
    - intros [Hs He]. destruct (set_insert_spec v l Hs) as [H1 H2]. split; [done|]. intros x. cbn in H2. rewrite H2, He. case_bool_decide as Hb.
      + split; [|tauto]. by intros [->|?].
      + rewrite elem_of_app, elem_of_list_singleton. split; [intros [->|?]; tauto|intros [?|[= ->]]; tauto].
  Qed.
  Lemma insert_other T v U s l : U <> T -> shown k U s l -> shown k U (seq_insert k T v s) l.
  Proof.
    intros Hne. destruct k; cbn.
    - intros ->. rewrite values_app, values_cons. cbn. destruct (decide (T = U)); [congruence|]. by rewrite app_nil_r.
    - intros [Hs He]. split; [done|]. intros x. rewrite He. case_bool_decide; [done|]. rewrite elem_of_app, elem_of_list_singleton. split; [by left|]. intros [?|[= -> ->]]; done.
  Qed.
  Lemma insert_nodup T v s : (k = KSet -> NoDup s) -> k = KSet -> NoDup (seq_insert k T v s).
  Proof.
    intros H ->. specialize (H eq_refl). cbn. case_bool_decide as Hb; [done|]. apply NoDup_app. split; [done|]. split; [|apply NoDup_singleton].
    intros x Hx Hy. apply elem_of_list_singleton in Hy as ->. done.
  Qed.
  Lemma insert_types T v s : T ∈ Ts -> (forall x, x ∈ s -> fst x ∈ Ts) -> forall x, x ∈ seq_insert k T v s -> fst x ∈ Ts.
  Proof.
    intros HT H x. destruct k; cbn; [|case_bool_decide; [apply H|]]; (rewrite elem_of_app, elem_of_list_singleton; intros [?| ->]; [by apply H|done]).
  Qed.
  Lemma emplace_same v l : fst (c_emplace k v l) = fst (c_insert k v l).
  Proof. by destruct k. Qed.
  Lemma insert_all_fold vs : forall l, fst (c_insert_all k vs l) = fold_left (fun acc v => fst (c_insert k v acc)) vs l.
  Proof.
    destruct k; [|done]. cbn. induction vs as [|v vs IH]; intros l; [by rewrite app_nil_r|]. cbn. rewrite <- IH. by rewrite <- app_assoc.
  Qed.
  Lemma fold_shown T vs : forall s l, shown k T s l -> shown k T (fold_left (fun s v => seq_insert k T v s) vs s) (fold_left (fun acc v => fst (c_insert k v acc)) vs l).
  Proof. induction vs as [|v vs IH]; intros s l H; [done|]. cbn. apply IH. by apply insert_shown. Qed.
  Lemma fold_other T vs U : U <> T -> forall s l, shown k U s l -> shown k U (fold_left (fun s v => seq_insert k T v s) vs s) l.
  Proof. intros Hne. induction vs as [|v vs IH]; intros s l H; [done|]. cbn. apply IH. by apply insert_other. Qed.
  Lemma fold_nodup T vs : forall s, (k = KSet -> NoDup s) -> k = KSet -> NoDup (fold_left (fun s v => seq_insert k T v s) vs s).
  Proof. induction vs as [|v vs IH]; intros s H; [done|]. cbn. apply IH. by apply insert_nodup. Qed.
  Lemma fold_types T vs : T ∈ Ts -> forall s, (forall x, x ∈ s -> fst x ∈ Ts) -> forall x, x ∈ fold_left (fun s v => seq_insert k T v s) vs s -> fst x ∈ Ts.
  Proof. intros HT. induction vs as [|v vs IH]; intros s H; [done|]. cbn. apply IH. by apply insert_types. Qed.

  Lemma shown_length T s l : (k = KSet -> NoDup s) -> shown k T s l -> length l = length (values_of T s).
  Proof.
    destruct k; cbn; intros Hn; [by intros ->|]. intros [Hs He]. by rewrite (sorted_perm T s l (Hn eq_refl) Hs He).
  Qed.
  Lemma erase_sub b e T s x : x ∈ seq_erase k T b e s -> x ∈ s.
  Proof.
    destruct k; cbn.
    - generalize 0. induction s as [|y s IH]; intros n; [done|]. cbn. destruct (decide (fst y = T)).
      + rewrite elem_of_app, elem_of_cons. intros [H|H]; [|right; by eapply IH]. destruct (_ && _); [by apply elem_of_nil in H|]. apply elem_of_list_singleton in H. by left.
      + rewrite !elem_of_cons. intros [->|H]; [by left|right; by eapply IH].
    - intros H. by apply elem_of_list_filter in H as [_ ?].
  Qed.
  Lemma erase_shown T b e s l : (k = KSet -> NoDup s) -> b <= e -> e <= length l -> shown k T s l -> shown k T (seq_erase k T b e s) (take b l ++ drop e l).
  Proof.
    destruct k; cbn; intros Hn Hbe He.
    - intros ->. rewrite (erase_back_same T b e s Hbe 0). by rewrite !Nat.sub_0_r.
    - intros [Hs Hin]. specialize (Hn eq_refl).
      assert (Hrank : forall i v, l !! i = Some v -> smaller T v s = i).
      { intros i v Hi. unfold smaller. rewrite <- (filter_perm_length _ _ _ (sorted_perm T s l Hn Hs Hin)). by apply sorted_rank. }
      split.
      + replace l with (take b l ++ take (e - b) (drop b l) ++ drop e l) in Hs.
        * apply sorted_app in Hs as (H1 & H2 & H3). apply sorted_app in H2 as (_ & H4 & _). apply sorted_app. split; [done|]. split; [done|].
          intros x y Hx Hy. apply H3; [done|]. apply elem_of_app. by right.
        * replace (drop e l) with (drop (e - b) (drop b l)) by (rewrite drop_drop; f_equal; lia). by rewrite !take_drop.
      + intros v. rewrite elem_of_list_filter, <- Hin. cbn. rewrite elem_of_app. split.
        * intros [H|H].
          -- apply elem_of_take in H as (i & Hi & Hlt). split; [|by apply elem_of_list_lookup_2 in Hi]. rewrite (Hrank i v Hi). lia.
          -- apply elem_of_list_lookup in H as (i & Hi). rewrite lookup_drop in Hi. split; [|by apply elem_of_list_lookup_2 in Hi]. rewrite (Hrank _ v Hi). lia.
        * intros [H1 H2]. apply elem_of_list_lookup in H2 as (i & Hi). rewrite (Hrank i v Hi) in H1. destruct (decide (i < b)).
          -- left. apply elem_of_take. by exists i.
          -- right. apply elem_of_list_lookup. exists (i - e). rewrite lookup_drop. assert (e <= i) by (destruct (decide (e <= i)); [done|exfalso; apply H1; lia]). by replace (e + (i - e)) with i by lia.
  Qed.
  Lemma erase_other T b e U s l : U <> T -> shown k U s l -> shown k U (seq_erase k T b e s) l.
  Proof.
    intros Hne. destruct k; cbn.
    - intros ->. by rewrite erase_back_other.
    - intros [Hs He]. split; [done|]. intros v. rewrite elem_of_list_filter, He. cbn. split; [intros H; split; [intros [? _]; congruence|done]|by intros [_ ?]].
  Qed.
  Lemma erase_nodup T b e s : (k = KSet -> NoDup s) -> k = KSet -> NoDup (seq_erase k T b e s).
  Proof. intros H ->. cbn. by apply NoDup_filter, H. Qed.

  (** ** Histories *)
  Definition reprs (w : sworld) (m : gmap nat (list variant)) : Prop := forall x, match w !! x, m !! x with Some c, Some s => repr c s | None, None => True | _, _ => False end.

  Lemma reprs_get w m x s : reprs w m -> m !! x = Some s -> exists c, w !! x = Some c /\ repr c s.
  Proof. intros H Hx. specialize (H x). rewrite Hx in H. destruct (w !! x) as [c|]; [|done]. by exists c. Qed.
  Lemma reprs_set w m x c s : reprs w m -> repr c s -> reprs (<[x := c]> w) (<[x := s]> m).
  Proof. intros H Hc y. destruct (decide (y = x)) as [->|Hne]; [by rewrite !lookup_insert|]. rewrite !lookup_insert_ne by done. apply H. Qed.
  Lemma reprs_ext w w' m m' : (forall x, w !! x = w' !! x) -> (forall x, m !! x = m' !! x) -> reprs w m -> reprs w' m'.
  Proof. intros H1 H2 H x. rewrite <- H1, <- H2. apply H. Qed.
  Lemma repr_empty : repr (map (fun _ => []) Ts) [].
  Proof.
    split; [by rewrite map_length|]. split; [constructor|]. split; [intros x Hx; by apply elem_of_nil in Hx|]. intros i T Hi. exists []. split; [by rewrite list_lookup_fmap, Hi|].
    destruct k; cbn; [done|]. split; [constructor|]. intros v. split; intros H; by apply elem_of_nil in H.
  Qed.
  Lemma repr_emptied c s : repr c s -> repr (map (fun _ => []) c) [].
  Proof.
    intros (Hl & _ & _ & H). destruct repr_empty as (_ & H1 & H2 & H3). split; [by rewrite map_length|]. split; [done|]. split; [done|]. intros i T Hi. destruct (H i T Hi) as (l & Hc & _). exists [].
    rewrite list_lookup_fmap, Hc. split; [done|]. destruct (H3 i T Hi) as (l' & Hl' & Hs). rewrite list_lookup_fmap, Hi in Hl'. cbn in Hl'. by injection Hl' as <-.
  Qed.
  Lemma zip_fst (c d : swarm) : length c = length d -> zip_with (fun a _ => a) c d = c.
  Proof. revert d. induction c as [|a c IH]; intros [|b d] H; try done. cbn. f_equal. apply IH. by injection H. Qed.
  Lemma zip_snd (c d : swarm) : length c = length d -> zip_with (fun _ b => b) c d = d.
  Proof. revert d. induction c as [|a c IH]; intros [|b d] H; try done. cbn. f_equal. apply IH. by injection H. Qed.

  (** what every operation on a container of one type does *)
  Definition changes (T : nat) (f : list nat -> option (list nat * sret)) (c c' : swarm) (r : sret) : Prop :=
    (forall U, U <> T -> s_view cont Ts U c' = s_view cont Ts U c) /\
    exists l l', s_view cont Ts T c = Some l /\ s_view cont Ts T c' = Some l' /\ f l = Some (l', r).

  Lemma insert_ok T v c s : repr c s -> T ∈ Ts -> exists c' r, s_insert cont k Ts T v c = SOk (c', r) /\ repr c' (seq_insert k T v s) /\ changes T (fun l => Some (c_insert k v l)) c c' r.
  Proof.
    intros Hr HT. pose proof Hr as (_ & Hn & Hty & _). destruct (at_ok c s (seq_insert k T v s) T (fun l => Some (c_insert k v l)) Hr HT) as (c' & r & H1 & H2 & H3).
    - by apply insert_nodup.
    - by apply insert_types.
    - intros l Hl. exists (fst (c_insert k v l)), (snd (c_insert k v l)). split; [by destruct (c_insert k v l)|]. by apply insert_shown.
    - intros U l. apply insert_other.
    - by exists c', r.
  Qed.
  Lemma emplace_ok T v c s : repr c s -> T ∈ Ts -> exists c' r, s_emplace cont k Ts T v c = SOk (c', r) /\ repr c' (seq_insert k T v s) /\ changes T (fun l => Some (c_emplace k v l)) c c' r.
  Proof.
    intros Hr HT. pose proof Hr as (_ & Hn & Hty & _). destruct (at_ok c s (seq_insert k T v s) T (fun l => Some (c_emplace k v l)) Hr HT) as (c' & r & H1 & H2 & H3).
    - by apply insert_nodup.
    - by apply insert_types.
    - intros l Hl. exists (fst (c_emplace k v l)), (snd (c_emplace k v l)). split; [by destruct (c_emplace k v l)|]. rewrite emplace_same. by apply insert_shown.
    - intros U l. apply insert_other.
    - by exists c', r.
  Qed.
  Lemma insert_list_ok T vs c s : repr c s -> T ∈ Ts -> exists c' r, s_insert_list cont k Ts T vs c = SOk (c', r) /\ repr c' (fold_left (fun s v => seq_insert k T v s) vs s) /\
    changes T (fun l => Some (c_insert_all k vs l)) c c' r.
  Proof.
    intros Hr HT. pose proof Hr as (_ & Hn & Hty & _). destruct (at_ok c s (fold_left (fun s v => seq_insert k T v s) vs s) T (fun l => Some (c_insert_all k vs l)) Hr HT) as (c' & r & H1 & H2 & H3).
    - by apply fold_nodup.
    - by apply fold_types.
    - intros l Hl. exists (fst (c_insert_all k vs l)), (snd (c_insert_all k vs l)). split; [by destruct (c_insert_all k vs l)|]. rewrite insert_all_fold. by apply fold_shown.
    - intros U l Hne. by apply fold_other.
    - by exists c', r.
  Qed.
  Lemma erase_ok T b e c s : repr c s -> T ∈ Ts -> b <= e <= length (values_of T s) -> exists c' r, at_container cont Ts (cont T) (c_erase b e) c = SOk (c', r) /\ repr c' (seq_erase k T b e s) /\
    changes T (c_erase b e) c c' r.
  Proof.
    intros Hr HT Hbe. pose proof Hr as (_ & Hn & Hty & _). destruct (at_ok c s (seq_erase k T b e s) T (c_erase b e) Hr HT) as (c' & r & H1 & H2 & H3).
    - by apply erase_nodup.
    - intros x Hx. apply Hty. by eapply erase_sub.
    - intros l Hl. pose proof (shown_length T s l Hn Hl) as Hlen. exists (take b l ++ drop e l), (RIdx b). unfold c_erase. destruct (Nat.leb_spec b e); [|lia]. destruct (Nat.leb_spec e (length l)); [|lia].
      split; [done|]. apply erase_shown; [done|lia..|done].
    - intros U l. apply erase_other.
    - by exists c', r.
  Qed.

  Lemma on_ok (f : swarm -> sres (swarm * sret)) (g : list variant -> list variant) w m x s : reprs w m -> m !! x = Some s ->
    (forall c, repr c s -> exists c' r, f c = SOk (c', r) /\ repr c' (g s)) -> exists w' r, on x f w = SOk (w', r) /\ reprs w' (alter g x m).
  Proof.
    intros Hr Hx Hf. destruct (reprs_get w m x s Hr Hx) as (c & Hc & Hs). unfold on. rewrite Hc. destruct (Hf c Hs) as (c' & r & -> & Hs'). eexists _, r. split; [done|].
    assert (alter g x m = <[x := g s]> m) as ->; [|by apply reprs_set]. apply map_eq. intros y. destruct (decide (y = x)) as [->|Hne].
    - by rewrite lookup_alter, Hx, lookup_insert.
    - by rewrite lookup_alter_ne, lookup_insert_ne.
  Qed.
  Lemma step_ok o w m : reprs w m -> seq_legal Ts o m -> exists w' r, sstep cont k Ts o w = SOk (w', r) /\ reprs w' (seq_step k o m).
  Proof.
    intros Hr. destruct o as [x|x y|x y|x T v|x T vs|x T v|x T i|x T b e|x y]; cbn [seq_legal sstep seq_step].
    - intros _. eexists _, _. split; [done|]. apply reprs_set; [done|apply repr_empty].
    - intros (_ & s & Hy). rewrite Hy. destruct (reprs_get w m y s Hr Hy) as (c & -> & Hs). eexists _, _. split; [done|]. by apply reprs_set.
    - intros (_ & s & Hy). rewrite Hy. destruct (reprs_get w m y s Hr Hy) as (c & -> & Hs). eexists _, _. split; [done|]. apply reprs_set; [|done]. apply reprs_set; [done|by eapply repr_emptied].
    - intros ((s & Hx) & HT). apply (on_ok _ _ w m x s Hr Hx). intros c Hc. destruct (insert_ok T v c s Hc HT) as (c' & r & H1 & H2 & _). by exists c', r.
    - intros ((s & Hx) & HT). apply (on_ok _ _ w m x s Hr Hx). intros c Hc. destruct (insert_list_ok T vs c s Hc HT) as (c' & r & H1 & H2 & _). by exists c', r.
    - intros ((s & Hx) & HT). apply (on_ok _ _ w m x s Hr Hx). intros c Hc. destruct (emplace_ok T v c s Hc HT) as (c' & r & H1 & H2 & _). by exists c', r.
    - intros (HT & s & Hx & Hi). apply (on_ok _ _ w m x s Hr Hx). intros c Hc. destruct (erase_ok T i (S i) c s Hc HT) as (c' & r & H1 & H2 & _); [lia|]. by exists c', r.
    - intros (HT & s & Hx & Hi). apply (on_ok _ _ w m x s Hr Hx). intros c Hc. destruct (erase_ok T b e c s Hc HT Hi) as (c' & r & H1 & H2 & _). by exists c', r.
    - intros ((s & Hx) & t & Hy). rewrite Hx, Hy. destruct (reprs_get w m x s Hr Hx) as (c & -> & Hc). destruct (reprs_get w m y t Hr Hy) as (d & -> & Hd). eexists _, _. split; [done|].
      assert (length c = length d) by (destruct Hc as [-> _], Hd as [-> _]; done). rewrite zip_fst, zip_snd by done. by repeat apply reprs_set.
  Qed.
  Lemma sexec_app l1 l2 w : sexec cont k Ts (l1 ++ l2) w = match sexec cont k Ts l1 w with SOk w' => sexec cont k Ts l2 w' | SBad e => SBad e end.
  Proof. revert w. induction l1 as [|o l IH]; intros w; [done|]. cbn. destruct (sstep cont k Ts o w) as [[w' r]|]; [apply IH|done]. Qed.
  Lemma history_ok l m : seq_history k Ts l m -> exists w, sexec cont k Ts l ∅ = SOk w /\ reprs w m.
  Proof.
    induction 1 as [|l o m H IH Ho].
    - exists ∅. split; [done|]. intros x. by rewrite !lookup_empty.
    - destruct IH as (w & Hw & Hr). destruct (step_ok o w m Hr Ho) as (w' & r & Hs & Hr'). exists w'. rewrite sexec_app, Hw. cbn. by rewrite Hs.
  Qed.

  Lemma swarm_is_sequence : forall l m, seq_history k Ts l m -> exists w, sexec cont k Ts l ∅ = SOk w /\
    (forall x, is_Some (w !! x) <-> is_Some (m !! x)) /\
    (forall x c s T, w !! x = Some c -> m !! x = Some s -> T ∈ Ts -> exists v, s_view cont Ts T c = Some v /\ shown k T s v).
  Proof.
    intros l m H. destruct (history_ok l m H) as (w & Hw & Hr). exists w. split; [done|]. split.
    - intros x. specialize (Hr x). destruct (w !! x), (m !! x); try done; split; intros [? ?]; try done; by eexists.
    - intros x c s T Hc Hs HT. specialize (Hr x). rewrite Hc, Hs in Hr. by apply repr_view.
  Qed.

  (** one operation *)
  Lemma on_changes w m x s T f : reprs w m -> m !! x = Some s ->
    (forall c, repr c s -> exists c' r, f c = SOk (c', r) /\ forall U, U <> T -> s_view cont Ts U c' = s_view cont Ts U c) ->
    forall w' r, on x f w = SOk (w', r) -> (forall y, y <> x -> w' !! y = w !! y) /\
    exists c c', w !! x = Some c /\ w' !! x = Some c' /\ forall U, U <> T -> s_view cont Ts U c' = s_view cont Ts U c.
  Proof.
    intros Hr Hx Hf w' r Ho. destruct (reprs_get w m x s Hr Hx) as (c & Hc & Hs). unfold on in Ho. rewrite Hc in Ho. destruct (Hf c Hs) as (c' & r' & Hfc & Hv). rewrite Hfc in Ho. injection Ho as <- <-.
    split; [intros y Hy; by rewrite lookup_insert_ne|]. exists c, c'. by rewrite lookup_insert.
  Qed.
  Lemma swarm_others : forall l m w o x T w' r, seq_history k Ts l m -> sexec cont k Ts l ∅ = SOk w -> seq_legal Ts o m -> sop_target o = Some (x, T) -> sstep cont k Ts o w = SOk (w', r) ->
    (forall y, y <> x -> w' !! y = w !! y) /\
    exists c c', w !! x = Some c /\ w' !! x = Some c' /\ forall U, U <> T -> s_view cont Ts U c' = s_view cont Ts U c.
  Proof.
    intros l m w o x T w' r H Hw Ho Ht Hs. destruct (history_ok l m H) as (w0 & Hw0 & Hr). rewrite Hw in Hw0. injection Hw0 as <-.
    destruct o as [?|? ?|? ?|x' T' v|x' T' vs|x' T' v|x' T' i|x' T' b e|? ?]; try done; cbn in Ht; injection Ht as -> ->; cbn [seq_legal sstep] in *.
    - destruct Ho as ((s & Hx) & HT). eapply on_changes; [done..| |done]. intros c Hc. destruct (insert_ok T v c s Hc HT) as (c' & r' & ? & _ & ? & _). by exists c', r'.
    - destruct Ho as ((s & Hx) & HT). eapply on_changes; [done..| |done]. intros c Hc. destruct (insert_list_ok T vs c s Hc HT) as (c' & r' & ? & _ & ? & _). by exists c', r'.
    - destruct Ho as ((s & Hx) & HT). eapply on_changes; [done..| |done]. intros c Hc. destruct (emplace_ok T v c s Hc HT) as (c' & r' & ? & _ & ? & _). by exists c', r'.
    - destruct Ho as (HT & s & Hx & Hi). eapply on_changes; [done..| |done]. intros c Hc. destruct (erase_ok T i (S i) c s Hc HT) as (c' & r' & ? & _ & ? & _); [lia|]. by exists c', r'.
    - destruct Ho as (HT & s & Hx & Hi). eapply on_changes; [done..| |done]. intros c Hc. destruct (erase_ok T b e c s Hc HT Hi) as (c' & r' & ? & _ & ? & _). by exists c', r'.
  Qed.

  (** ** What is returned *)
  Lemma emplace_result : forall l m w x T v w' r, seq_history k Ts l m -> sexec cont k Ts l ∅ = SOk w -> seq_legal Ts (SEmplace x T v) m -> sstep cont k Ts (SEmplace x T v) w = SOk (w', r) ->
    exists c' u n, w' !! x = Some c' /\ s_view cont Ts T c' = Some u /\ u !! n = Some v /\
      match k with
      | KBack => r = RIdx n /\ S n = length u
      | KSet => exists s b, m !! x = Some s /\ r = RPair n b /\ (b = true <-> ~ (T, v) ∈ s)
      end.
  Proof.
    intros l m w x T v w' r H Hw ((s & Hx) & HT) Hs. destruct (history_ok l m H) as (w0 & Hw0 & Hr). rewrite Hw in Hw0. injection Hw0 as <-. cbn [sstep] in Hs.
    destruct (reprs_get w m x s Hr Hx) as (c & Hc & Hrc). unfold on in Hs. rewrite Hc in Hs. destruct (emplace_ok T v c s Hrc HT) as (c' & r' & He & _ & _ & u & u' & Hu & Hu' & Hf). rewrite He in Hs. injection Hs as <- <-.
    destruct (repr_view c s T Hrc HT) as (u0 & Hu0 & Hsh). rewrite Hu in Hu0. injection Hu0 as <-.
    destruct k eqn:Hk; cbn in Hf; injection Hf as <- <-.
    - exists c', (u ++ [v]), (length u). rewrite lookup_insert. split; [done|]. split; [done|]. split; [by rewrite list_lookup_middle|]. split; [done|]. rewrite app_length. cbn. lia.
    - exists c', (filter (fun x => x < v) u ++ v :: filter (fun x => v < x) u), (length (filter (fun x => x < v) u)). rewrite lookup_insert. split; [done|]. split; [done|]. split; [by rewrite list_lookup_middle|].
      exists s, (negb (bool_decide (v ∈ u))). split; [done|]. split; [done|]. destruct Hsh as [_ Hin]. rewrite <- Hin. case_bool_decide; cbn; split; try done.
  Qed.

  (** the range overload *)
  Lemma range_insert_ill_formed : (forall T, cont T <> T) -> forall T vs c, s_insert_range cont k Ts T vs c = SBad UbIllFormed.
  Proof.
    intros Hc T vs c. unfold s_insert_range. destruct (get_index cont Ts T) as [i|] eqn:Hi; [|done]. apply get_index_iff in Hi as (U & HU & <-). rewrite HU. case_bool_decide as Hb; [|done].
    injection Hb as Hb. by destruct (Hc U).
  Qed.

  (** ** Sizes *)
  Lemma size_is_sum : Ts <> [] -> forall l m w x c, seq_history k Ts l m -> sexec cont k Ts l ∅ = SOk w -> w !! x = Some c ->
    exists cs s, Forall2 (fun T n => s_count cont Ts T c = Some n) Ts cs /\ s_size c = Some (foldr Nat.add 0 cs) /\
      m !! x = Some s /\ Forall2 (fun T n => n = length (values_of T s)) Ts cs /\ s_size c = Some (length s) /\ (s_empty c = true <-> s = []).
  Proof.
    intros Hne l m w x c H Hw Hc. destruct (history_ok l m H) as (w0 & Hw0 & Hr). rewrite Hw in Hw0. injection Hw0 as <-. specialize (Hr x). rewrite Hc in Hr. destruct (m !! x) as [s|]; [|done].
    destruct Hr as (Hlen & Hnd & Hty & Hv). exists (map length c), s.
    assert (Hcnt : Forall2 (fun T n => s_count cont Ts T c = Some n) Ts (map length c)).
    { apply Forall2_same_length_lookup_2; [by rewrite map_length|]. intros i T n HT Hn. unfold s_count, s_view. rewrite (proj2 (get_index_iff (cont T) i)) by by exists T. by rewrite <- list_lookup_fmap. }
    assert (Hval : Forall2 (fun T n => n = length (values_of T s)) Ts (map length c)).
    { apply Forall2_same_length_lookup_2; [by rewrite map_length|]. intros i T n HT Hn. destruct (Hv i T HT) as (u & Hu & Hs). rewrite list_lookup_fmap, Hu in Hn. cbn in Hn. injection Hn as <-. by apply shown_length. }
    assert (Hsz : s_size c = Some (foldr Nat.add 0 (map length c))). { destruct c; [|done]. destruct Ts; done. }
    assert (Hsum : foldr Nat.add 0 (map length c) = length s).
    { clear -Hty Hval HTs. assert (Hfil : forall (Us : list nat) ns, NoDup Us -> Forall2 (fun T n => n = length (values_of T s)) Us ns -> foldr Nat.add 0 ns = length (filter (fun x => fst x ∈ Us) s)).
      { intros Us. induction Us as [|T Us IH]; intros ns Hn HF; inversion HF as [|? n ? ns' H1 H2]; subst; clear HF.
        - cbn. clear. induction s as [|x s IH]; [done|]. rewrite filter_cons. destruct (decide (fst x ∈ [])) as [Hx|]; [by apply elem_of_nil in Hx|done].
        - inversion Hn as [|? ? Hnin Hnd]; subst. cbn. rewrite (IH ns' Hnd H2). unfold values_of. rewrite map_length. clear -Hnin.
          induction s as [|x s IHs]; [done|]. rewrite !filter_cons. destruct (decide (fst x = T)) as [<-|Hx].
          + destruct (decide (fst x ∈ Us)); [done|]. destruct (decide (fst x ∈ fst x :: Us)) as [|Hn]; [|exfalso; apply Hn; by left]. cbn [length]. rewrite Nat.add_succ_l. f_equal; exact (IHs).
          + destruct (decide (fst x ∈ Us)) as [Hu|Hu]; destruct (decide (fst x ∈ T :: Us)) as [Hc|Hc].
            * cbn [length]. rewrite Nat.add_succ_r. f_equal; exact (IHs).
            * exfalso. apply Hc. by right.
            * apply elem_of_cons in Hc as [?|?]; done.
            * done. }
      rewrite (Hfil Ts _ HTs Hval). clear -Hty. induction s as [|x s IH]; [done|]. rewrite filter_cons. destruct (decide (fst x ∈ Ts)) as [|Hn]; [|exfalso; apply Hn, Hty; by left]. cbn. f_equal. apply IH.
      intros y Hy. apply Hty. by right. }
    split; [done|]. split; [done|]. split; [done|]. split; [done|]. split; [by rewrite Hsz, Hsum|].
    assert (s_empty c = true <-> foldr Nat.add 0 (map length c) = 0) as ->.
    { clear. induction c as [|[|a u] c IH]; [done|exact IH|]. cbn. split; [done|lia]. }
    rewrite Hsum. destruct s; cbn; split; done.
  Qed.

  (** ** Visiting *)
  Definition in_order (view : nat -> option (list nat)) (Types : list nat) : list variant :=
    concat (map (fun T => map (pair T) (default [] (view T))) Types).
  Section Visit.
    Context {St R : Type} (v : @visitor St R) (out : @out_visitor St R).
    Lemma one_by_one_app (s t : list variant) u : one_by_one v out (s ++ t) u =
      let '(ok, u', s') := one_by_one v out s u in
      if (ok : bool) then let '(ok', u'', t') := one_by_one v out t u' in (ok', u'', s' ++ t') else (false, u', s' ++ t).
    Proof.
      revert u. induction s as [|[T x] s IH]; intros u; cbn; [by destruct (one_by_one v out t u) as [[? ?] ?]|].
      destruct (v T x u) as [[[u1 x1] r]|[u1 x1]]; [|done]. destruct (match r with Some r => out r u1 | None => Some u1 end) as [u2|]; [|done].
      rewrite IH. destruct (one_by_one v out s u2) as [[ok u3] s3]. destruct ok; [|done]. by destruct (one_by_one v out t u3) as [[? ?] ?].
    Qed.
    Lemma for_each_one T l : forall u, one_by_one v out (map (pair T) l) u = let '(ok, u', l') := for_each v out T l u in (ok, u', map (pair T) l').
    Proof.
      induction l as [|x l IH]; intros u; [done|]. cbn. unfold apply_visitor. destruct (v T x u) as [[[u1 x1] [r|]]|[u1 x1]]; [|..|done].
      - destruct (out r u1) as [u2|]; [|done]. rewrite IH. by destruct (for_each v out T l u2) as [[? ?] ?].
      - rewrite IH. by destruct (for_each v out T l u1) as [[? ?] ?].
    Qed.

    (** different types: the visitor may change the values *)
    Lemma visit_ok Types : forall c u, length c = length Ts -> NoDup Types -> (forall T, T ∈ Types -> T ∈ Ts) ->
      let '(ok, u', s') := one_by_one v out (in_order (fun T => s_view cont Ts T c) Types) u in
      exists c', s_visit cont Ts v out Types c u = (if ok : bool then VDone u' c' else VThrow u' c') /\ length c' = length Ts /\
        in_order (fun T => s_view cont Ts T c') Types = s' /\ forall T, ~ T ∈ Types -> s_view cont Ts T c' = s_view cont Ts T c.
    Proof.
      induction Types as [|T Types IH]; intros c u Hlen Hn Hin; [by exists c|]. inversion Hn as [|? ? Hnin Hn']; subst.
      unfold in_order. cbn [map concat]. fold (in_order (fun T => s_view cont Ts T c) Types). rewrite one_by_one_app. rewrite for_each_one.
      destruct (get_index_in T) as (i & Hi & HiT); [apply Hin; by left|].
      assert (Hil : i < length c) by (rewrite Hlen; by apply lookup_lt_Some in HiT). destruct (lookup_lt_is_Some_2 c i Hil) as (l & Hl).
      assert (Hv : s_view cont Ts T c = Some l) by (unfold s_view; by rewrite Hi). rewrite Hv. change (default [] (Some l)) with l. cbn [s_visit]. rewrite Hi, Hl.
      destruct (for_each v out T l u) as [[ok u1] l1] eqn:Hfe.
      set (c1 := <[i := l1]> c).
      assert (Hv1 : s_view cont Ts T c1 = Some l1) by (unfold s_view, c1; rewrite Hi; by apply list_lookup_insert).
      assert (Ho1 : forall U, U <> T -> s_view cont Ts U c1 = s_view cont Ts U c).
      { intros U HU. unfold s_view. destruct (get_index cont Ts (cont U)) as [j|] eqn:Hj; [|done]. apply get_index_T in Hj. apply list_lookup_insert_ne. intros ->. congruence. }
      assert (Hio : in_order (fun T => s_view cont Ts T c1) Types = in_order (fun T => s_view cont Ts T c) Types).
      { unfold in_order. f_equal. apply map_ext_in. intros U HU. rewrite Ho1; [done|]. intros ->. apply Hnin. by apply elem_of_list_In. }
      destruct ok.
      - specialize (IH c1 u1). rewrite Hio in IH. revert IH. destruct (one_by_one v out (in_order (fun T => s_view cont Ts T c) Types) u1) as [[ok u2] s2]. intros IH.
        destruct IH as (c' & H1 & H2 & H3 & H4); [by unfold c1; rewrite insert_length|done|intros U HU; apply Hin; by right|].
        exists c'. split; [done|]. split; [done|]. split.
        + unfold in_order in *. cbn [map concat]. rewrite H3. f_equal. rewrite H4 by done. by rewrite Hv1.
        + intros U HU. rewrite H4 by (intros ?; apply HU; by right). apply Ho1. intros ->. apply HU. by left.
      - exists c1. split; [done|]. split; [by unfold c1; rewrite insert_length|]. split.
        + unfold in_order in *. cbn [map concat]. rewrite Hio, Hv1. done.
        + intros U HU. apply Ho1. intros ->. apply HU. by left.
    Qed.

    (** visitors that leave the values as they are: the types may also repeat *)
    Lemma for_each_same T l : leaves_values v -> forall u, snd (for_each v out T l u) = l.
    Proof.
      intros Hl. induction l as [|x l IH]; intros u; [done|]. cbn. unfold apply_visitor. specialize (Hl T x u). destruct (v T x u) as [[[u1 x1] [r|]]|[u1 x1]]; subst; [|..|done].
      - destruct (out r u1) as [u2|]; [|done]. specialize (IH u2). destruct (for_each v out T l u2) as [[? ?] ?]. cbn in *. by subst.
      - specialize (IH u1). destruct (for_each v out T l u1) as [[? ?] ?]. cbn in *. by subst.
    Qed.
    Lemma visit_const_ok Types : leaves_values v -> forall c u, length c = length Ts -> (forall T, T ∈ Types -> T ∈ Ts) ->
      let '(ok, u', _) := one_by_one v out (in_order (fun T => s_view cont Ts T c) Types) u in
      s_visit cont Ts v out Types c u = (if ok : bool then VDone u' c else VThrow u' c).
    Proof.
      intros Hlv. induction Types as [|T Types IH]; intros c u Hlen Hin; [done|].
      unfold in_order. cbn [map concat]. fold (in_order (fun T => s_view cont Ts T c) Types). rewrite one_by_one_app. rewrite for_each_one.
      destruct (get_index_in T) as (i & Hi & HiT); [apply Hin; by left|].
      assert (Hil : i < length c) by (rewrite Hlen; by apply lookup_lt_Some in HiT). destruct (lookup_lt_is_Some_2 c i Hil) as (l & Hl).
      assert (Hv : s_view cont Ts T c = Some l) by (unfold s_view; by rewrite Hi). rewrite Hv. change (default [] (Some l)) with l. cbn [s_visit]. rewrite Hi, Hl.
      pose proof (for_each_same T l Hlv u) as Hsame. destruct (for_each v out T l u) as [[ok u1] l1] eqn:Hfe. cbn in Hsame. subst l1.
      rewrite list_insert_id by done. destruct ok; [|done]. specialize (IH c u1 Hlen). revert IH. destruct (one_by_one v out (in_order (fun T => s_view cont Ts T c) Types) u1) as [[ok u2] s2]. intros IH.
      apply IH. intros U HU. apply Hin. by right.
    Qed.
  End Visit.

  Lemma visited_in_order c s Types vs : repr c s -> (forall T, T ∈ Types -> T ∈ Ts) -> visited k s Types vs -> vs = in_order (fun T => s_view cont Ts T c) Types.
  Proof.
    intros Hr Hin (ls & HF & ->). unfold in_order. f_equal. revert Hin. induction HF as [|T l Types ls H HF IH]; intros Hin; [done|]. cbn. f_equal; [|apply IH; intros U HU; apply Hin; by right].
    destruct (repr_view c s T Hr) as (l' & -> & Hl'); [apply Hin; by left|]. change (default [] (Some l')) with l'. f_equal. destruct k; cbn in *; [congruence|].
    destruct H as [Hs He], Hl' as [Hs' He']. apply sorted_eq; [done..|]. intros v. by rewrite He, He'.
  Qed.
  Lemma values_pair T l : values_of T (map (pair T) l) = l.
  Proof. induction l as [|x l IH]; [done|]. cbn. rewrite values_cons. cbn. destruct (decide (T = T)); [|done]. by rewrite IH. Qed.
  Lemma values_pair_ne T U l : U <> T -> values_of T (map (pair U) l) = [].
  Proof. intros Hne. induction l as [|x l IH]; [done|]. cbn. rewrite values_cons. cbn. by destruct (decide (U = T)). Qed.
  Lemma values_in_order_no view T Types : ~ T ∈ Types -> values_of T (in_order view Types) = [].
  Proof.
    intros Hn. induction Types as [|U Types IH]; [done|]. unfold in_order. cbn. fold (in_order view Types). rewrite values_app, values_pair_ne; [|intros ->; apply Hn; by left]. apply IH. intros H. apply Hn. by right.
  Qed.
  Lemma values_in_order view T Types l : NoDup Types -> T ∈ Types -> view T = Some l -> values_of T (in_order view Types) = l.
  Proof.
    intros Hnd. induction Hnd as [|U Types Hn Hnd IH]; intros HT Hv; [by apply elem_of_nil in HT|]. unfold in_order. cbn. fold (in_order view Types). rewrite values_app.
    destruct (decide (U = T)) as [->|Hne].
    - rewrite Hv. change (default [] (Some l)) with l. rewrite values_pair, values_in_order_no by done. by rewrite app_nil_r.
    - rewrite values_pair_ne by done. apply IH; [|done]. by apply elem_of_cons in HT as [->|HT].
  Qed.
  Lemma in_order_perm c s : repr c s -> in_order (fun T => s_view cont Ts T c) Ts ≡ₚ s.
  Proof.
    intros Hr. pose proof Hr as (Hlen & Hnd & Hty & Hv).
    assert (Hgen : forall Types, (forall T, T ∈ Types -> T ∈ Ts) -> NoDup Types -> in_order (fun T => s_view cont Ts T c) Types ≡ₚ filter (fun x => fst x ∈ Types) s).
    { intros Types. induction Types as [|T Types IH]; intros Hin Hn; cbn.
      - clear. induction s as [|x s IH]; [done|]. rewrite filter_cons. destruct (decide (fst x ∈ [])) as [Hx|]; [by apply elem_of_nil in Hx|done].
      - inversion Hn as [|? ? Hnin Hn']; subst. unfold in_order. cbn. fold (in_order (fun T => s_view cont Ts T c) Types).
        rewrite (IH (fun U HU => Hin U (elem_of_list_further _ _ _ HU)) Hn'). destruct (repr_view c s T Hr) as (l & -> & Hl); [apply Hin; by left|]. change (default [] (Some l)) with l.
        assert (l ≡ₚ values_of T s) as ->. { destruct k; cbn in Hl; [by rewrite Hl|]. destruct Hl as [Hs He]. by apply sorted_perm; [apply Hnd|..]. }
        clear -Hnin. induction s as [|x s IHs]; [done|]. rewrite values_cons, !filter_cons. destruct (decide (fst x = T)) as [Hx|Hx].
        + destruct (decide (fst x ∈ Types)); [congruence|]. destruct (decide (fst x ∈ T :: Types)) as [|Hc]; [|exfalso; apply Hc; apply elem_of_cons; by left]. cbn. destruct x as [W y]. cbn in *. subst W. by f_equiv.
        + cbn [app]. destruct (decide (fst x ∈ Types)) as [Hu|Hu]; destruct (decide (fst x ∈ T :: Types)) as [Hc|Hc].
          * rewrite <- Permutation_middle. by f_equiv.
          * exfalso. apply Hc. by right.
          * apply elem_of_cons in Hc as [?|?]; done.
          * done. }
    rewrite (Hgen Ts (fun _ H => H) HTs). clear -Hty. induction s as [|x s IH]; [done|]. rewrite filter_cons. destruct (decide (fst x ∈ Ts)) as [|Hn]; [|exfalso; apply Hn, Hty; by left].
    f_equiv. apply IH. intros y Hy. apply Hty. by right.
  Qed.
  Lemma history_repr l m w x c s : seq_history k Ts l m -> sexec cont k Ts l ∅ = SOk w -> w !! x = Some c -> m !! x = Some s -> repr c s.
  Proof. intros H Hw Hc Hs. destruct (history_ok l m H) as (w0 & Hw0 & Hr). rewrite Hw in Hw0. injection Hw0 as <-. specialize (Hr x). by rewrite Hc, Hs in Hr. Qed.

  Lemma visit_order : forall (St R : Type) (v : @visitor St R) out l m w x c s Types vs u (ok : bool) u' vs', seq_history k Ts l m -> sexec cont k Ts l ∅ = SOk w -> w !! x = Some c -> m !! x = Some s ->
    (forall T, T ∈ Types -> T ∈ Ts) -> NoDup Types \/ leaves_values v -> visited k s Types vs -> one_by_one v out vs u = (ok, u', vs') ->
    exists c', s_visit cont Ts v out Types c u = (if ok then VDone u' c' else VThrow u' c') /\
      (leaves_values v -> c' = c) /\ (forall T, ~ T ∈ Types -> s_view cont Ts T c' = s_view cont Ts T c) /\ (NoDup Types -> forall T, T ∈ Types -> s_view cont Ts T c' = Some (values_of T vs')).
  Proof.
    intros St R v out l m w x c s Types vs u ok u' vs' H Hw Hc Hs Hin Hor Hvs Hone. pose proof (history_repr l m w x c s H Hw Hc Hs) as Hr. pose proof Hr as [Hlen _].
    pose proof (visited_in_order c s Types vs Hr Hin Hvs) as ->.
    assert (Hview : forall (c' : swarm) T, length c' = length Ts -> T ∈ Types -> exists l, s_view cont Ts T c' = Some l).
    { intros c' T Hl HT. destruct (get_index_in T (Hin T HT)) as (i & Hi & HiT). unfold s_view. rewrite Hi. apply lookup_lt_is_Some_2. rewrite Hl. by apply lookup_lt_Some in HiT. }
    destruct (decide (NoDup Types)) as [Hnd|Hnd].
    - pose proof (visit_ok v out Types c u Hlen Hnd Hin) as Hv. rewrite Hone in Hv. destruct Hv as (c' & H1 & H2 & H3 & H4). exists c'. split; [done|]. split.
      + intros Hlv. pose proof (visit_const_ok v out Types Hlv c u Hlen Hin) as Hv. rewrite Hone in Hv. rewrite H1 in Hv. by destruct ok; injection Hv.
      + split; [done|]. intros _ T HT. destruct (Hview c' T H2 HT) as (l' & Hl'). rewrite Hl'. f_equal. symmetry. rewrite <- H3. by apply values_in_order.
    - destruct Hor as [?|Hlv]; [done|]. pose proof (visit_const_ok v out Types Hlv c u Hlen Hin) as Hv. rewrite Hone in Hv. exists c. split; [done|]. split; [done|]. split; [done|]. intros ?. done.
  Qed.
  Lemma visit_all_once : forall l m w x c s vs, seq_history k Ts l m -> sexec cont k Ts l ∅ = SOk w -> w !! x = Some c -> m !! x = Some s -> visited k s Ts vs -> vs ≡ₚ s.
  Proof.
    intros l m w x c s vs H Hw Hc Hs Hvs. pose proof (history_repr l m w x c s H Hw Hc Hs) as Hr. rewrite (visited_in_order c s Ts vs Hr (fun _ H => H) Hvs). by apply in_order_perm.
  Qed.

  (** copying *)
  Lemma copy_one_by_one {St R : Type} (v : @visitor St R) vs : forall u (buf : list R) pos rs u', results v vs u = Some (rs, u') -> pos + length rs <= length buf ->
    exists vs', one_by_one (lift_visitor v) write_out vs (OutSt u buf pos false) = (true, OutSt u' (take pos buf ++ rs ++ drop (pos + length rs) buf) (pos + length rs) false, vs').
  Proof.
    induction vs as [|[T x] vs IH]; intros u buf pos rs u' Hres Hlen.
    - cbn in Hres. injection Hres as <- <-. exists []. cbn. rewrite Nat.add_0_r. by rewrite take_drop.
    - cbn [results] in Hres. destruct (v T x u) as [[[u1 x1] r]|] eqn:Hv; [|done]. destruct (results v vs u1) as [[rs1 u2]|] eqn:Hr; [|done]. cbn [one_by_one]. unfold lift_visitor at 1. cbn [os_user]. rewrite Hv.
      destruct r as [r|]; injection Hres as <- <-.
      + cbn [length] in Hlen. unfold write_out at 1. cbn [os_pos os_buf os_user os_bad]. destruct (Nat.ltb_spec pos (length buf)); [|lia].
        destruct (IH u1 (<[pos := r]> buf) (S pos) rs1 u2 Hr) as (vs' & ->); [rewrite insert_length; lia|]. exists ((T, x1) :: vs'). do 2 f_equal. cbn [length]. f_equal; [|lia].
        replace (pos + S (length rs1)) with (S pos + length rs1) by lia. rewrite drop_insert_gt by lia. rewrite insert_take_drop by done. assert (Ht : take (S pos) (take pos buf ++ r :: drop (S pos) buf) = take pos buf ++ [r]).
        { change (r :: drop (S pos) buf) with ([r] ++ drop (S pos) buf). rewrite app_assoc. apply take_app_alt. rewrite app_length, take_length. cbn. lia. }
        rewrite Ht. by rewrite <- app_assoc.
      + cbn [os_buf os_pos os_bad]. destruct (IH u1 buf pos rs1 u2 Hr Hlen) as (vs' & ->). by exists ((T, x1) :: vs').
  Qed.
  Lemma visit_copy_order : forall (St R : Type) (v : @visitor St R) l m w x c s Types vs u (buf : list R) pos rs u', seq_history k Ts l m -> sexec cont k Ts l ∅ = SOk w -> w !! x = Some c -> m !! x = Some s ->
    (forall T, T ∈ Types -> T ∈ Ts) -> NoDup Types \/ leaves_values v -> visited k s Types vs -> results v vs u = Some (rs, u') -> pos + length rs <= length buf ->
    exists c', s_visit_copy cont Ts v Types c buf pos u = VDone (OutSt u' (take pos buf ++ rs ++ drop (pos + length rs) buf) (pos + length rs) false) c' /\ (leaves_values v -> c' = c).
  Proof.
    intros St R v l m w x c s Types vs u buf pos rs u' H Hw Hc Hs Hin Hor Hvs Hres Hlen. destruct (copy_one_by_one v vs u buf pos rs u' Hres Hlen) as (vs' & Hone).
    assert (Hlift : leaves_values v -> leaves_values (lift_visitor (R := R) v)). { intros Hl T y [u0 b0 p0 f0]. unfold lift_visitor. cbn. specialize (Hl T y u0). by destruct (v T y u0) as [[[? ?] ?]|[? ?]]. }
    assert (Hor' : NoDup Types \/ leaves_values (lift_visitor (R := R) v)) by (destruct Hor; [by left|right; by apply Hlift]).
    destruct (visit_order _ R (lift_visitor v) write_out l m w x c s Types vs _ _ _ _ H Hw Hc Hs Hin Hor' Hvs Hone) as (c' & H1 & H2 & _).
    exists c'. unfold s_visit_copy. rewrite H1. cbn. split; [done|]. intros Hl. by apply H2, Hlift.
  Qed.
  Lemma visited_exists s Types : (forall T, T ∈ Types -> exists v, shown k T s v) -> exists vs, visited k s Types vs.
  Proof.
    intros H. assert (exists ls, Forall2 (fun T l => shown k T s l) Types ls) as [ls Hls]; [|by eexists _, ls].
    induction Types as [|T Types IH]; [by exists []|].
    destruct (H T) as [l Hl]; [by left|]. destruct IH as [ls Hls]; [intros U HU; apply H; by right|]. exists (l :: ls). by constructor.
  Qed.
  Lemma visit_all_ok : forall l m w x c s, seq_history k Ts l m -> sexec cont k Ts l ∅ = SOk w -> w !! x = Some c -> m !! x = Some s ->
    exists vs, visited k s Ts vs /\ vs ≡ₚ s /\
    (forall (St R : Type) (v : @visitor St R) out u (ok : bool) u' vs', one_by_one v out vs u = (ok, u', vs') ->
       exists c', s_visit_all cont Ts v out c u = (if ok then VDone u' c' else VThrow u' c') /\
         (leaves_values v -> c' = c) /\ forall T, T ∈ Ts -> s_view cont Ts T c' = Some (values_of T vs')) /\
    (forall (St R : Type) (v : @visitor St R) u (buf : list R) pos rs u', results v vs u = Some (rs, u') -> pos + length rs <= length buf ->
       exists c', s_visit_copy_all cont Ts v c buf pos u = VDone (OutSt u' (take pos buf ++ rs ++ drop (pos + length rs) buf) (pos + length rs) false) c' /\
         (leaves_values v -> c' = c)).
  Proof.
    intros l m w x c s H Hw Hc Hs. destruct (visited_exists s Ts) as [vs Hvs].
    { intros T HT. destruct (swarm_is_sequence l m H) as (w0 & Hw0 & _ & Hv). assert (w0 = w) as -> by congruence.
      destruct (Hv x c s T Hc Hs HT) as (v & _ & Hsh). eauto. }
    exists vs. split; [done|]. split; [by eapply visit_all_once|]. split.
    - intros St R v out u ok u' vs' Hone. destruct (visit_order St R v out l m w x c s Ts vs u ok u' vs' H Hw Hc Hs) as (c' & H1 & H2 & _ & H3); eauto.
    - intros St R v u buf pos rs u' Hres Hlen. destruct (visit_copy_order St R v l m w x c s Ts vs u buf pos rs u' H Hw Hc Hs) as (c' & H1 & H2); eauto.
  Qed.

  (** a test for [seq_history] *)
  Definition seq_legalb (o : sop) (m : gmap nat (list variant)) : bool :=
    match o with
    | SNew x => bool_decide (m !! x = None)
    | SCopy x y | SMove x y => bool_decide (m !! x = None) && bool_decide (is_Some (m !! y))
    | SInsert x T _ | SEmplace x T _ | SInsertList x T _ => bool_decide (is_Some (m !! x)) && bool_decide (T ∈ Ts)
    | SErase x T i => bool_decide (T ∈ Ts) && match m !! x with Some s => i <? length (values_of T s) | None => false end
    | SEraseRange x T b e => bool_decide (T ∈ Ts) && match m !! x with Some s => (b <=? e) && (e <=? length (values_of T s)) | None => false end
    | SSwap x y => bool_decide (is_Some (m !! x)) && bool_decide (is_Some (m !! y))
    end.
  Lemma seq_legalb_ok o m : seq_legalb o m = true -> seq_legal Ts o m.
  Proof.
    destruct o; cbn [seq_legalb seq_legal]; rewrite ?andb_true_iff, ?bool_decide_eq_true; try tauto; intros [? H]; destruct (m !! _) as [s|]; try done; split; try done; exists s; split; try done.
    - by apply Nat.ltb_lt in H.
    - apply andb_true_iff in H as [H1 H2]. apply Nat.leb_le in H1, H2. done.
  Qed.
  Fixpoint seq_runb (l : list sop) (m : gmap nat (list variant)) : option (gmap nat (list variant)) :=
    match l with [] => Some m | o :: tl => if seq_legalb o m then seq_runb tl (seq_step k o m) else None end.
  Lemma seq_runb_app l : forall l0 m m', seq_history k Ts l0 m -> seq_runb l m = Some m' -> seq_history k Ts (l0 ++ l) m'.
  Proof.
    induction l as [|o l IH]; intros l0 m m' H Hr; cbn in Hr; [injection Hr as <-; by rewrite app_nil_r|]. destruct (seq_legalb o m) eqn:Ho; [|done].
    change (o :: l) with ([o] ++ l). rewrite app_assoc. eapply IH; [|exact Hr]. constructor; [done|]. by apply seq_legalb_ok.
  Qed.
  Lemma seq_runb_ok l m : seq_runb l ∅ = Some m -> seq_history k Ts l m.
  Proof. intros H. apply (seq_runb_app l [] ∅ m); [constructor|done]. Qed.
End Swarm.
