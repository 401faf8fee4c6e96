(** The sorted table finds exactly what was put in. *)
From stdpp Require Import list sorting.
From Coq Require Import Sorted.
From Verif Require Import VisitModel.

Section FlatMap.
  Context {K X : Type} (less : K -> K -> option bool) (D : K -> Prop).
  Notation lt a b := (less a b = Some true).
  Context (Hdef : forall a b, D a -> D b -> exists c, less a b = Some c).
  Context (Hasym : forall a b, lt a b -> lt b a -> False).
  Context (Htrans : forall a b c, D a -> D b -> D c -> lt a b -> lt b c -> lt a c).
  Context (Htotal : forall a b, D a -> D b -> lt a b \/ a = b \/ lt b a).

  Notation plt := (fun p q : K * X => less (fst p) (fst q) = Some true).
  Notation Dp := (fun p : K * X => D (fst p)).

  Lemma insert_ok p l : D (fst p) -> Forall Dp l -> StronglySorted plt l -> ~ In (fst p) (map fst l) ->
    exists r, insert_sorted less p l = Some r /\ r ≡ₚ p :: l /\ StronglySorted plt r.
  Proof.
    intros Hp. induction l as [|q tl IH]; intros HD Hs Hn; cbn.
    - eexists. split; [done|]. split; [done|]. by repeat constructor.
    - apply Forall_cons in HD as [Hq HD]. inversion Hs as [|? ? Hs' Hall]; subst. cbn in Hn.
      destruct (Hdef _ _ Hq Hp) as (c & Hc). rewrite Hc. destruct c.
      + destruct IH as (r & -> & Hperm & Hsr); [done|done|tauto|]. eexists. split; [done|]. split; [rewrite Hperm; constructor|].
        constructor; [done|]. rewrite Hperm. constructor; [done|]. done.
      + eexists. split; [done|]. split; [done|]. assert (Hpq : lt (fst p) (fst q)).
        { destruct (Htotal _ _ Hp Hq) as [H|[H|H]]; [done| |congruence]. exfalso. apply Hn. by left. }
        constructor; [done|]. constructor; [done|]. rewrite Forall_forall in Hall |- *. rewrite Forall_forall in HD. intros x Hx.
        eapply (Htrans _ (fst q)); auto.
  Qed.
  Lemma sort_ok l : Forall Dp l -> NoDup (map fst l) -> exists r, sort_pairs less l = Some r /\ r ≡ₚ l /\ StronglySorted plt r.
  Proof.
    induction l as [|p tl IH]; intros HD Hn; cbn.
    - eexists. split; [done|]. split; [done|constructor].
    - apply Forall_cons in HD as [Hp HD]. apply NoDup_cons in Hn as [Hp' Hn]. destruct (IH HD Hn) as (r & -> & Hperm & Hs).
      destruct (insert_ok p r) as (r' & H1 & H2 & H3); [done|by rewrite Hperm|done| |].
      + intros Hi. apply Hp'. apply elem_of_list_In. by rewrite <- Hperm.
      + exists r'. split; [done|]. split; [|done]. by rewrite H2, Hperm.
  Qed.
  Lemma sorted_unique l1 l2 : l1 ≡ₚ l2 -> StronglySorted plt l1 -> StronglySorted plt l2 -> l1 = l2.
  Proof.
    intros Hp H1 H2. assert (AntiSymm eq plt) by (intros p q Hx Hy; exfalso; by eapply Hasym). by apply (StronglySorted_unique plt).
  Qed.
  Lemma keys_unique_ok (l : list (K * X)) : Forall Dp l -> StronglySorted plt l -> keys_unique less (map fst l) = Some true.
  Proof.
    induction l as [|p tl IH]; intros HD Hs; [done|]. apply Forall_cons in HD as [Hp HD]. inversion Hs as [|? ? Hs' Hall]; subst.
    destruct tl as [|q tl]; [done|]. cbn [map keys_unique]. apply Forall_cons in Hall as [Hpq _]. rewrite Hpq.
    apply Forall_cons in HD as Hq. destruct Hq as [Hq _]. destruct (Hdef _ _ Hq Hp) as (c & ->). cbn. by apply IH.
  Qed.

  (** binary search *)
  Lemma lower_bound_ok keys key : D key -> Forall D keys -> StronglySorted (fun a b => lt a b) keys ->
    forall fuel first len, len < fuel -> first + len <= length keys ->
    (forall i k, nth_error keys i = Some k -> i < first -> lt k key) ->
    (forall i k, nth_error keys i = Some k -> first + len <= i -> ~ lt k key) ->
    exists n, lower_bound less fuel keys key first len = Some n /\ n <= length keys /\
      (forall i k, nth_error keys i = Some k -> i < n -> lt k key) /\ (forall i k, nth_error keys i = Some k -> n <= i -> ~ lt k key).
  Proof.
    intros HD HDk Hs.
    assert (Hmono : forall i j a b, nth_error keys i = Some a -> nth_error keys j = Some b -> i < j -> lt a b).
    { clear HDk. induction Hs as [|k tl Hs IH Hall]; intros i j a b Hi Hj Hij; [by destruct i|].
      destruct i as [|i], j as [|j]; try lia; cbn in Hi, Hj.
      - injection Hi as <-. rewrite Forall_forall in Hall. apply Hall. apply elem_of_list_In. by eapply nth_error_In.
      - eapply IH; [done|done|lia]. }
    assert (HDi : forall i k, nth_error keys i = Some k -> D k).
    { intros i k Hi. rewrite Forall_forall in HDk. apply HDk. apply elem_of_list_In. by eapply nth_error_In. }
    induction fuel as [|fuel IH]; intros first len Hf Hle Hlo Hhi; [lia|]. cbn [lower_bound].
    destruct (Nat.eqb_spec len 0) as [->|Hne].
    - exists first. split; [done|]. split; [lia|]. split; [done|]. intros i k Hi Hk. apply (Hhi i); [done|lia].
    - assert (Hh : len / 2 < len) by (apply Nat.div_lt; lia).
      destruct (nth_error keys (first + len / 2)) as [m|] eqn:Hm; [|apply nth_error_None in Hm; lia].
      destruct (Hdef m key (HDi _ _ Hm) HD) as (c & Hc). rewrite Hc. destruct c.
      + apply IH; [lia|lia| |].
        * intros i k Hi Hk. destruct (Nat.eq_dec i (first + len / 2)) as [->|Hne']; [congruence|].
          eapply (Htrans _ m); eauto. eapply Hmono; [done|done|lia].
        * intros i k Hi Hk. apply (Hhi i); [done|lia].
      + apply IH; [lia|lia|done|].
        intros i k Hi Hk Hlt. destruct (Nat.eq_dec i (first + len / 2)) as [->|Hne']; [congruence|].
        assert (lt m k) by (eapply Hmono; [done|done|lia]). assert (lt m key) by (eapply (Htrans _ k); eauto). congruence.
  Qed.

  Lemma find_ok m key : D key -> Forall Dp m -> StronglySorted plt m ->
    exists r, find_key less m key = Some r /\ (forall x, r = Some x <-> In (key, x) m) /\ (r = None <-> ~ In key (map fst m)).
  Proof.
    intros HD HDm Hs. unfold find_key. set (keys := map fst m).
    assert (HDk : Forall D keys) by (unfold keys; apply Forall_fmap; exact HDm).
    assert (Hsk : StronglySorted (fun a b => lt a b) keys).
    { unfold keys. clear HDm HDk. induction Hs as [|p tl Hs IH Hall]; cbn; constructor; [done|]. apply Forall_fmap. exact Hall. }
    destruct (lower_bound_ok keys key HD HDk Hsk (S (length keys)) 0 (length keys)) as (n & -> & Hn & Hlo & Hhi); [lia|lia|intros; lia| |].
    { intros i k Hi Hk. exfalso. assert (nth_error keys i <> None) by congruence. apply nth_error_Some in H. lia. }
    assert (Hkey : forall i p, nth_error m i = Some p -> nth_error keys i = Some (fst p)).
    { intros i p Hi. unfold keys. by apply map_nth_error. }
    assert (HDi : forall i p, nth_error m i = Some p -> D (fst p)).
    { intros i p Hi. rewrite Forall_forall in HDm. apply HDm. apply elem_of_list_In. by eapply nth_error_In. }
    assert (Hirr : forall a, ~ lt a a) by (intros a Ha; by eapply Hasym).
    assert (Hmono : forall i j p q, nth_error m i = Some p -> nth_error m j = Some q -> i < j -> lt (fst p) (fst q)).
    { clear -Hs. induction Hs as [|k tl Hs IH Hall]; intros i j a b Hi Hj Hij; [by destruct i|].
      destruct i as [|i], j as [|j]; try lia; cbn in Hi, Hj.
      - injection Hi as <-. rewrite Forall_forall in Hall. apply Hall. apply elem_of_list_In. by eapply nth_error_In.
      - eapply IH; [done|done|lia]. }
    (* where the key can be *)
    assert (Hat : forall i p, nth_error m i = Some p -> fst p = key -> i = n).
    { intros i p Hi Hp. destruct (Nat.lt_trichotomy i n) as [H|[H|H]]; [|done|].
      - exfalso. apply (Hirr key). rewrite <- Hp at 1. by apply (Hlo i); [apply Hkey|].
      - exfalso. destruct (nth_error m n) as [q|] eqn:Hq.
        + apply (Hhi n (fst q)); [by apply Hkey|lia|]. rewrite <- Hp. by eapply Hmono.
        + apply nth_error_None in Hq. assert (nth_error m i <> None) by congruence. apply nth_error_Some in H0. lia. }
    destruct (nth_error m n) as [[k x]|] eqn:Hq.
    - pose proof (HDi _ _ Hq) as HDk'. cbn in HDk'. destruct (Hdef key k HD HDk') as (c & Hc). rewrite Hc.
      assert (Hnot : ~ lt k key) by (apply (Hhi n); [by apply (Hkey n (k, x))|lia]).
      destruct c; eexists; (split; [done|]).
      + assert (Hno : ~ In key (map fst m)).
        { intros Hi. apply in_map_iff in Hi as ([k' x'] & Hk' & Hi). cbn in Hk'. subst k'. apply In_nth_error in Hi as (i & Hi).
          assert (i = n) as -> by by eapply Hat. rewrite Hq in Hi. injection Hi as -> ->. by apply (Hirr key). }
        split; [|done]. intros y. split; [done|]. intros Hi. exfalso. apply Hno. apply in_map_iff. by exists (key, y).
      + assert (key = k) as <- by (destruct (Htotal key k HD HDk') as [H|[H|H]]; [congruence|done|by exfalso]).
        split.
        * intros y. split; [intros [= <-]; by eapply nth_error_In|]. intros Hi. apply In_nth_error in Hi as (i & Hi).
          assert (i = n) as -> by by eapply Hat. congruence.
        * split; [done|]. intros H. exfalso. apply H. apply in_map_iff. exists (key, x). split; [done|]. by eapply nth_error_In.
    - eexists. split; [done|]. assert (Hno : ~ In key (map fst m)).
      { intros Hi. apply in_map_iff in Hi as ([k' x'] & Hk' & Hi). cbn in Hk'. subst k'. apply In_nth_error in Hi as (i & Hi).
        assert (i = n) as -> by by eapply Hat. congruence. }
      split; [|done]. intros y. split; [done|]. intros Hi. exfalso. apply Hno. apply in_map_iff. by exists (key, y).
  Qed.
End FlatMap.
