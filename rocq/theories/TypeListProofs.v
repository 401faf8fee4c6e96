(** Proofs about the type-list model. *)
From Coq Require Import List Bool Arith Lia.
Import ListNotations.
From Verif Require Import TypeListModel TypeListSpec.
Set Implicit Arguments.

Section PackP.
  Variable A : Type.
  Variable eqb : A -> A -> bool.
  Hypothesis eqb_ok : forall x y, eqb x y = true <-> x = y.

  Lemma eqb_refl x : eqb x x = true.
  Proof. now apply eqb_ok. Qed.

  Lemma eqb_false x y : eqb x y = false <-> x <> y.
  Proof.
    rewrite <- eqb_ok. destruct (eqb x y); split; intro H; try congruence.
  Qed.

  Lemma number_of_impl_spec t l : forall i,
    match number_of_impl eqb i t l with
    | Some n => exists k, n = i + k /\ nth_error l k = Some t /\
                          (forall m, m < k -> nth_error l m <> Some t)
    | None => ~ In t l
    end.
  Proof.
    induction l as [|h tl IH]; intro i; simpl; [intros []|].
    destruct (eqb t h) eqn:E.
    - apply eqb_ok in E. subst. exists 0. repeat split; [lia|]. intros; lia.
    - apply eqb_false in E. specialize (IH (S i)).
      destruct (number_of_impl eqb (S i) t tl) as [n|].
      + destruct IH as (k & -> & H1 & H2). exists (S k). split; [lia|split; [exact H1|]].
        intros [|m] Hm; simpl; [congruence|apply H2; lia].
      + intros [->|H]; [congruence|auto].
  Qed.

  Lemma number_of_first_some t l n :
    number_of_first eqb t l = Some n <->
    first_such (fun k => nth_error l k = Some t) n.
  Proof.
    unfold number_of_first, first_such. generalize (number_of_impl_spec t l 0).
    destruct (number_of_impl eqb 0 t l) as [m|]; intro H.
    - destruct H as (k & -> & H1 & H2). simpl. split.
      + intros [= <-]. auto.
      + intros [H3 H4]. f_equal.
        destruct (lt_eq_lt_dec k n) as [[Hl| ->]|Hl]; [|reflexivity|].
        * exfalso; exact (H4 _ Hl H1).
        * exfalso; exact (H2 _ Hl H3).
    - split; [discriminate|]. intros [H3 _]. apply nth_error_In in H3. contradiction.
  Qed.

  Lemma number_of_first_none t l : number_of_first eqb t l = None <-> ~ In t l.
  Proof.
    unfold number_of_first. generalize (number_of_impl_spec t l 0).
    destruct (number_of_impl eqb 0 t l) as [m|]; intro H; split; try tauto; try discriminate.
    destruct H as (k & -> & H1 & H2). apply nth_error_In in H1. tauto.
  Qed.

  Lemma contains_v_spec t l : contains_v eqb t l = true <-> In t l.
  Proof.
    unfold contains_v. destruct (number_of_first eqb t l) as [n|] eqn:E.
    - apply number_of_first_some in E. destruct E as [E _]. apply nth_error_In in E. tauto.
    - apply number_of_first_none in E. split; [discriminate|contradiction].
  Qed.

  Lemma contains_v_false t l : contains_v eqb t l = false <-> ~ In t l.
  Proof. rewrite <- contains_v_spec. destruct (contains_v eqb t l); split; congruence. Qed.

  Lemma list_same_spec l1 : forall l2, list_same eqb l1 l2 = true <-> l1 = l2.
  Proof.
    induction l1 as [|x l1 IH]; intros [|y l2]; simpl; try (split; congruence); try tauto.
    rewrite andb_true_iff, eqb_ok, IH. split; [intros [-> ->]; reflexivity|intros [= -> ->]; auto].
  Qed.

  Lemma starts_with_spec l1 : forall l2, starts_with eqb l1 l2 = true <-> exists post, l2 = l1 ++ post.
  Proof.
    induction l1 as [|x l1 IH]; intros l2; simpl.
    - split; [intros _; now exists l2|reflexivity].
    - destruct l2 as [|y l2]; [split; [discriminate|intros [p H]; discriminate]|].
      destruct (eqb x y) eqn:E.
      + apply eqb_ok in E. subst y. rewrite IH. split.
        * intros [p ->]. now exists p.
        * intros [p [= ->]]. now exists p.
      + split; [discriminate|]. intros [p [= -> _]]. rewrite eqb_refl in E. discriminate.
  Qed.

  Lemma occurs_at_0 (xs ys : list A) : occurs_at xs ys 0 <-> exists post, ys = xs ++ post.
  Proof.
    unfold occurs_at. split.
    - intros (pre & post & -> & H). destruct pre; [|discriminate]. now exists post.
    - intros (post & ->). now exists [], post.
  Qed.

  Lemma occurs_at_S (xs ys : list A) y n : occurs_at xs (y :: ys) (S n) <-> occurs_at xs ys n.
  Proof.
    unfold occurs_at. split.
    - intros (pre & post & H & L). destruct pre as [|p pre]; [discriminate|].
      injection H as -> ->. injection L as L. now exists pre, post.
    - intros (pre & post & -> & L). exists (y :: pre), post. simpl. auto.
  Qed.

  Lemma occurs_at_len (xs ys : list A) n : occurs_at xs ys n -> n + length xs <= length ys.
  Proof. intros (pre & post & -> & <-). rewrite !app_length. lia. Qed.

  Definition fs_ok (needle hay : list A) (i : nat) (r : ct (option nat)) : Prop :=
    match r with
    | CtErr => False
    | CtOk (Some n) => exists k, n = i + k /\ first_such (occurs_at needle hay) k
    | CtOk None => ~ contiguous needle hay
    end.

  Lemma find_subsequence_impl_spec needle : forall hay i,
    hay <> [] -> fs_ok needle hay i (find_subsequence_impl eqb needle hay i).
  Proof.
    induction hay as [|h ts IH]; intros i Hne; [congruence|]. clear Hne.
    change (find_subsequence_impl eqb needle (h :: ts) i) with
      (if length ts + 1 <=? length needle
       then CtOk (if list_same eqb needle (h :: ts) then Some i else None)
       else if starts_with eqb needle (h :: ts) then CtOk (Some i)
       else find_subsequence_impl eqb needle ts (i + 1)).
    destruct (length ts + 1 <=? length needle) eqn:EL.
    - apply Nat.leb_le in EL. destruct (list_same eqb needle (h :: ts)) eqn:ES; simpl.
      + apply list_same_spec in ES. exists 0. split; [lia|]. split; [|intros; lia].
        apply occurs_at_0. exists []. now rewrite app_nil_r.
      + intros [n Hn]. pose proof (occurs_at_len Hn) as HL. simpl in HL.
        assert (n = 0) by lia. subst n. apply occurs_at_0 in Hn. destruct Hn as [post Hp].
        assert (post = []) as ->.
        { apply length_zero_iff_nil. apply (f_equal (@length A)) in Hp. rewrite app_length in Hp.
          simpl in Hp. lia. }
        rewrite app_nil_r in Hp.
        assert (list_same eqb needle (h :: ts) = true) by (now apply list_same_spec). congruence.
    - apply Nat.leb_gt in EL. destruct (starts_with eqb needle (h :: ts)) eqn:ES.
      + apply starts_with_spec in ES. exists 0. split; [lia|]. split; [|intros; lia].
        now apply occurs_at_0.
      + assert (~ occurs_at needle (h :: ts) 0) as H0.
        { rewrite occurs_at_0. intro H. apply starts_with_spec in H. congruence. }
        assert (ts <> []) as Hts.
        { intros ->. simpl in EL. destruct needle as [|? ?]; [cbn in ES; congruence|simpl in EL; lia]. }
        specialize (IH (i + 1) Hts). unfold fs_ok in *.
        destruct (find_subsequence_impl eqb needle ts (i + 1)) as [[n|]|]; [| |exact IH].
        * destruct IH as (k & -> & H1 & H2). exists (S k). split; [lia|]. split.
          -- now apply occurs_at_S.
          -- intros [|m] Hm; [exact H0|]. rewrite occurs_at_S. apply H2. lia.
        * intros [[|n] Hn]; [tauto|]. rewrite occurs_at_S in Hn. apply IH. now exists n.
  Qed.

  Lemma find_subsequence_spec needle hay : fs_ok needle hay 0 (find_subsequence eqb needle hay).
  Proof.
    unfold find_subsequence. destruct hay as [|h hay].
    - destruct needle as [|x xs]; simpl.
      + exists 0. split; [reflexivity|]. split; [|intros; lia]. now exists [], [].
      + intros [n Hn]. apply occurs_at_len in Hn. simpl in Hn. lia.
    - apply find_subsequence_impl_spec. discriminate.
  Qed.

  Lemma find_subsequence_first needle hay :
    exists r, find_subsequence eqb needle hay = CtOk r /\
      (forall n, r = Some n <-> first_such (occurs_at needle hay) n) /\
      (r = None <-> ~ contiguous needle hay).
  Proof.
    pose proof (find_subsequence_spec needle hay) as H. unfold fs_ok in H.
    destruct (find_subsequence eqb needle hay) as [r|]; [|contradiction].
    exists r. split; [reflexivity|]. destruct r as [n|].
    - destruct H as (k & -> & H1 & H2). simpl. split.
      + intro n. split; [intros [= <-]; split; auto|]. intros [H3 H4].
        f_equal. destruct (lt_eq_lt_dec k n) as [[Hl| ->]|Hl]; [|reflexivity|].
        * exfalso; exact (H4 _ Hl H1).
        * exfalso; exact (H2 _ Hl H3).
      + split; [discriminate|]. intro H3. exfalso. apply H3. now exists k.
    - split; [|tauto]. intro n. split; [discriminate|]. intros [H3 _]. exfalso. apply H. now exists n.
  Qed.

  Lemma find_subsequence_occurs needle hay n :
    find_subsequence eqb needle hay = CtOk (Some n) -> occurs_at needle hay n.
  Proof.
    destruct (find_subsequence_first needle hay) as (r & -> & H & _).
    intros [= ->]. now apply H.
  Qed.

  Lemma has_subsequence_spec needle hay :
    has_subsequence eqb needle hay = CtOk true /\ contiguous needle hay \/
    has_subsequence eqb needle hay = CtOk false /\ ~ contiguous needle hay.
  Proof.
    unfold has_subsequence. destruct (find_subsequence_first needle hay) as (r & -> & H1 & H2).
    destruct r as [n|]; [left|right]; split; auto.
    - exists n. now apply H1.
    - now apply H2.
  Qed.

  Lemma has_subsequence_iff needle hay :
    has_subsequence eqb needle hay = CtOk true <-> contiguous needle hay.
  Proof.
    destruct (has_subsequence_spec needle hay) as [[-> H]|[-> H]]; split; auto; congruence.
  Qed.

  Lemma has_subset_spec needle hay : has_subset eqb needle hay = true <-> incl needle hay.
  Proof.
    unfold has_subset, incl. induction needle as [|x xs IH]; simpl.
    - split; [intros _ a []|reflexivity].
    - rewrite andb_true_iff, contains_v_spec, IH. split.
      + intros [H1 H2] a [->|H]; auto.
      + intros H. split; [apply H; auto|intros; apply H; auto].
  Qed.

  Lemma filter_types_spec pred (l : list A) : filter_types pred l = filter pred l.
  Proof.
    unfold filter_types.
    enough (forall acc, fold_left (fun acc t => acc ++ (if pred t then [t] else [])) l acc
                        = acc ++ filter pred l) as H by exact (H []).
    induction l as [|x l IH]; intro acc; simpl; [now rewrite app_nil_r|].
    rewrite IH. destruct (pred x); rewrite <- app_assoc; reflexivity.
  Qed.

  (** remove_duplicates *)
  Lemma remove_duplicates_app l1 : forall l2 out,
    remove_duplicates eqb (l1 ++ l2) out = remove_duplicates eqb l2 (remove_duplicates eqb l1 out).
  Proof.
    induction l1 as [|x l1 IH]; intros l2 out; simpl; [reflexivity|].
    destruct (contains_v eqb x out); apply IH.
  Qed.

  Lemma remove_duplicates_prefix l : forall out, exists r,
    remove_duplicates eqb l out = out ++ r /\ sublist r l /\
    (NoDup out -> NoDup (out ++ r)) /\ (forall x, In x (out ++ r) <-> In x out \/ In x l).
  Proof.
    induction l as [|x l IH]; intro out; simpl.
    - exists []. rewrite app_nil_r. repeat split; auto; try constructor. intros [H|[]]; auto.
    - destruct (contains_v eqb x out) eqn:E.
      + apply contains_v_spec in E. destruct (IH out) as (r & -> & H1 & H2 & H3).
        exists r. repeat split; auto; [now constructor| |].
        * intro H. apply H3 in H. tauto.
        * intros [H|[->|H]]; apply H3; auto.
      + apply contains_v_false in E. destruct (IH (out ++ [x])) as (r & -> & H1 & H2 & H3).
        exists (x :: r). rewrite <- app_assoc in *. simpl in *. repeat split; auto; [now constructor| | |].
        * intro Hn. apply H2. rewrite <- (rev_involutive (out ++ [x])). apply NoDup_rev.
          rewrite rev_app_distr. simpl. constructor; [now rewrite <- in_rev|now apply NoDup_rev].
        * intro H. apply H3 in H. rewrite in_app_iff in H. simpl in H. tauto.
        * intros H. apply H3. rewrite in_app_iff. simpl. tauto.
  Qed.

  Lemma without_duplicates_nodup l : NoDup (without_duplicates eqb l).
  Proof.
    unfold without_duplicates. destruct (remove_duplicates_prefix l []) as (r & -> & _ & H & _).
    apply H. constructor.
  Qed.

  Lemma without_duplicates_in l x : In x (without_duplicates eqb l) <-> In x l.
  Proof.
    unfold without_duplicates. destruct (remove_duplicates_prefix l []) as (r & -> & _ & _ & H).
    rewrite H. simpl. tauto.
  Qed.

  Lemma without_duplicates_sublist l : sublist (without_duplicates eqb l) l.
  Proof.
    unfold without_duplicates. destruct (remove_duplicates_prefix l []) as (r & -> & H & _ & _). exact H.
  Qed.

  Lemma eqA_dec (x y : A) : {x = y} + {x <> y}.
  Proof. destruct (eqb x y) eqn:E; [left; now apply eqb_ok|right; now apply eqb_false]. Qed.

  Lemma first_split (x : A) l : In x l -> exists l1 l2, l = l1 ++ x :: l2 /\ ~ In x l1.
  Proof.
    induction l as [|y l IH]; intro H; [destruct H|].
    destruct (eqA_dec y x) as [->|N].
    - exists [], l. auto.
    - destruct H as [->|H]; [congruence|]. destruct (IH H) as (l1 & l2 & -> & Hn).
      exists (y :: l1), l2. split; [reflexivity|]. intros [->|H']; auto.
  Qed.

  (** appending further elements never reorders what is already there *)
  Lemma without_duplicates_app_prefix l1 l2 : exists r,
    without_duplicates eqb (l1 ++ l2) = without_duplicates eqb l1 ++ r.
  Proof.
    unfold without_duplicates. rewrite remove_duplicates_app.
    destruct (remove_duplicates_prefix l2 (remove_duplicates eqb l1 [])) as (r & -> & _). now exists r.
  Qed.

  Lemma before_wd l x y : before x y l -> x <> y -> before x y (without_duplicates eqb l).
  Proof.
    intros (l1 & l2 & -> & Hn) Hxy.
    replace (l1 ++ x :: l2) with ((l1 ++ [x]) ++ l2) by (rewrite <- app_assoc; reflexivity).
    destruct (without_duplicates_app_prefix (l1 ++ [x]) l2) as [r ->].
    assert (In x (without_duplicates eqb (l1 ++ [x]))) as Hx.
    { apply without_duplicates_in, in_app_iff. simpl; auto. }
    destruct (in_split _ _ Hx) as (p & q & Hpq).
    exists p, (q ++ r). rewrite Hpq. split; [now rewrite <- app_assoc|].
    intro Hy. apply Hn. apply without_duplicates_in. rewrite Hpq.
    apply in_app_iff in Hy. apply in_app_iff. simpl in *. tauto.
  Qed.

  Lemma app_prefix (a : list A) : forall b c d, a ++ b = c ++ d -> length a <= length c -> exists z, c = a ++ z.
  Proof.
    induction a as [|u a IH]; intros b c d H L; [now exists c|].
    destruct c as [|v c]; simpl in *; [lia|]. injection H as -> H.
    destruct (IH b c d H) as [z ->]; [lia|]. now exists z.
  Qed.

  Lemma before_irrefl_pair l (x y : A) : before x y l -> before y x l -> False.
  Proof.
    intros (l1 & l2 & H1 & N1) (l3 & l4 & H2 & N2). rewrite H1 in H2.
    destruct (le_lt_dec (length (l3 ++ [y])) (length l1)) as [L|L].
    - destruct (app_prefix (l3 ++ [y]) l4 l1 (x :: l2)) as [z ->]; [rewrite H2, <- app_assoc; reflexivity|exact L|].
      apply N1. rewrite !in_app_iff. simpl. auto.
    - rewrite app_length in L. simpl in L.
      destruct (app_prefix l1 (x :: l2) l3 (y :: l4)) as [z ->]; [exact H2|lia|].
      rewrite <- app_assoc in H2. apply app_inv_head in H2. destruct z as [|u z]; simpl in H2.
      + injection H2 as -> _. apply N1. rewrite in_app_iff. simpl; auto.
      + injection H2 as -> _. apply N2. rewrite !in_app_iff. simpl; auto.
  Qed.

  Lemma before_total l (x y : A) : In x l -> In y l -> x <> y -> before x y l \/ before y x l.
  Proof.
    intros Hx Hy N. destruct (first_split _ _ Hx) as (l1 & l2 & E & Nx).
    destruct (in_dec eqA_dec y l1) as [Iy|Iy].
    - right. destruct (first_split _ _ Iy) as (a & b & -> & Ny).
      exists a, (b ++ x :: l2). split; [rewrite E, <- app_assoc; reflexivity|].
      rewrite in_app_iff in *. simpl in *. intros [H|[H|[]]]; [tauto|congruence].
    - left. exists l1, l2. split; [exact E|]. rewrite in_app_iff. simpl. intros [H|[H|[]]]; [tauto|congruence].
  Qed.

  Lemma before_in l (x y : A) : before x y l -> In x l.
  Proof. intros (l1 & l2 & -> & _). rewrite in_app_iff. simpl; auto. Qed.

  Lemma without_duplicates_order l x y :
    In x l -> In y l -> x <> y ->
    (before x y (without_duplicates eqb l) <-> before x y l).
  Proof.
    intros Hx Hy N. split; intro H; [|now apply before_wd].
    destruct (before_total _ Hx Hy N) as [B|B]; [exact B|].
    apply before_wd in B; [|congruence]. exfalso. eapply before_irrefl_pair; eauto.
  Qed.
End PackP.

Section PluginsP.
  Variable P : Type.
  Variable base_of : P -> P -> bool.
  Hypothesis base_refl : forall x, base_of x x = true.
  Hypothesis base_trans : forall x y z, base_of x y = true -> base_of y z = true -> base_of x z = true.

  Definition pairwise_unrelated (l : list P) : Prop :=
    forall l1 x l2, l = l1 ++ x :: l2 ->
      forall y, In y (l1 ++ l2) -> base_of x y = false.

  Lemma inherit_spec l : forall results,
    (forall l1 x l2, results = l1 ++ x :: l2 ->
       (forall y, In y (l1 ++ l2) -> base_of x y = false) /\
       (forall y, In (Some y) l -> base_of x y = false)) ->
    let R := inherit_without_duplicates base_of l results in
    pairwise_unrelated R /\
    (forall x, In x R -> In x results \/ In (Some x) l) /\
    (forall x, In x results \/ In (Some x) l -> exists r, In r R /\ base_of x r = true).
  Proof.
    induction l as [|[h|] tl IH]; intros results Hinv; simpl.
    - repeat split.
      + intros l1 x l2 E. apply (Hinv _ _ _ E).
      + auto.
      + intros x [H|[]]. exists x. auto.
    - destruct (existsb (base_of h) results || existsb (base_of_o base_of h) tl) eqn:E.
      + destruct (IH results) as (I1 & I2 & I3).
        { intros l1 x l2 E2. destruct (Hinv _ _ _ E2) as [H1 H2]. split; auto. intros y Hy. apply H2. simpl; auto. }
        repeat split; auto.
        * intros x Hx. destruct (I2 x Hx); simpl; auto.
        * intros x [Hx|[[= ->]|Hx]]; [now apply I3; auto| |now apply I3; auto].
          apply orb_true_iff in E. destruct E as [E|E]; apply existsb_exists in E; destruct E as (y & Hy & B).
          -- destruct (I3 y) as (r & Hr & B2); [auto|]. exists r. split; auto. eapply base_trans; eauto.
          -- destruct y as [y|]; [|discriminate]. simpl in B.
             destruct (I3 y) as (r & Hr & B2); [auto|]. exists r. split; auto. eapply base_trans; eauto.
      + apply orb_false_iff in E. destruct E as [E1 E2].
        assert (N1 : forall y, In y results -> base_of h y = false).
        { intros y Hy. destruct (base_of h y) eqn:B; [|reflexivity].
          rewrite <- E1. symmetry. apply existsb_exists. now exists y. }
        assert (N2 : forall y, In (Some y) tl -> base_of h y = false).
        { intros y Hy. destruct (base_of h y) eqn:B; [|reflexivity].
          rewrite <- E2. symmetry. apply existsb_exists. now exists (Some y). }
        destruct (IH (results ++ [h])) as (I1 & I2 & I3).
        { intros l1 x l2 E. destruct (exists_last (l := x :: l2)) as (q & z & Hq); [discriminate|].
          rewrite Hq, app_assoc in E. apply app_inj_tail in E. destruct E as [-> <-].
          destruct q as [|x' q].
          - injection Hq as -> ->. rewrite !app_nil_r in *. split; auto.
          - injection Hq as <- ->.
            destruct (Hinv l1 x q eq_refl) as [H1 H2]. split.
            + intros y Hy. rewrite app_assoc in Hy. apply in_app_iff in Hy. destruct Hy as [Hy|[<-|[]]]; auto.
              apply H2. simpl; auto.
            + intros y Hy. apply H2. simpl; auto. }
        repeat split; auto.
        * intros x Hx. destruct (I2 x Hx) as [H|H]; simpl; auto.
          apply in_app_iff in H. destruct H as [H|[->|[]]]; auto.
        * intros x [Hx|[[= ->]|Hx]]; apply I3; auto; left; apply in_app_iff; simpl; auto.
    - destruct (IH results) as (I1 & I2 & I3).
      { intros l1 x l2 E2. destruct (Hinv _ _ _ E2) as [H1 H2]. split; auto. intros y Hy. apply H2. simpl; auto. }
      repeat split; auto.
      + intros x Hx. destruct (I2 x Hx); simpl; auto.
      + intros x [Hx|[[=]|Hx]]; apply I3; auto.
  Qed.

  Lemma construct_interface_spec l :
    let R := construct_interface base_of l in
    NoDup R /\ pairwise_unrelated R /\
    (forall x, In x R -> In (Some x) l) /\
    (forall x, In (Some x) l -> exists r, In r R /\ base_of x r = true).
  Proof.
    unfold construct_interface. destruct (@inherit_spec l []) as (I1 & I2 & I3).
    { intros [|? l1] x l2 E; discriminate. }
    cbn zeta. repeat split; auto.
    - clear I2 I3. set (R := inherit_without_duplicates base_of l []) in *. clearbody R.
      assert (forall a b, R = a ++ b -> NoDup b) as H.
      { intros a b. revert a. induction b as [|x b IHb]; intros a E; constructor.
        - intro Hin. assert (base_of x x = false); [|rewrite base_refl in *; discriminate].
          apply (I1 a x b E). apply in_app_iff; auto.
        - apply (IHb (a ++ [x])). now rewrite <- app_assoc. }
      apply (H [] R eq_refl).
    - intros x Hx. destruct (I2 x Hx) as [[]|H]; auto.
  Qed.
End PluginsP.

Section FlattenP.
  Variable A : Type.

  Notation depths := (@max_nesting A).

  Lemma depths_app l1 l2 : depths (l1 ++ l2) = Nat.max (depths l1) (depths l2).
  Proof. induction l1; simpl; [reflexivity|]. rewrite IHl1. lia. Qed.

  Lemma flatten_one_layer_leaves (ts : list (ty A)) : flat_map leaves (flatten_one_layer ts) = flat_map leaves ts.
  Proof.
    induction ts as [|[a|l] ts IH]; simpl; [reflexivity|now rewrite IH|].
    rewrite flat_map_app. now rewrite IH.
  Qed.

  Lemma flatten_one_layer_depths (ts : list (ty A)) : depths (flatten_one_layer ts) = pred (depths ts).
  Proof.
    induction ts as [|[a|l] ts IH]; [reflexivity|exact IH|].
    change (depths (TL l :: ts)) with (Nat.max (S (depths l)) (depths ts)).
    change (flatten_one_layer (TL l :: ts)) with (l ++ flatten_one_layer ts).
    rewrite depths_app, IH. lia.
  Qed.

  Lemma contains_second_depths ts : contains_second_layer_list ts = false <-> depths ts = 0.
  Proof.
    unfold contains_second_layer_list. induction ts as [|[a|l] ts IH]; simpl; [tauto| |].
    - exact IH.
    - split; [discriminate|]. intro H. destruct (depths ts); discriminate.
  Qed.

  Lemma as_simple_flat (ts : list (ty A)) : depths ts = 0 -> as_simple ts = Some (flat_map leaves ts).
  Proof.
    induction ts as [|[a|l] ts IH]; intro H; [reflexivity| |].
    - simpl. rewrite IH; [reflexivity|exact H].
    - change (Nat.max (S (depths l)) (depths ts) = 0) in H. lia.
  Qed.

  Lemma flatten_types_spec fuel : forall ts : list (ty A), max_nesting ts < fuel ->
    exists r, flatten_types fuel ts = Some r /\ depths r = 0 /\ flat_map leaves r = flat_map leaves ts.
  Proof.
    induction fuel as [|f IH]; intros ts H; [lia|]. simpl.
    destruct (contains_second_layer_list ts) eqn:E.
    - assert (depths ts <> 0) as N.
      { intro Z. apply contains_second_depths in Z. congruence. }
      destruct (IH (flatten_one_layer ts)) as (r & -> & H1 & H2).
      { rewrite flatten_one_layer_depths. lia. }
      exists r. rewrite flatten_one_layer_leaves in H2. auto.
    - exists ts. apply contains_second_depths in E. auto.
  Qed.

  Lemma insert_flatten_spec fuel (ts : list (ty A)) : max_nesting ts < fuel ->
    insert_flatten fuel ts = Some (flat_map leaves ts).
  Proof.
    intro H. unfold insert_flatten. destruct (flatten_types_spec ts H) as (r & -> & H1 & H2).
    rewrite as_simple_flat by exact H1. now rewrite H2.
  Qed.

  (** whatever the depth limit, a produced list is the list of leaves *)
  Lemma flatten_types_sound fuel : forall (ts r : list (ty A)),
    flatten_types fuel ts = Some r -> depths r = 0 /\ flat_map leaves r = flat_map leaves ts.
  Proof.
    induction fuel as [|f IH]; intros ts r H; [discriminate|]. simpl in H.
    destruct (contains_second_layer_list ts) eqn:E.
    - apply IH in H. now rewrite flatten_one_layer_leaves in H.
    - injection H as <-. apply contains_second_depths in E. auto.
  Qed.

  Lemma insert_flatten_sound fuel (ts : list (ty A)) l : insert_flatten fuel ts = Some l -> l = flat_map leaves ts.
  Proof.
    unfold insert_flatten. destruct (flatten_types fuel ts) as [r|] eqn:E; [|discriminate].
    apply flatten_types_sound in E. destruct E as [E1 E2]. rewrite as_simple_flat by exact E1.
    rewrite E2. congruence.
  Qed.

  Lemma depths_leaves (l : list A) : depths (map Leaf l) = 0.
  Proof. induction l; simpl; auto. Qed.

  Lemma flat_leaves (l : list A) : flat_map leaves (map Leaf l) = l.
  Proof. induction l; simpl; [reflexivity|]. now rewrite IHl. Qed.
End FlattenP.

Section ConceptP.
  Variable A : Type.
  Variable eqb : A -> A -> bool.
  Hypothesis eqb_ok : forall x y, eqb x y = true <-> x = y.

  Lemma rc_append_spec fuel (ms : list A) ts : max_nesting ts < fuel ->
    rc_append fuel ms ts = Some (ms ++ flat_map leaves ts).
  Proof.
    intro H. unfold rc_append. rewrite insert_flatten_spec.
    - now rewrite flat_map_app, flat_leaves.
    - rewrite depths_app, depths_leaves. lia.
  Qed.

  Lemma rc_equivalent_spec fuel (ms : list A) ts : max_nesting ts < fuel ->
    exists b, rc_equivalent_to eqb fuel ms ts = Some b /\ (b = true <-> ms = flat_map leaves ts).
  Proof.
    intro H. unfold rc_equivalent_to. rewrite insert_flatten_spec by exact H.
    eexists. split; [reflexivity|]. now apply list_same_spec.
  Qed.

  Lemma rc_subsumes_spec fuel (ms : list A) ts : max_nesting ts < fuel ->
    exists b, rc_subsumes eqb fuel ms ts = Some (CtOk b) /\
              (b = true <-> contiguous (flat_map leaves ts) ms).
  Proof.
    intro H. unfold rc_subsumes. rewrite insert_flatten_spec by exact H.
    destruct (has_subsequence_spec eqb eqb_ok (flat_map leaves ts) ms) as [[-> H1]|[-> H1]];
      eexists; (split; [reflexivity|]); split; auto; congruence.
  Qed.

  Lemma contiguous_refl (l : list A) : contiguous l l.
  Proof. exists 0, [], []. now rewrite app_nil_r. Qed.

  Lemma contiguous_trans (l1 l2 l3 : list A) : contiguous l1 l2 -> contiguous l2 l3 -> contiguous l1 l3.
  Proof.
    intros (n & p & q & -> & _) (m & a & b & -> & _).
    exists (length (a ++ p)), (a ++ p), (q ++ b). split; [|reflexivity]. now rewrite <- !app_assoc.
  Qed.

  Lemma contiguous_antisym (l1 l2 : list A) : contiguous l1 l2 -> contiguous l2 l1 -> l1 = l2.
  Proof.
    intros (n & p & q & -> & _) (m & a & b & H & _).
    pose proof (f_equal (@length A) H) as L. rewrite !app_length in L.
    assert (length p = 0 /\ length q = 0) as [H1 H2] by lia.
    apply length_zero_iff_nil in H1. apply length_zero_iff_nil in H2. subst. now rewrite app_nil_r.
  Qed.

  Lemma contiguous_app_l (l1 l2 : list A) : contiguous l1 (l1 ++ l2).
  Proof. exists 0, [], l2. auto. Qed.
  Lemma contiguous_app_r (l1 l2 : list A) : contiguous l2 (l1 ++ l2).
  Proof. exists (length l1), l1, []. now rewrite app_nil_r. Qed.

  Variable destroy : A.

  Lemma insert_into_basic_any_spec ms :
    In destroy (insert_into_basic_any eqb destroy ms) /\
    contiguous ms (insert_into_basic_any eqb destroy ms) /\
    get_interface_of eqb destroy (insert_into_basic_any eqb destroy ms) = ms /\
    length (insert_into_basic_any eqb destroy ms) <= S (length ms).
  Proof.
    assert (R : eqb destroy destroy = true) by now apply eqb_ok.
    unfold insert_into_basic_any. destruct ms as [|h tl].
    - simpl. rewrite R. repeat split; auto. exists 0, [], [destroy]. auto.
    - destruct (eqb h destroy) eqn:E.
      + apply eqb_ok in E. subst h. simpl. rewrite R. repeat split; auto.
        apply (contiguous_app_r [destroy]).
      + destruct (contains_v eqb destroy (h :: tl)) eqn:C.
        * simpl (get_interface_of _ _ _). rewrite E. repeat split; auto.
          -- now apply (contains_v_spec eqb eqb_ok).
          -- apply contiguous_refl.
        * simpl. rewrite R. repeat split; auto. apply (contiguous_app_r [destroy]).
  Qed.
End ConceptP.

Lemma insert_flatten_idem A fuel (ts : list (ty A)) l :
  insert_flatten fuel ts = Some l -> insert_flatten fuel (map Leaf l) = Some l.
Proof.
  intro H. destruct fuel as [|f]; [discriminate|].
  rewrite insert_flatten_spec; [now rewrite flat_leaves|]. rewrite depths_leaves. lia.
Qed.

Lemma without_duplicates_all A (eqb : A -> A -> bool) (H : forall x y, eqb x y = true <-> x = y) l :
  let r := without_duplicates eqb l in
  NoDup r /\ (forall x, In x r <-> In x l) /\ sublist r l /\
  (forall x y, In x l -> In y l -> x <> y -> (before x y r <-> before x y l)).
Proof.
  split; [now apply without_duplicates_nodup|]. split; [intro; now apply without_duplicates_in|].
  split; [now apply without_duplicates_sublist|]. intros. now apply without_duplicates_order.
Qed.

Section SubsP.
  Variable A : Type.
  Variable eqb : A -> A -> bool.
  Hypothesis eqb_ok : forall x y, eqb x y = true <-> x = y.

  Lemma subsumes_iff a b : rc_subsumes eqb 1 a (map Leaf b) = Some (CtOk true) <-> contiguous b a.
  Proof.
    destruct (rc_subsumes_spec eqb eqb_ok (fuel := 1) a (map Leaf b)) as (c & -> & H).
    { rewrite depths_leaves. auto. }
    rewrite flat_leaves in H. rewrite <- H. split; [intros [= ->]; reflexivity|intros ->; reflexivity].
  Qed.

  Lemma subsumption_order :
    (forall a, rc_subsumes eqb 1 a (map Leaf a) = Some (CtOk true)) /\
    (forall a b c, rc_subsumes eqb 1 a (map Leaf b) = Some (CtOk true) ->
                   rc_subsumes eqb 1 b (map Leaf c) = Some (CtOk true) ->
                   rc_subsumes eqb 1 a (map Leaf c) = Some (CtOk true)) /\
    (forall a b, rc_subsumes eqb 1 a (map Leaf b) = Some (CtOk true) ->
                 rc_subsumes eqb 1 b (map Leaf a) = Some (CtOk true) -> a = b) /\
    (forall a b, exists c, rc_append 1 a (map Leaf b) = Some c /\
        rc_subsumes eqb 1 c (map Leaf a) = Some (CtOk true) /\
        rc_subsumes eqb 1 c (map Leaf b) = Some (CtOk true)).
  Proof.
    repeat split.
    - intro a. apply subsumes_iff, contiguous_refl.
    - intros a b c. rewrite !subsumes_iff. intros H1 H2. eapply contiguous_trans; eauto.
    - intros a b. rewrite !subsumes_iff. intros H1 H2. now apply contiguous_antisym.
    - intros a b. exists (a ++ b). rewrite !subsumes_iff. repeat split.
      + rewrite rc_append_spec; [now rewrite flat_leaves|]. rewrite depths_leaves. auto.
      + apply contiguous_app_l.
      + apply contiguous_app_r.
  Qed.

  Lemma any_with_spec destroy fuel (ts : list (ty A)) : max_nesting ts < fuel ->
    exists used, any_with eqb destroy fuel ts = Some used /\
      In destroy used /\ contiguous (flat_map leaves ts) used /\
      get_interface_of eqb destroy used = flat_map leaves ts /\
      length used <= S (length (flat_map leaves ts)).
  Proof.
    intro H. unfold any_with. rewrite insert_flatten_spec by exact H.
    eexists. split; [reflexivity|]. now apply insert_into_basic_any_spec.
  Qed.
End SubsP.
