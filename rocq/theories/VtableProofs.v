(** Proofs about vtable values and layout. *)
From Coq Require Import List Arith Bool Lia.
From Verif Require Import TypeListModel TypeListSpec TypeListProofs VtableModel.
Import ListNotations.

Section Change.
  Context (A V : Type) (eqb : A -> A -> bool) (Heq : decides eqb).

  Lemma change_nth m (v : V) ms : forall tab, length tab = length ms ->
    length (change eqb m v ms tab) = length ms /\
    forall k x t, nth_error ms k = Some x -> nth_error tab k = Some t ->
      (x = m -> nth_error (change eqb m v ms tab) k = Some v) /\
      (x <> m -> nth_error (change eqb m v ms tab) k = Some t).
  Proof.
    induction ms as [|y ms IH]; intros [|u tab] Hl; try discriminate; cbn [change change_from length].
    - split; [reflexivity|]. intros [|k] x t H; discriminate.
    - cbn in Hl. injection Hl as Hl. destruct (IH tab Hl) as [IH1 IH2]. unfold change in IH1, IH2. split; [now rewrite IH1|].
      intros [|k] x t; cbn.
      + intros [= ->] [= ->]. destruct (eqb m x) eqn:E.
        * apply Heq in E. subst. split; [reflexivity|congruence].
        * split; [|reflexivity]. intros ->. assert (eqb m m = true) by now apply Heq. congruence.
      + apply IH2.
  Qed.

  Lemma change_get m (v : V) ms tab : length tab = length ms ->
    (In m ms -> vt_get eqb m ms (change eqb m v ms tab) = Some v) /\
    (forall m', m' <> m -> vt_get eqb m' ms (change eqb m v ms tab) = vt_get eqb m' ms tab).
  Proof.
    intros Hl. destruct (change_nth m v ms tab Hl) as [Hl' Hn]. unfold vt_get. split.
    - intros Hin. destruct (number_of_first eqb m ms) as [k|] eqn:E; [|apply number_of_first_none in E; [contradiction|exact Heq]].
      apply number_of_first_some in E as [E _]; [|exact Heq].
      destruct (nth_error tab k) as [t|] eqn:Ht; [now apply (Hn k m t E Ht)|].
      apply nth_error_None in Ht. assert (k < length ms) by (apply nth_error_Some; congruence). lia.
    - intros m' Hm. destruct (number_of_first eqb m' ms) as [k|] eqn:E; [|reflexivity].
      apply number_of_first_some in E as [E _]; [|exact Heq].
      destruct (nth_error tab k) as [t|] eqn:Ht; [now apply (Hn k m' t E Ht)|].
      apply nth_error_None in Ht. assert (k < length ms) by (apply nth_error_Some; congruence). lia.
  Qed.
End Change.

Section Layout.
  Context (A : Type) (eqb : A -> A -> bool) (Heq : decides eqb) (lay : A -> nat * nat).

  Lemma align_up_shift o a d : 0 < a -> Nat.divide a d -> align_up (d + o) a = d + align_up o a.
  Proof.
    intros Ha [q ->]. unfold align_up. replace (q * a + o + (a - 1)) with (o + (a - 1) + q * a) by lia.
    rewrite Nat.div_add by lia. lia.
  Qed.
  Lemma align_up_divide o a : Nat.divide a (align_up o a).
  Proof. exists ((o + (a - 1)) / a). reflexivity. Qed.
  Lemma align_up_id o a : 0 < a -> Nat.divide a o -> align_up o a = o.
  Proof. intros Ha Hd. rewrite <- (Nat.add_0_r o) at 1. rewrite align_up_shift by assumption. unfold align_up. rewrite Nat.div_small by lia. lia. Qed.

  Lemma layout_length ms : forall o, length (layout lay o ms) = length ms.
  Proof. induction ms as [|m ms IH]; intros o; cbn; [reflexivity|now rewrite IH]. Qed.
  Lemma layout_shift ms : forall o d, (forall m, In m ms -> 0 < snd (lay m) /\ Nat.divide (snd (lay m)) d) ->
    layout lay (d + o) ms = map (Nat.add d) (layout lay o ms).
  Proof.
    induction ms as [|m ms IH]; intros o d H; cbn; [reflexivity|].
    destruct (H m (or_introl eq_refl)) as [Hp Hd]. rewrite align_up_shift by assumption. f_equal.
    rewrite <- Nat.add_assoc. apply IH. intros x Hx. apply H. now right.
  Qed.
  Fixpoint endof (o : nat) (ms : list A) : nat :=
    match ms with [] => o | m :: tl => endof (align_up o (snd (lay m)) + fst (lay m)) tl end.
  Lemma layout_app a : forall o b, layout lay o (a ++ b) = layout lay o a ++ layout lay (endof o a) b.
  Proof. induction a as [|m a IH]; intros o b; cbn; [reflexivity|now rewrite IH]. Qed.

  Lemma layout_head_id o m ms : 0 < snd (lay m) -> layout lay (align_up o (snd (lay m))) (m :: ms) = layout lay o (m :: ms).
  Proof. intros H. cbn. rewrite (align_up_id (align_up o _)); [reflexivity|exact H|apply align_up_divide]. Qed.

  Lemma nth_combine {X Y} (l : list X) (l' : list Y) : forall k x y,
    nth_error l k = Some x -> nth_error l' k = Some y -> nth_error (combine l l') k = Some (x, y).
  Proof.
    revert l'. induction l as [|a l IH]; intros [|b l'] [|k] x y; cbn; try discriminate.
    - now intros [= ->] [= ->].
    - apply IH.
  Qed.

  (** the view reads each method's entry where the full table stores it *)
  Lemma subtable_reads B to from n d m :
    find_subsequence eqb to from = CtOk (Some n) ->
    nth_error (layout lay 0 from) n = Some d ->
    (forall x, In x from -> 0 < snd (lay x)) -> (forall x, In x to -> Nat.divide (snd (lay x)) d) ->
    In m to ->
    exists S k addr, subtable_addr eqb lay B to from = Some S /\
      nth_error to k = Some m /\ (forall j, j < k -> nth_error to j <> Some m) /\
      slot_addr eqb lay S to m = Some addr /\
      nth_error (entries lay B from) (n + k) = Some (addr, m).
  Proof.
    intros Hf Hd Hpos Hdiv Hin.
    destruct (find_subsequence_occurs eqb Heq _ _ Hf) as (pre & post & -> & Hlen).
    assert (Hk : exists k, number_of_first eqb m to = Some k).
    { destruct (number_of_first eqb m to) as [k|] eqn:E; [now exists k|]. apply number_of_first_none in E; [contradiction|exact Heq]. }
    destruct Hk as (k & Hk). pose proof (proj1 (number_of_first_some eqb Heq m to k) Hk) as [Hk1 Hk2].
    destruct to as [|t0 to]; [destruct Hin|].
    set (o := endof 0 pre).
    assert (Hd0 : d = align_up o (snd (lay t0))).
    { rewrite layout_app, nth_error_app2 in Hd by (rewrite layout_length; lia).
      rewrite layout_length, Hlen, Nat.sub_diag in Hd. cbn in Hd. now injection Hd as <-. }
    assert (Ht0 : 0 < snd (lay t0)) by (apply Hpos; apply in_app_iff; right; apply in_app_iff; left; now left).
    assert (Hlay : layout lay o ((t0 :: to) ++ post) = map (Nat.add d) (layout lay 0 (t0 :: to)) ++ layout lay (endof o (t0 :: to)) post).
    { rewrite layout_app. f_equal. rewrite <- (layout_head_id o) by exact Ht0. rewrite <- Hd0.
      rewrite <- (Nat.add_0_r d) at 1. apply layout_shift. intros x Hx. split; [|now apply Hdiv].
      apply Hpos. apply in_app_iff. right. apply in_app_iff. now left. }
    assert (Hnk : exists p, nth_error (layout lay 0 (t0 :: to)) k = Some p).
    { destruct (nth_error (layout lay 0 (t0 :: to)) k) as [p|] eqn:E; [now exists p|].
      apply nth_error_None in E. rewrite layout_length in E. assert (k < length (t0 :: to)) by (apply nth_error_Some; congruence). lia. }
    destruct Hnk as (p & Hp).
    exists (B + d), k, (B + d + p).
    split.
    { unfold subtable_addr. destruct (list_same eqb (t0 :: to) (pre ++ (t0 :: to) ++ post)) eqn:E.
      - apply (list_same_spec eqb Heq) in E. assert (Hl : length (t0 :: to) = length (pre ++ (t0 :: to) ++ post)) by now rewrite <- E.
        rewrite !app_length in Hl. destruct pre; [|cbn in Hl; lia]. cbn in Hlen. subst n. cbn in o. subst o.
        rewrite Hd0. unfold align_up. rewrite Nat.div_small by lia. f_equal. lia.
      - rewrite Hf. rewrite Hd. reflexivity. }
    split; [exact Hk1|]. split; [intros j Hj H; apply (Hk2 j Hj H)|].
    split; [unfold slot_addr; rewrite Hk, Hp; cbn [option_map]; f_equal; lia|].
    unfold entries. apply nth_combine.
    - rewrite nth_error_map. rewrite layout_app, nth_error_app2 by (rewrite layout_length; lia).
      rewrite layout_length, Hlen. replace (n + k - n) with k by lia. fold o. rewrite Hlay.
      rewrite nth_error_app1.
      + rewrite nth_error_map, Hp. cbn [option_map]. f_equal. lia.
      + rewrite map_length. apply nth_error_Some. congruence.
    - rewrite nth_error_app2 by lia. rewrite Hlen. replace (n + k - n) with k by lia. rewrite nth_error_app1; [exact Hk1|].
      apply nth_error_Some. congruence.
  Qed.

  Lemma layout_divide a ms : forall o k d, (forall x, In x ms -> snd (lay x) = a) -> nth_error (layout lay o ms) k = Some d -> Nat.divide a d.
  Proof.
    induction ms as [|m ms IH]; intros o [|k] d H; cbn; try discriminate.
    - intros [= <-]. rewrite <- (H m (or_introl eq_refl)). apply align_up_divide.
    - apply IH. intros x Hx. apply H. now right.
  Qed.

  Lemma uniform_reads B to from n m a :
    0 < a -> (forall x, In x from -> snd (lay x) = a) ->
    find_subsequence eqb to from = CtOk (Some n) -> In m to ->
    exists S k addr, subtable_addr eqb lay B to from = Some S /\
      nth_error to k = Some m /\ (forall j, j < k -> nth_error to j <> Some m) /\
      slot_addr eqb lay S to m = Some addr /\
      nth_error (entries lay B from) (n + k) = Some (addr, m).
  Proof.
    intros Ha Hal Hf Hin. destruct (find_subsequence_occurs eqb Heq _ _ Hf) as (pre & post & Hfrom & Hlen).
    assert (Hn : n < length from).
    { rewrite Hfrom, !app_length. destruct to; [destruct Hin|cbn; lia]. }
    destruct (nth_error (layout lay 0 from) n) as [d|] eqn:Hd; [|apply nth_error_None in Hd; rewrite layout_length in Hd; lia].
    eapply subtable_reads; [exact Hf|exact Hd| | |exact Hin].
    - intros x Hx. now rewrite (Hal x Hx).
    - intros x Hx. rewrite (Hal x); [now apply (layout_divide a from 0 n)|].
      rewrite Hfrom. apply in_app_iff. right. apply in_app_iff. now left.
  Qed.
End Layout.

Lemma libeqb_decides : decides libeqb.
Proof.
  intros [n| | | |] [m| | | |]; cbn; split; intros H; try discriminate; try reflexivity; try (now injection H as <-; apply Nat.eqb_refl).
  now apply Nat.eqb_eq in H as ->.
Qed.

(** only library methods, no visitor tags: every conversion is right *)
Lemma library_reads B to from n m : ~ In LVisitorTag from ->
  find_subsequence libeqb to from = CtOk (Some n) -> In m to ->
  exists S k addr, subtable_addr libeqb liblay B to from = Some S /\
    nth_error to k = Some m /\ (forall j, j < k -> nth_error to j <> Some m) /\
    slot_addr libeqb liblay S to m = Some addr /\
    nth_error (entries liblay B from) (n + k) = Some (addr, m).
Proof.
  intros Hno. apply (uniform_reads _ _ libeqb_decides liblay B to from n m 8); [lia|].
  intros [k| | | |] Hx; try reflexivity. contradiction.
Qed.

(** two empty entries in a row: everything after them is read from the wrong place *)
Lemma library_misreads :
  exists to from n m S addr, find_subsequence libeqb to from = CtOk (Some n) /\ In m to /\
    subtable_addr libeqb liblay 64 to from = Some S /\ slot_addr libeqb liblay S to m = Some addr /\
    ~ In (addr, m) (entries liblay 64 from).
Proof.
  exists [LVisitorTag; LFun 1], [LFun 0; LVisitorTag; LVisitorTag; LFun 1], 2, (LFun 1), 73, 81.
  split; [reflexivity|]. split; [right; now left|]. split; [now vm_compute|]. split; [now vm_compute|].
  intros H. replace (entries liblay 64 _) with [(64, LFun 0); (72, LVisitorTag); (73, LVisitorTag); (80, LFun 1)] in H by now vm_compute.
  cbn [In] in H. destruct H as [H|[H|[H|[H|[]]]]]; apply (f_equal fst) in H; cbn [fst] in H; apply Nat.eqb_eq in H; vm_compute in H; discriminate.
Qed.
