From stdpp Require Import list.
From Verif Require Import MoveModel MoveSpec.

Lemma times_app e a b : times e (a ++ b) = times e a + times e b.
Proof. unfold times. by rewrite List.filter_app, app_length. Qed.
Lemma times_cons e x l : times e (x :: l) = (if decide (x = e) then 1 else 0) + times e l.
Proof. unfold times. cbn. destruct (decide (x = e)) as [->|H]; [by rewrite bool_decide_eq_true_2|by rewrite bool_decide_eq_false_2]. Qed.

Section Proofs.
  Context (copyable has_move : nat -> bool) (mf : nat -> nat).
  Notation construct := (construct copyable has_move mf).
  Notation init_params := (init_params copyable has_move mf).
  Notation emplace_cols := (emplace_cols copyable has_move mf).
  Notation m_insert := (m_insert copyable has_move mf).
  Notation iter_move := (iter_move copyable has_move mf).
  (** moved: an rvalue whose field has a move constructor *)
  Definition moved (rv : bool) (j : nat) : bool := rv && has_move j.
  Lemma construct_ok j rv x x' e : construct j rv x = Some (x', e) ->
    (moved rv j = true /\ x' = mf x /\ e = MMove j) \/ (moved rv j = false /\ copyable j = true /\ x' = x /\ e = MCopy j).
  Proof using Type.
    unfold MoveModel.construct, moved. destruct (rv && has_move j); [intros [= <- <-]; by left|].
    destruct (copyable j); [|done]. intros [= <- <-]. by right.
  Qed.
  Lemma construct_def j rv x : is_Some (construct j rv x) <-> moved rv j = true \/ copyable j = true.
  Proof using Type.
    unfold MoveModel.construct, moved. destruct (rv && has_move j), (copyable j); split; try naive_solver. intros []; naive_solver.
  Qed.

  Lemma init_params_ok rv v : forall j v' es, init_params j rv v = Some (v', es) ->
    length v' = length v /\
    (forall i x, v !! i = Some x -> v' !! i = Some (if moved rv (j + i) then mf x else x)) /\
    (forall i, i < length v -> times (MMove (j + i)) es = (if moved rv (j + i) then 1 else 0) /\
                               times (MCopy (j + i)) es = (if moved rv (j + i) then 0 else 1)) /\
    (forall i, i < j -> times (MMove i) es = 0 /\ times (MCopy i) es = 0).
  Proof using Type.
    induction v as [|x v IH]; intros j v' es H; cbn in H.
    - simplify_eq. repeat split; [intros i x Hi; by rewrite lookup_nil in Hi|cbn in *; lia..].
    - destruct (construct j rv x) as [[x' e]|] eqn:E; [|done].
      destruct (init_params (S j) rv v) as [[tl es']|] eqn:E'; [|done]. simplify_eq.
      destruct (IH _ _ _ E') as (H1 & H2 & H3 & H4). apply construct_ok in E.
      split; [cbn; lia|]. split; [|split].
      + intros [|i] y Hy; cbn in *.
        * simplify_eq. rewrite Nat.add_0_r. destruct E as [(-> & -> & _)|(-> & _ & -> & _)]; done.
        * rewrite Nat.add_succ_r. by apply H2.
      + intros [|i] Hi; rewrite !times_cons.
        * rewrite Nat.add_0_r. destruct (H4 j) as [-> ->]; [lia|].
          destruct E as [(-> & _ & ->)|(-> & _ & _ & ->)]; split; repeat case_decide; simplify_eq; done.
        * cbn in Hi. rewrite Nat.add_succ_r. destruct (H3 i) as [Ha Hb]; [lia|]. rewrite Nat.add_succ_l in *. rewrite Ha, Hb.
          destruct E as [(_ & _ & ->)|(_ & _ & _ & ->)]; split; repeat case_decide; simplify_eq; try lia.
      + intros i Hi. rewrite !times_cons. destruct (H4 i) as [-> ->]; [lia|].
        destruct E as [(_ & _ & ->)|(_ & _ & _ & ->)]; split; repeat case_decide; simplify_eq; lia.
  Qed.
  Lemma emplace_cols_ok i v : forall j cols cols' es, emplace_cols j i v cols = Some (cols', es) ->
    length cols = length v /\ row_inserted i v cols cols' /\
    (forall k, k < length v -> times (MCopy (j + k)) es = 1 /\ copyable (j + k) = true) /\
    (forall k, times (MMove k) es = 0) /\ (forall k, k < j -> times (MCopy k) es = 0).
  Proof using Type.
    induction v as [|x v IH]; intros j [|col cols] cols' es H; cbn [MoveModel.emplace_cols] in H; try done.
    - simplify_eq. split; [done|]. split; [|cbn; repeat split; lia]. split; [done|]. intros k a b Ha. by rewrite lookup_nil in Ha.
    - destruct (construct j false x) as [[x' e]|] eqn:E; [|done].
      destruct (emplace_cols (S j) i v cols) as [[tl es']|] eqn:E'; [|done].
      destruct (i <=? length col) eqn:Hle; [|done]. apply Nat.leb_le in Hle. simplify_eq.
      destruct (IH _ _ _ _ E') as (H1 & [H2 H2'] & H3 & H4 & H5). apply construct_ok in E as [(Hm & _)|(_ & Hc & _ & ->)]; [done|].
      split; [cbn; lia|]. split; [|split; [|split]].
      + split; [cbn; lia|]. intros [|k] a b Ha Hb; cbn in *; [|by eapply H2'].
        simplify_eq. exists (take i a), (drop i a). rewrite take_drop. split; [done|]. split; [rewrite take_length; lia|done].
      + intros [|k] Hk; rewrite times_cons.
        * rewrite Nat.add_0_r, H5 by lia. rewrite decide_True by done. done.
        * cbn in Hk. rewrite Nat.add_succ_r. destruct (H3 k) as [Ha Hb]; [lia|]. rewrite Nat.add_succ_l in *. rewrite Ha, Hb.
          rewrite decide_False; [done|]. intros [=]. lia.
      + intros k. rewrite times_cons, H4. by rewrite decide_False.
      + intros k Hk. rewrite times_cons, H5 by lia. rewrite decide_False; [done|]. intros [=]. lia.
  Qed.

  Theorem insert_ok i rv v cols cols' v' es : m_insert i rv v cols = Some (cols', v', es) ->
    length cols = length v /\ row_inserted i v cols cols' /\ length v' = length v /\
    (forall j x, v !! j = Some x -> v' !! j = Some (if rv && has_move j then mf x else x)) /\
    forall j, j < length v -> times (MMove j) es = (if rv && has_move j then 1 else 0).
  Proof using Type.
    unfold MoveModel.m_insert. destruct (init_params 0 rv v) as [[a ea]|] eqn:E1; [|done].
    destruct (emplace_cols 0 i v cols) as [[b eb]|] eqn:E2; [|done]. intros [= <- <- <-].
    apply init_params_ok in E1 as (H1 & H2 & H3 & _). apply emplace_cols_ok in E2 as (H4 & H5 & _ & H6 & _).
    split; [done|]. split; [done|]. split; [done|]. split; [done|].
    intros j Hj. rewrite times_app, H6, Nat.add_0_r. by destruct (H3 j Hj) as [Ha _].
  Qed.
  Theorem insert_copies i rv v cols cols' v' es j : m_insert i rv v cols = Some (cols', v', es) -> j < length v ->
    times (MCopy j) es = if rv && has_move j then 1 else 2.
  Proof using Type.
    unfold MoveModel.m_insert. destruct (init_params 0 rv v) as [[a ea]|] eqn:E1; [|done].
    destruct (emplace_cols 0 i v cols) as [[b eb]|] eqn:E2; [|done]. intros [= <- <- <-] Hj.
    apply init_params_ok in E1 as (_ & _ & H3 & _). apply emplace_cols_ok in E2 as (_ & _ & H5 & _).
    rewrite times_app. destruct (H3 j Hj) as [_ Ha], (H5 j Hj) as [Hb _]. cbn in Ha, Hb. rewrite Ha, Hb. unfold moved. by destruct (_ && _).
  Qed.
  Theorem insert_move_only i rv v cols j : j < length v -> copyable j = false -> m_insert i rv v cols = None.
  Proof using Type.
    intros Hj Hc. unfold MoveModel.m_insert. destruct (init_params 0 rv v) as [[a ea]|]; [|done].
    destruct (emplace_cols 0 i v cols) as [[b eb]|] eqn:E2; [|done].
    apply emplace_cols_ok in E2 as (_ & _ & H5 & _). destruct (H5 j Hj) as [_ Hb]. cbn in Hb. congruence.
  Qed.

  Lemma iter_move_ok i cols : forall j v cols' es, iter_move j i cols = Some (v, cols', es) ->
    is_row i cols v /\ row_replaced i (imap (fun k x => if has_move (j + k) then mf x else x) v) cols cols' /\
    (forall k, k < length cols -> times (MMove (j + k)) es = (if has_move (j + k) then 1 else 0) /\
                                  times (MCopy (j + k)) es = (if has_move (j + k) then 0 else 1)) /\
    (forall k, k < j -> times (MMove k) es = 0 /\ times (MCopy k) es = 0).
  Proof using Type.
    induction cols as [|col cols IH]; intros j v cols' es H; cbn [MoveModel.iter_move] in H.
    - simplify_eq. split; [split; [done|]; intros k c Hk; by rewrite lookup_nil in Hk|].
      split; [split; [done|]; split; [done|]; intros k c c' Hk; by rewrite lookup_nil in Hk|].
      cbn. repeat split; lia.
    - destruct (col !! i) as [x|] eqn:Ex; [|done]. destruct (construct j true x) as [[x' e]|] eqn:E; [|done].
      destruct (iter_move (S j) i cols) as [[[v1 tl] es']|] eqn:E'; [|done]. simplify_eq.
      destruct (IH _ _ _ _ E') as ((H1 & H2) & (H3 & H4 & H5) & H6 & H7). apply construct_ok in E. unfold moved in E. cbn in E.
      pose proof (lookup_lt_Some _ _ _ Ex) as Hlt.
      split; [|split; [|split]].
      + split; [cbn; lia|]. intros [|k] c Hk; cbn in *; [simplify_eq; done|by apply H2].
      + split; [cbn; lia|]. split; [rewrite imap_length; cbn; lia|]. intros [|k] c c' Hk Hk'; cbn in *.
        * simplify_eq. rewrite insert_length. split; [done|]. split.
          -- rewrite list_lookup_insert by done. rewrite Nat.add_0_r. destruct E as [(-> & -> & _)|(-> & _ & -> & _)]; done.
          -- intros k Hne. by rewrite list_lookup_insert_ne by done.
        * destruct (H5 k c c' Hk Hk') as (Ha & Hb & Hc). split; [done|]. split; [|done]. rewrite Hb.
          f_equal. apply imap_ext. intros q y _. cbn. by rewrite Nat.add_succ_r.
      + intros [|k] Hk; rewrite !times_cons.
        * rewrite Nat.add_0_r. destruct (H7 j) as [-> ->]; [lia|].
          destruct E as [(-> & _ & ->)|(-> & _ & _ & ->)]; split; repeat case_decide; simplify_eq; done.
        * cbn in Hk. rewrite Nat.add_succ_r. destruct (H6 k) as [Ha Hb]; [lia|]. rewrite Nat.add_succ_l in *. rewrite Ha, Hb.
          destruct E as [(_ & _ & ->)|(_ & _ & _ & ->)]; split; repeat case_decide; simplify_eq; try lia.
      + intros k Hk. rewrite !times_cons. destruct (H7 k) as [-> ->]; [lia|].
        destruct E as [(_ & _ & ->)|(_ & _ & _ & ->)]; split; repeat case_decide; simplify_eq; lia.
  Qed.
  Lemma iter_move_def i cols : forall j, (forall k c, cols !! k = Some c -> i < length c /\ (has_move (j + k) = true \/ copyable (j + k) = true)) ->
    is_Some (iter_move j i cols).
  Proof using Type.
    induction cols as [|col cols IH]; intros j H; cbn [MoveModel.iter_move]; [eauto|].
    destruct (H 0 col eq_refl) as [Hi Hm]. rewrite Nat.add_0_r in Hm.
    destruct (lookup_lt_is_Some_2 col i Hi) as [x ->].
    destruct (proj2 (construct_def j true x) Hm) as [[x' e] ->].
    destruct (IH (S j)) as [[[v tl] es] ->]; [|eauto].
    intros k c Hk. specialize (H (S k) c Hk). by rewrite Nat.add_succ_r in H.
  Qed.
  Theorem iter_move_right i cols : (forall j col, cols !! j = Some col -> i < length col /\ (has_move j = true \/ copyable j = true)) ->
    exists v cols' es, iter_move 0 i cols = Some (v, cols', es) /\ is_row i cols v /\
    row_replaced i (imap (fun j x => if has_move j then mf x else x) v) cols cols' /\
    forall j, j < length cols -> times (MMove j) es + times (MCopy j) es = 1 /\ (has_move j = true -> times (MCopy j) es = 0).
  Proof using Type.
    intros H. destruct (iter_move_def i cols 0 H) as [[[v cols'] es] E]. exists v, cols', es. split; [done|].
    apply iter_move_ok in E as (H1 & H2 & H3 & _). split; [done|]. split; [exact H2|].
    intros j Hj. destruct (H3 j Hj) as [Ha Hb]. cbn in Ha, Hb. rewrite Ha, Hb. by destruct (has_move j).
  Qed.
End Proofs.
