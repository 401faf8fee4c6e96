(** Anys as keys of std::set (C100). *)
From stdpp Require Import gmap list sorting.
From Verif Require Import TypeListModel TypeListSpec TypeListProofs AnyModel AnyInv AnySteps AnyLife AnyHistory AnyExec AnyFacts PolyModel PolySpec PolyFacts2 VectorSpec VectorProofs KeyModel KeySpec KeyHistory.

Lemma sorted_app {A} (R : A -> A -> Prop) l l' : StronglySorted R (l ++ l') <->
  StronglySorted R l /\ StronglySorted R l' /\ (forall x y, In x l -> In y l' -> R x y).
Proof.
  induction l as [|a l IH]; cbn.
  - split; [|by intros (_ & ? & _)]. intros H. split; [constructor|]. split; [done|]. by intros ? ? [].
  - split.
    + intros H. apply StronglySorted_inv in H as [H1 H2]. rewrite IH in H1. destruct H1 as (H1 & H3 & H4). rewrite Forall_forall in H2.
      split; [constructor; [done|]|split; [done|]].
      * rewrite Forall_forall. intros y Hy. apply H2. rewrite elem_of_app. by left.
      * intros x y [<-|Hx] Hy; [|by apply H4]. apply H2. rewrite elem_of_app, !elem_of_list_In. by right.
    + intros (H1 & H2 & H3). apply StronglySorted_inv in H1 as [H1 H4]. constructor.
      * apply IH. split; [done|]. split; [done|]. intros x y Hx Hy. apply H3; [by right|done].
      * rewrite Forall_forall in *. intros y Hy. rewrite elem_of_app in Hy. destruct Hy as [Hy|Hy]; [by apply H4|]. apply H3; [by left|]. by rewrite <- elem_of_list_In.
Qed.
Lemma inorder_join l r : inorder (t_join l r) = inorder l ++ inorder r.
Proof. induction l as [|a _ x b IH]; cbn; [done|]. by rewrite IH, <- app_assoc. Qed.
Lemma unlink_id t j : ~ In j (inorder t) -> inorder (t_unlink t j) = inorder t.
Proof.
  induction t as [|l IHl x r IHr]; cbn; [done|]. rewrite in_app_iff. cbn. intros H. destruct (x =? j) eqn:Hx; [apply Nat.eqb_eq in Hx; tauto|].
  cbn. rewrite IHl, IHr; tauto.
Qed.
Lemma unlink_spec t j A B : NoDup (inorder t) -> inorder t = A ++ j :: B -> inorder (t_unlink t j) = A ++ B.
Proof.
  revert A B. induction t as [|l IHl x r IHr]; intros A B Hn H; [by destruct A|]. cbn in Hn, H |- *.
  apply NoDup_app in Hn as (Hn1 & Hn2 & Hn3). apply NoDup_cons in Hn3 as [Hn3 Hn4].
  destruct (x =? j) eqn:Hx.
  - apply Nat.eqb_eq in Hx as ->. rewrite inorder_join.
    apply app_eq_inv, or_comm in H as [(k & H1 & H2)|(k & H1 & H2)].
    + destruct k as [|y k]; cbn in H2.
      * injection H2 as H2. by rewrite H1, app_nil_r, H2.
      * injection H2 as -> H2. exfalso. apply Hn3. rewrite H2. set_solver.
    + destruct k as [|y k]; cbn in H2.
      * injection H2 as H2. rewrite H1, app_nil_r, H2. done.
      * injection H2 as -> H2. exfalso. apply (Hn2 y); [rewrite H1; set_solver|set_solver].
  - apply Nat.eqb_neq in Hx. cbn. apply app_eq_inv, or_comm in H as [(k & H1 & H2)|(k & H1 & H2)].
    + destruct k as [|y k]; cbn in H2; [injection H2 as -> _; done|]. injection H2 as -> H2.
      rewrite (IHr k B Hn4 H2). rewrite unlink_id.
      * rewrite H1, <- app_assoc. done.
      * intros Hin. rewrite <- elem_of_list_In in Hin. apply (Hn2 j Hin). rewrite H2. set_solver.
    + destruct k as [|y k]; cbn in H2; [injection H2 as -> _; done|]. injection H2 as -> H2.
      rewrite (IHl A k Hn1 H1). rewrite unlink_id.
      * rewrite H2, <- app_assoc. done.
      * intros Hin. rewrite <- elem_of_list_In in Hin. apply (Hn2 y); [rewrite H1; set_solver|set_solver].
Qed.

(** ** The search, for keys of any order *)
Section Order.
  Context (O : obs) (w : world) (k : nat) (Lt_ : nat -> nat -> Prop) (P : nat -> Prop).
  Context (Hless : forall i j, P i -> P j -> exists b, less O i j w = Ok b w /\ (b = true <-> Lt_ i j)).
  Context (Htr : forall i j n, P i -> P j -> P n -> Lt_ i j -> Lt_ j n -> Lt_ i n) (Hk : P k).

  Lemma descend_spec t j : StronglySorted Lt_ (inorder t) -> (forall i, In i (inorder t) -> P i) ->
    exists q A B, t_descend O t k j w = Ok (match last A with Some a => Some a | None => j end, q) w /\ inorder t = A ++ B /\
      (forall n, inorder (t_plug t q n) = A ++ n :: B) /\ (forall a, In a A -> ~ Lt_ k a) /\ (forall b, In b B -> Lt_ k b).
  Proof.
    revert j. induction t as [|l IHl x r IHr]; intros j Hs HP.
    - exists [], [], []. cbn. split; [done|]. split; [done|]. split; [done|]. split; by intros ? [].
    - cbn [inorder] in Hs, HP. apply sorted_app in Hs as (S1 & S2 & S3). apply StronglySorted_inv in S2 as [S2 S4]. rewrite Forall_forall in S4.
      assert (P x) as HPx by (apply HP; rewrite in_app_iff; right; by left).
      destruct (Hless k x Hk HPx) as (b & Hb & Hiff). cbn [t_descend]. rewrite (bind_ok _ _ _ _ _ Hb). destruct b.
      + assert (Lt_ k x) as Hkx by by apply Hiff.
        destruct (IHl j S1) as (q & A & B & H1 & H2 & H3 & H4 & H5). { intros i Hi. apply HP. rewrite in_app_iff. by left. }
        rewrite (bind_ok _ _ _ _ _ H1). exists (false :: q), A, (B ++ x :: inorder r). split; [done|]. cbn. split; [by rewrite H2, <- app_assoc|].
        split; [intros n; by rewrite H3, <- app_assoc|]. split; [done|].
        intros y Hy. rewrite in_app_iff in Hy. destruct Hy as [Hy|[<-|Hy]]; [by apply H5|done|].
        apply (Htr k x y); [done|done|apply HP; rewrite in_app_iff; right; by right|done|]. apply S4. by rewrite elem_of_list_In.
      + assert (~ Lt_ k x) as Hkx by (intros ?; by assert (false = true) by by apply Hiff).
        destruct (IHr (Some x) S2) as (q & A & B & H1 & H2 & H3 & H4 & H5). { intros i Hi. apply HP. rewrite in_app_iff. right. by right. }
        rewrite (bind_ok _ _ _ _ _ H1). exists (true :: q), (inorder l ++ x :: A), B.
        split. { cbn. rewrite last_app, last_cons. by destruct (last A). }
        cbn. split; [by rewrite H2, <- app_assoc|]. split; [intros n; by rewrite H3, <- app_assoc|]. split; [|done].
        intros y Hy. rewrite in_app_iff in Hy. destruct Hy as [Hy|[<-|Hy]]; [|done|by apply H4].
        intros Hky. apply Hkx. apply (Htr k y x); [done|apply HP; rewrite in_app_iff; by left|done|done|]. apply S3; [done|by left].
  Qed.

  Lemma lower_spec t y : StronglySorted Lt_ (inorder t) -> (forall i, In i (inorder t) -> P i) ->
    exists A B, t_lower O t k y w = Ok (match B with b :: _ => Some b | [] => y end) w /\ inorder t = A ++ B /\
      (forall a, In a A -> Lt_ a k) /\ (forall b, In b B -> ~ Lt_ b k).
  Proof.
    revert y. induction t as [|l IHl x r IHr]; intros y Hs HP.
    - exists [], []. cbn. split; [done|]. split; [done|]. split; by intros ? [].
    - cbn [inorder] in Hs, HP. apply sorted_app in Hs as (S1 & S2 & S3). apply StronglySorted_inv in S2 as [S2 S4]. rewrite Forall_forall in S4.
      assert (P x) as HPx by (apply HP; rewrite in_app_iff; right; by left).
      destruct (Hless x k HPx Hk) as (b & Hb & Hiff). cbn [t_lower]. rewrite (bind_ok _ _ _ _ _ Hb). destruct b.
      + assert (Lt_ x k) as Hxk by by apply Hiff.
        destruct (IHr y S2) as (A & B & H1 & H2 & H3 & H4). { intros i Hi. apply HP. rewrite in_app_iff. right. by right. }
        rewrite H1. exists (inorder l ++ x :: A), B. split; [done|]. cbn. split; [by rewrite H2, <- app_assoc|]. split; [|done].
        intros z Hz. rewrite in_app_iff in Hz. destruct Hz as [Hz|[<-|Hz]]; [|done|by apply H3].
        apply (Htr z x k); [apply HP; rewrite in_app_iff; by left|done|done| |done]. apply S3; [done|by left].
      + assert (~ Lt_ x k) as Hxk by (intros ?; by assert (false = true) by by apply Hiff).
        destruct (IHl (Some x) S1) as (A & B & H1 & H2 & H3 & H4). { intros i Hi. apply HP. rewrite in_app_iff. by left. }
        rewrite H1. exists A, (B ++ x :: inorder r). split; [by destruct B|]. cbn. split; [by rewrite H2, <- app_assoc|]. split; [done|].
        intros z Hz. rewrite in_app_iff in Hz. destruct Hz as [Hz|[<-|Hz]]; [by apply H4|done|].
        intros Hzk. apply Hxk. apply (Htr x z k); [done|apply HP; rewrite in_app_iff; right; by right|done| |done]. apply S4. by rewrite elem_of_list_In.
  Qed.
End Order.

Section Proofs.
  Context (E : env) (O : obs) (ms : list method) (T : nat) (Hwf : env_wf E) (HO : obs_wf O) (HW : weakly_ordered O T) (HK : ordered_class ms).

  Notation lt x y := (ob_cmp O T x y = Some Lt).
  Definition holds (w : world) (i x : nat) : Prop := key ms w i (Some (T, x)).
  Definition before (w : world) (i j : nat) : Prop := exists x y, holds w i x /\ holds w j y /\ lt x y.

  Lemma holds_fun w i x y : holds w i x -> holds w i y -> x = y.
  Proof. intros [_ H] [_ H']. congruence. Qed.
  Lemma before_iff w i j x y : holds w i x -> holds w j y -> before w i j <-> lt x y.
  Proof.
    intros Hi Hj. split.
    - intros (x' & y' & Hi' & Hj' & H). by rewrite (holds_fun _ _ _ _ Hi Hi'), (holds_fun _ _ _ _ Hj Hj').
    - intros H. by exists x, y.
  Qed.
  Lemma less_spec w i j : reachable E w -> (exists x, holds w i x) -> (exists y, holds w j y) -> exists b, less O i j w = Ok b w /\ (b = true <-> before w i j).
  Proof.
    intros Hr [x Hi] [y Hj]. pose proof Hi as [(a & Ha & Hm) Hc]. pose proof Hj as [(b & Hb & Hm') Hc'].
    destruct (cmp_any_fact E O w i j a b Hwf HO Hr Ha Hb) as (ci & cj & r & e & H1 & H2 & H3 & H4 & _); [rewrite Hm; apply HK|rewrite Hm'; apply HK|right; congruence|].
    replace ci with (Some (T, x)) in H4 by congruence. replace cj with (Some (T, y)) in H4 by congruence. cbn in H4. rewrite decide_True in H4 by done.
    unfold less. rewrite (bind_ok _ _ _ _ _ H3). eexists. split; [done|]. rewrite (before_iff _ _ _ _ _ Hi Hj), H4. by destruct (ob_cmp O T x y) as [[]|].
  Qed.
  Lemma before_trans w i j n : before w i j -> before w j n -> before w i n.
  Proof.
    intros (x & y & H1 & H2 & H3) (y' & z & H4 & H5 & H6). rewrite (holds_fun _ _ _ _ H4 H2) in H6. exists x, z. split; [done|]. split; [done|]. by apply (o_trans O T HW _ y).
  Qed.

  Record sorted (w : world) (t : tree) (L : list nat) : Prop := {
    st_reach : reachable E w;
    st_nodup : NoDup (inorder t);
    st_hold : hold_in_order ms T w (inorder t) L;
    st_inc : increasing O T L
  }.
  Lemma holds_of w l L i : hold_in_order ms T w l L -> In i l -> exists x, In x L /\ holds w i x.
  Proof.
    induction 1 as [|j y l L H _ IH]; [by intros []|]. intros [<-|Hin]; [exists y; split; [by left|done]|]. destruct (IH Hin) as (x & Hx & H'). exists x. split; [by right|done].
  Qed.
  Lemma held_by w l L x : hold_in_order ms T w l L -> In x L -> exists i, In i l /\ holds w i x.
  Proof.
    induction 1 as [|j y l L H _ IH]; [by intros []|]. intros [<-|Hin]; [exists j; split; [by left|done]|]. destruct (IH Hin) as (i & Hi & H'). exists i. split; [by right|done].
  Qed.
  Lemma names_sorted w l L : hold_in_order ms T w l L -> increasing O T L -> StronglySorted (before w) l.
  Proof.
    induction 1 as [|j y l L H HF IH]; intros HI; [constructor|]. apply StronglySorted_inv in HI as [HI HA]. constructor; [by apply IH|].
    rewrite Forall_forall in *. intros i Hi. rewrite elem_of_list_In in Hi. destruct (holds_of _ _ _ _ HF Hi) as (x & Hx & Hh). exists y, x. split; [done|]. split; [done|].
    apply HA. by rewrite elem_of_list_In.
  Qed.

  Lemma key_view' w w' i x : view w' i = view w i -> holds w i x -> holds w' i x.
  Proof. intros Hv [(a & Ha & Hm) Hc]. split; [exists a; split; [|done]|by rewrite (view_content _ _ _ Hv)]. by apply (view_any w). Qed.
  Lemma hold_view w w' l L : (forall i, In i l -> view w' i = view w i) -> hold_in_order ms T w l L -> hold_in_order ms T w' l L.
  Proof.
    intros Hv H. induction H as [|i x l L H _ IH]; [constructor|]. constructor; [apply (key_view' w); [apply Hv; by left|done]|]. apply IH. intros j Hj. apply Hv. by right.
  Qed.
  Lemma sorted_view w w' t L : sorted w t L -> reachable E w' -> (forall x, In x (inorder t) -> view w' x = view w x) -> sorted w' t L.
  Proof. intros HS Hr Hv. split; [done|apply HS| |apply HS]. apply (hold_view w); [done|apply HS]. Qed.

  Lemma find_spec w t L k x : sorted w t L -> holds w k x ->
    exists y, t_find O t k w = Ok y w /\
      match y with
      | Some j => exists A B A' v B', inorder t = A ++ j :: B /\ L = A' ++ v :: B' /\ length A = length A' /\ holds w j v /\ equivalent O T x v
      | None => ~ has_equivalent O T L x
      end.
  Proof.
    intros HS Hk. pose proof (st_hold _ _ _ HS) as Hh. pose proof (st_reach _ _ _ HS) as Hr.
    destruct (lower_spec O w k (before w) (fun i => exists x, holds w i x)) with (t := t) (y := @None nat) as (A & B & H1 & H2 & H3 & H4).
    { intros i j. by apply less_spec. } { intros i j n _ _ _. apply before_trans. } { by exists x. } { eapply names_sorted; apply HS. }
    { intros i Hi. destruct (holds_of _ _ _ _ Hh Hi) as (z & _ & ?). by exists z. }
    rewrite H2 in Hh. apply Forall2_app_inv_l in Hh as (LA & LB & HA & HB & ->). unfold t_find. rewrite (bind_ok _ _ _ _ _ H1). pose proof (st_inc _ _ _ HS) as Hi.
    apply sorted_app in Hi as (I1 & I2 & I3).
    destruct B as [|j B].
    - exists None. split; [done|]. apply Forall2_nil_inv_l in HB as ->. rewrite app_nil_r. intros (y & Hy & [He1 He2]).
      destruct (held_by _ _ _ _ HA Hy) as (i & Hi & Hh). apply He2. apply (before_iff w i k); [done|done|by apply H3].
    - apply Forall2_cons_inv_l in HB as (v & LB' & Hv & HB & ->).
      destruct (less_spec w k j Hr) as (b & Hb & Hiff); [by exists x|by exists v|]. rewrite (bind_ok _ _ _ _ _ Hb).
      rewrite (before_iff w k j x v Hk Hv) in Hiff. destruct b.
      + exists None. split; [done|]. intros (y & Hy & [He1 He2]). rewrite in_app_iff in Hy. destruct Hy as [Hy|[<-|Hy]].
        * destruct (held_by _ _ _ _ HA Hy) as (i & Hi & Hh). apply He2. apply (before_iff w i k); [done|done|by apply H3].
        * apply He1. by apply Hiff.
        * apply He1. apply (o_trans O T HW _ v); [by apply Hiff|]. apply StronglySorted_inv in I2 as [_ I2]. rewrite Forall_forall in I2. apply I2. by rewrite elem_of_list_In.
      + exists (Some j). split; [done|]. exists A, B, LA, v, LB'. split; [done|]. split; [done|]. split; [by eapply Forall2_length|]. split; [done|]. split.
        * intros H. by apply Hiff in H.
        * intros H. apply (H4 j); [by left|]. by apply (before_iff w j k v x).
  Qed.

  (** the values equivalent to one are one *)
  Lemma equivalent_lt x y z : equivalent O T x y -> equivalent O T x z -> ~ lt y z.
  Proof. intros [H1 H2] [H3 H4]. by apply (o_neg_trans O T HW y x z). Qed.
  Lemma placed_none L x L' : placed O T L x L' -> ~ has_equivalent O T L x.
  Proof.
    intros (A & B & -> & _ & HA & HB) (y & Hy & [H1 H2]). rewrite in_app_iff in Hy. destruct Hy as [Hy|Hy]; [by apply H2, HA|by apply H1, HB].
  Qed.
  Lemma placed_fun L x L1 L2 : increasing O T L -> placed O T L x L1 -> placed O T L x L2 -> L1 = L2.
  Proof.
    intros HI (A & B & -> & -> & HA & HB) (A' & B' & H & -> & HA' & HB'). 
    apply app_eq_inv, or_comm in H as [(k & -> & ->)|(k & -> & ->)].
    - destruct k as [|y k]; [by rewrite app_nil_r|]. exfalso. apply (o_irrefl O T HW x). apply (o_trans O T HW _ y); [apply HB; by left|apply HA'; rewrite in_app_iff; right; by left].
    - destruct k as [|y k]; [by rewrite app_nil_r|]. exfalso. apply (o_irrefl O T HW x). apply (o_trans O T HW _ y); [apply HB'; by left|apply HA; rewrite in_app_iff; right; by left].
  Qed.
  Lemma taken_at A v B L x L' : L = A ++ v :: B -> increasing O T L -> equivalent O T x v -> taken O T L x L' -> L' = A ++ B.
  Proof.
    intros -> HI He (A' & v' & B' & H & -> & He'). apply sorted_app in HI as (I1 & I2 & I3). apply StronglySorted_inv in I2 as [I2 I4]. rewrite Forall_forall in I4.
    apply app_eq_inv, or_comm in H as [(k & H1 & H2)|(k & H1 & H2)].
    - destruct k as [|y k]; cbn in H2; [injection H2 as -> ->; by rewrite H1, app_nil_r|]. injection H2 as -> ->. exfalso.
      apply (equivalent_lt x y v'); [done|done|]. apply I4. set_solver.
    - destruct k as [|y k]; cbn in H2; [injection H2 as -> ->; by rewrite H1, app_nil_r|]. injection H2 as -> ->. exfalso.
      apply (equivalent_lt x y v); [done|done|]. apply I3; [|by left]. rewrite H1, in_app_iff. right. by left.
  Qed.

  Lemma tree_find w t L k x : sorted w t L -> key ms w k (Some (T, x)) ->
    exists y, t_find O t k w = Ok y w /\ (y = None <-> ~ has_equivalent O T L x) /\
      (forall j, y = Some j -> In j (inorder t) /\ exists v, key ms w j (Some (T, v)) /\ equivalent O T x v).
  Proof.
    intros HS Hk. destruct (find_spec w t L k x HS Hk) as (y & H1 & H2). exists y. split; [done|]. destruct y as [j|].
    - destruct H2 as (A & B & A' & v & B' & H2 & H3 & _ & H4 & H5). split.
      + split; [done|]. intros H. destruct H. exists v. split; [|done]. rewrite H3, in_app_iff. right. by left.
      + intros j' [= <-]. split; [rewrite H2, in_app_iff; right; by left|]. by exists v.
    - split; [done|]. by intros j [=].
  Qed.

  Lemma tree_insert w t L k x n : sorted w t L -> key ms w k (Some (T, x)) -> w_any w !! n = None ->
    match t_insert E O ms t k n w with
    | Ok (t', b) w' => (b = true <-> ~ has_equivalent O T L x) /\ (b = false -> t' = t /\ w' = w) /\
        (b = true -> exists L', placed O T L x L' /\ sorted w' t' L' /\ exists A B, inorder t = A ++ B /\ inorder t' = A ++ n :: B) /\
        (forall j, j <> n -> view w' j = view w j)
    | Exn w' => ~ has_equivalent O T L x /\ sorted w' t L /\ w_any w' !! n = None /\ (forall j, view w' j = view w j)
    | UB _ | Term => False
    end.
  Proof.
    intros HS Hk Hn. pose proof (st_hold _ _ _ HS) as Hh. pose proof (st_reach _ _ _ HS) as Hr. pose proof (reachable_inv _ _ Hwf Hr) as HI.
    destruct (descend_spec O w k (before w) (fun i => exists x, holds w i x)) with (t := t) (j := @None nat) as (q & A & B & H1 & H2 & H3 & H4 & H5).
    { intros i j. by apply less_spec. } { intros i j ? _ _ _. apply before_trans. } { by exists x. } { eapply names_sorted; apply HS. }
    { intros i Hi. destruct (holds_of _ _ _ _ Hh Hi) as (z & _ & ?). by exists z. }
    rewrite H2 in Hh. apply Forall2_app_inv_l in Hh as (LA & LB & HA & HB & HL). unfold t_insert. rewrite (bind_ok _ _ _ _ _ H1). cbn [fst snd].
    pose proof (st_inc _ _ _ HS) as Hinc. rewrite HL in Hinc. apply sorted_app in Hinc as (I1 & I2 & I3).
    assert (exists free, match last A with Some a => less O a k | None => retM true end w = Ok free w /\
      (free = true -> forall y, In y LA -> lt y x) /\ (free = false -> has_equivalent O T L x)) as (free & Hf & Hf1 & Hf2).
    { destruct (last A) as [j|] eqn:Hj.
      - apply last_Some in Hj as [A' ->]. apply Forall2_app_inv_l in HA as (LA' & Lj & HA' & Hj & ->). apply Forall2_cons_inv_l in Hj as (v & Lj' & Hv & Hj & ->).
        apply Forall2_nil_inv_l in Hj as ->. destruct (less_spec w j k Hr) as (b & Hb & Hiff); [by exists v|by exists x|]. rewrite (before_iff w j k v x Hv Hk) in Hiff.
        exists b. split; [done|]. split.
        + intros -> y Hy. rewrite in_app_iff in Hy. destruct Hy as [Hy|[<-|[]]]; [|by apply Hiff]. apply (o_trans O T HW _ v); [|by apply Hiff].
          apply sorted_app in I1 as (_ & _ & I1). apply I1; [done|by left].
        + intros ->. exists v. split; [rewrite HL, !in_app_iff; left; right; by left|]. split; [|intros H; by apply Hiff in H].
          intros H. apply (H4 j); [rewrite in_app_iff; right; by left|]. by apply (before_iff w k j x v).
      - apply last_None in Hj as ->. apply Forall2_nil_inv_l in HA as ->. exists true. split; [done|]. split; [by intros _ ? []|done]. }
    replace (match match last A with Some a => Some a | None => None end with Some j => less O j k | None => retM true end)
      with (match last A with Some a => less O a k | None => retM true end) by by destruct (last A).
    rewrite (bind_ok _ _ _ _ _ Hf). destruct free.
    - assert (placed O T L x (LA ++ x :: LB)) as Hpl.
      { exists LA, LB. split; [done|]. split; [done|]. split; [by apply Hf1|]. intros y Hy. destruct (held_by _ _ _ _ HB Hy) as (i & Hi & Hhi).
        apply (before_iff w k i x y); [done|done|]. by apply H5. }
      pose proof (placed_none _ _ _ Hpl) as Hno.
      destruct Hk as [(a & Ha & Hma) Hck]. destruct HK as (Kd & Kc & _).
      assert (contiguous ms (a_ms a)) as Hct by (rewrite Hma; apply contiguous_refl).
      assert (pre E w (OCopy n k ms)) as Hp. { split; [done|]. split; [done|]. exists a. split; [done|]. by rewrite Hma in *. }
      pose proof (copy_ctor_spec E w n k a ms Hwf HI Hn Ha Kd Hct) as H. rewrite Hma in H. specialize (H Kc). unfold wp in H.
      unfold bindM. destruct (copy_ctor E n k ms w) as [[] w'|w'| |] eqn:Hrun; try done.
      + destruct H as (_ & F & Hc & a' & Ha' & _ & Hm' & _). cbn.
        assert (forall j, j <> n -> view w' j = view w j) as V by (intros j Hj; apply (eff_view _ _ _ F); set_solver).
        assert (Hr' : reachable E w') by by apply (reachable_outcome E w (OCopy n k ms)); [..|by left].
        assert (Hkn : holds w' n x). { split; [by exists a'|]. by rewrite Hc. }
        assert (Hnn : forall i y, holds w i y -> i <> n). { intros i y [(b & Hb & _) _] ->. congruence. }
        assert (HnA : forall i, In i (inorder t) -> i <> n). { intros i Hi. destruct (holds_of _ _ _ _ (st_hold _ _ _ HS) Hi) as (y & _ & Hy). by eapply Hnn. }
        split; [done|]. split; [done|]. split; [|done]. intros _. exists (LA ++ x :: LB). split; [done|]. split; [|by exists A, B]. split.
        * done.
        * rewrite H3. pose proof (st_nodup _ _ _ HS) as Hnd. rewrite H2 in Hnd. rewrite <- Permutation_middle. apply NoDup_cons. split; [|done].
          rewrite elem_of_list_In, <- H2. intros Hin. by apply (HnA n).
        * rewrite H3. apply Forall2_app; [|constructor; [done|]]; (eapply hold_view; [|done]); intros i Hi; apply V, HnA; rewrite H2, in_app_iff; tauto.
        * destruct Hpl as (A0 & B0 & HAB & HAB' & P1 & P2). rewrite HAB'. apply sorted_app. pose proof (st_inc _ _ _ HS) as J. rewrite HAB in J. apply sorted_app in J as (J1 & J2 & J3).
          split; [done|]. split; [constructor; [done|]; rewrite Forall_forall; intros y Hy; apply P2; by rewrite <- elem_of_list_In|].
          intros y z Hy [<-|Hz]; [by apply P1|by apply J3].
      + destruct H as (_ & _ & (E1 & E2 & _)). assert (forall j, view w' j = view w j) as V by (intros j; unfold view, block_of; by rewrite E1, E2).
        split; [done|]. split; [|split; [by rewrite E1|done]]. apply (sorted_view w); [done| |auto].
        by apply (reachable_outcome E w (OCopy n k ms)); [..|by right].
    - cbn. split; [split; [done|]|]. { intros H. destruct H. by apply Hf2. } done.
  Qed.

  Lemma tree_erase w t L k x : sorted w t L -> key ms w k (Some (T, x)) ->
    exists t' b w', t_erase E O t k w = Ok (t', b) w' /\ (b = true <-> has_equivalent O T L x) /\ (b = false -> t' = t /\ w' = w) /\
      (b = true -> forall L', taken O T L x L' -> sorted w' t' L') /\
      (b = true -> exists j A B, inorder t = A ++ j :: B /\ inorder t' = A ++ B /\ w_any w' !! j = None /\ (forall i, i <> j -> view w' i = view w i)).
  Proof.
    intros HS Hk. destruct (find_spec w t L k x HS Hk) as (y & H1 & H2). unfold t_erase. rewrite (bind_ok _ _ _ _ _ H1). pose proof (st_reach _ _ _ HS) as Hr.
    destruct y as [j|].
    - destruct H2 as (A & B & A' & v & B' & H2 & H3 & Hlen & H4 & H5).
      destruct (dtor_step E ms Hwf w j Hr) as (w' & Hd & Hr' & _ & Hj & V); [by destruct H4|]. rewrite (bind_ok _ _ _ _ _ Hd).
      pose proof (unlink_spec t j A B (st_nodup _ _ _ HS) H2) as Hu. eexists _, true, w'. split; [done|]. split.
      { split; [|done]. intros _. exists v. split; [|done]. rewrite H3, in_app_iff. right. by left. }
      split; [done|]. split; [|intros _; by exists j, A, B]. intros _ L' HL'.
      rewrite (taken_at A' v B' L x L' H3 (st_inc _ _ _ HS) H5 HL'). pose proof (st_nodup _ _ _ HS) as Hnd. rewrite H2, <- Permutation_middle in Hnd. apply NoDup_cons in Hnd as [Hnj Hnd].
      pose proof (st_hold _ _ _ HS) as Hh. rewrite H2, H3 in Hh. apply Forall2_app_inv in Hh as [HA HB]; [|done]. apply Forall2_cons_1 in HB as [_ HB].
      split; [done|by rewrite Hu| |].
      + rewrite Hu. apply Forall2_app; (eapply hold_view; [|done]); intros i Hi; apply V; intros ->; apply Hnj; rewrite elem_of_list_In, in_app_iff; tauto.
      + pose proof (st_inc _ _ _ HS) as J. rewrite H3 in J. apply sorted_app in J as (J1 & J2 & J3). apply StronglySorted_inv in J2 as [J2 _]. apply sorted_app.
        split; [done|]. split; [done|]. intros ? ? ? ?. apply J3; [done|by right].
    - cbn. exists t, false, w. split; [done|]. done.
  Qed.

  Theorem tree_sound w t L : tree_history E O ms T w t L -> sorted w t L.
  Proof.
    induction 1 as [w Hr|w t L o w' _ HS Hp Ha Ht Ho|w t L k x n t' b w' L' _ HS Hk Hn Hpl Hrun|w t L k x n t' b w' _ HS Hk Hn Hm Hrun
      |w t L k x n w' _ HS Hk Hn Hrun|w t L k x t' b w' L' _ HS Hk Htk Hrun|w t L k x t' b w' _ HS Hk Hm Hrun|w t L t' _ HS Ht].
    - split; [done|constructor|constructor|constructor].
    - apply (sorted_view w); [done|by apply (reachable_outcome E w o); [apply HS|..]|]. intros x Hx.
      pose proof (step_safe E w o Hwf (reachable_inv _ _ Hwf (st_reach _ _ _ HS)) Hp Ha) as H. unfold wp in H.
      assert (untouched (touches o) w w') as Hu by (destruct Ho as [Ho|Ho]; rewrite Ho in H; by destruct H). by apply Hu, Ht.
    - pose proof (tree_insert w t L k x n HS Hk Hn) as H. rewrite Hrun in H. destruct H as (H1 & _ & H2 & _).
      destruct (H2 (proj2 H1 (placed_none _ _ _ Hpl))) as (L1 & Hpl1 & HS1 & _). by rewrite (placed_fun L x L' L1 (st_inc _ _ _ HS) Hpl Hpl1).
    - pose proof (tree_insert w t L k x n HS Hk Hn) as H. rewrite Hrun in H. destruct H as (H1 & H2 & _). destruct b; [by destruct (proj1 H1 Logic.eq_refl)|].
      by destruct (H2 Logic.eq_refl) as [-> ->].
    - pose proof (tree_insert w t L k x n HS Hk Hn) as H. rewrite Hrun in H. by destruct H as (_ & H & _).
    - destruct (tree_erase w t L k x HS Hk) as (t1 & b1 & w1 & Hrun' & Hb & _ & HT & _). rewrite Hrun in Hrun'. injection Hrun' as <- <- <-.
      apply HT; [|done]. apply Hb. destruct Htk as (A & v & B & -> & _ & He). exists v. split; [|done]. rewrite in_app_iff. right. by left.
    - destruct (tree_erase w t L k x HS Hk) as (t1 & b1 & w1 & Hrun' & Hb & HF & _). rewrite Hrun in Hrun'. injection Hrun' as <- <- <-.
      destruct b; [by destruct (Hm (proj1 Hb Logic.eq_refl))|]. by destruct (HF Logic.eq_refl) as [-> ->].
    - split; [apply HS|rewrite Ht; apply HS|rewrite Ht; apply HS|apply HS].
  Qed.
End Proofs.

(** ** Keys that the order does not cover *)
Section Unordered.
  Context (E : env) (O : obs) (ms : list method) (Hwf : env_wf E) (HO : obs_wf O) (HK : ordered_class ms).

  Lemma less_false w i j u v : reachable E w -> key ms w i u -> key ms w j v -> order_of O u v = None -> (u = None \/ v <> None) -> less O i j w = Ok false w.
  Proof.
    intros Hr [(a & Ha & Hm) Hc] [(b & Hb & Hm') Hc'] Ho Hne.
    destruct (cmp_any_fact E O w i j a b Hwf HO Hr Ha Hb) as (ci & cj & r & e & H1 & H2 & H3 & H4 & _); [rewrite Hm; apply HK|rewrite Hm'; apply HK| |].
    { destruct Hne as [->|Hne]; [by left|]. right. rewrite Hc'. by intros [= ->]. }
    unfold less. rewrite (bind_ok _ _ _ _ _ H3). rewrite H4. replace ci with u by congruence. replace cj with v by congruence. by rewrite Ho.
  Qed.
  Theorem types_equivalent w i j T U x y : reachable E w -> key ms w i (Some (T, x)) -> key ms w j (Some (U, y)) -> T <> U ->
    less O i j w = Ok false w /\ less O j i w = Ok false w /\ t_find O (Node Leaf i Leaf) j w = Ok (Some i) w /\
    (forall n, t_insert E O ms (Node Leaf i Leaf) j n w = Ok (Node Leaf i Leaf, false) w).
  Proof.
    intros Hr Hi Hj HTU.
    assert (less O i j w = Ok false w) as H1. { eapply less_false; [done..| |right; done]. cbn. by rewrite decide_False. }
    assert (less O j i w = Ok false w) as H2. { eapply less_false; [done..| |right; done]. cbn. by rewrite decide_False. }
    split; [done|]. split; [done|]. split.
    - unfold t_find. cbn [t_lower]. rewrite (bind_ok _ _ w (Some i) w); [|by rewrite (bind_ok _ _ _ _ _ H1)]. by rewrite (bind_ok _ _ _ _ _ H2).
    - intros n. unfold t_insert. cbn [t_descend]. rewrite (bind_ok _ _ w (Some i, [true]) w); [|by rewrite (bind_ok _ _ _ _ _ H2)].
      cbn [fst snd]. by rewrite (bind_ok _ _ _ _ _ H1).
  Qed.

  Lemma less_empty_right w i k T x : reachable E w -> key ms w i (Some (T, x)) -> key ms w k None -> less O i k w = UB UbNullVtable.
  Proof.
    intros Hr [(a & Ha & Hm) Hc] [(b & Hb & Hm') Hc'].
    destruct (cmp_undefined E O w i k a b T x Hwf Hr Ha Hb) as [H _]; [rewrite Hm; apply HK|done|done|]. unfold less, bindM. by rewrite H.
  Qed.
  Lemma descend_empty w k t j : reachable E w -> key ms w k None -> (forall i, In i (inorder t) -> exists T x, key ms w i (Some (T, x))) ->
    exists q, t_descend O t k j w = Ok (match last (inorder t) with Some a => Some a | None => j end, q) w.
  Proof.
    intros Hr Hk. revert j. induction t as [|l _ x r IH]; intros j Hall; [by exists []|]. cbn [inorder] in Hall.
    destruct (Hall x) as (T & v & Hx); [rewrite in_app_iff; right; by left|].
    destruct (IH (Some x)) as (q & Hq). { intros i Hi. apply Hall. rewrite in_app_iff. right. by right. }
    exists (true :: q). cbn [t_descend inorder]. rewrite (bind_ok _ _ w false w); [|by eapply less_false; [..|by left]].
    rewrite (bind_ok _ _ _ _ _ Hq). cbn. rewrite last_app, last_cons. by destruct (last (inorder r)).
  Qed.
  Theorem empty_undefined w t k : reachable E w -> t <> Leaf -> (forall i, In i (inorder t) -> exists T x, key ms w i (Some (T, x))) -> key ms w k None ->
    t_find O t k w = UB UbNullVtable /\ (forall n, t_insert E O ms t k n w = UB UbNullVtable).
  Proof.
    intros Hr Ht Hall Hk. split.
    - destruct t as [|l x r]; [done|]. destruct (Hall x) as (T & v & Hx); [cbn; rewrite in_app_iff; right; by left|].
      unfold t_find. cbn [t_lower]. unfold bindM at 1 2. by rewrite (less_empty_right w x k T v).
    - intros n. destruct (descend_empty w k t None Hr Hk Hall) as (q & Hq). unfold t_insert. rewrite (bind_ok _ _ _ _ _ Hq). cbn [fst snd].
      destruct (last (inorder t)) as [j|] eqn:Hj.
      + apply last_Some in Hj as [l Hj]. destruct (Hall j) as (T & v & Hv); [rewrite Hj, in_app_iff; right; by left|]. unfold bindM at 1. by rewrite (less_empty_right w j k T v).
      + apply last_None in Hj. destruct t as [|l x r]; [done|]. cbn in Hj. by destruct (inorder l).
  Qed.
End Unordered.
