(** Views denote what they should, through every chain of conversions. *)
From stdpp Require Import gmap list.
From Verif Require Import TypeListModel TypeListSpec TypeListProofs AnyModel AnyInv AnySteps AnyOps AnyMove AnyLife AnyAssign
  AnyRefs AnyHistory AnyFacts DescModel DescSpec DescProofs PolyModel PolySpec.

(** ** Worlds that differ in stateful references only *)
Lemma ext_refl ns w : only_new_refs ns w w.
Proof. exists (w_sref w). split; [by destruct w|]. split; [done|]. by left. Qed.
Lemma ext_trans ns ns' w w' w'' : only_new_refs ns w w' -> only_new_refs ns' w' w'' -> only_new_refs (ns ++ ns') w w''.
Proof.
  intros (m & -> & H1 & H2) (m' & -> & H3 & H4). exists m'. split; [done|]. cbn in *. split; [by transitivity m|].
  intros r Hr. rewrite in_app_iff. destruct (H4 r Hr) as [H|H]; [|by right; right]. destruct (H2 r H) as [?|?]; [by left|by right; left].
Qed.
Lemma ext_add w r s : w_sref w !! r = None -> only_new_refs [r] w (set_sref w (<[r := s]> (w_sref w))).
Proof.
  intros Hr. exists (<[r := s]> (w_sref w)). split; [done|]. split; [by apply insert_subseteq|].
  intros k. destruct (decide (k = r)) as [->|]; [intros _; right; by left|]. rewrite lookup_insert_ne by done. by left.
Qed.
Lemma ext_alive ns w w' v : only_new_refs ns w w' -> vt_alive w v -> vt_alive w' v.
Proof.
  intros (m & -> & H & _). unfold vt_alive. destruct (vp_home v) as [r|]; [|done]. cbn. intros [s Hs]. exists s. by eapply lookup_weaken.
Qed.
Lemma ext_obj ns w w' q : only_new_refs ns w w' -> obj_at w' q = obj_at w q.
Proof. intros (m & -> & _). by destruct q. Qed.
Lemma ext_any ns w w' : only_new_refs ns w w' -> w_any w' = w_any w.
Proof. by intros (m & -> & _). Qed.
Lemma ext_content ns w w' i : only_new_refs ns w w' -> content w' i = content w i /\ address w' i = address w i.
Proof. by intros (m & -> & _). Qed.
Lemma ext_inv E ns w w' : only_new_refs ns w w' -> Inv E w -> Inv E w'.
Proof.
  intros Hx [H1 H2 H3 H4 H5]. destruct Hx as (m & -> & Hm & Hn). split; try done. intros i a Ha. specialize (H2 i a Ha).
  unfold home_ok, vt_alive in *. destruct (a_vt a) as [v|]; [|done]. destruct (vp_home v) as [r|]; [|done]. cbn.
  destruct H2 as [s Hs]. exists s. by eapply lookup_weaken.
Qed.
Lemma ext_fresh ns ns' w w' : only_new_refs ns w w' -> fresh_names w (ns ++ ns') -> fresh_names w' ns'.
Proof.
  intros (m & -> & Hm & Hn) [Hd Hf]. apply NoDup_app in Hd as (_ & Hd & Hd'). split; [done|]. intros r Hr. cbn.
  destruct (m !! r) as [s|] eqn:Hs; [|done]. destruct (Hn r) as [H|H]; [by exists s| |].
  - rewrite Hf in H; [by destruct H|]. rewrite in_app_iff. by right.
  - apply elem_of_list_In in H. apply Hd in H. by apply elem_of_list_In in Hr.
Qed.

(** ** What a view denotes *)
Definition stands (w : world) (c : cur) (s : sty) (d : target) : Prop :=
  match c, s with
  | CView p, VView k ms =>
      pv_k p = k /\ pv_ms p = ms /\ pv_p p = option_map snd d /\
      match d with
      | Some (T, q) => exists v, pv_vt p = Some v /\ vt_alive w v /\ vt_entries ms v T
      | None => is_ptr k = true /\ forall v, pv_vt p = Some v -> vt_alive w v /\ exists T, vt_entries ms v T
      end
  | CState b r, VState b' ms =>
      b = b' /\ exists T q s, d = Some (T, q) /\ w_sref w !! r = Some s /\ sr_ms s = ms /\ sr_ptr s = q /\
                vt_entries ms (VPtr (Some r) (sr_tab s) 0) T
  | _, _ => False
  end.

Lemma stands_ext ns w w' c s d : only_new_refs ns w w' -> stands w c s d -> stands w' c s d.
Proof.
  intros Hx. destruct c as [p|b r], s as [k ms|b' ms]; cbn; try done.
  - intros (H1 & H2 & H3 & H4). split; [done|]. split; [done|]. split; [done|]. destruct d as [[T q]|].
    + destruct H4 as (v & Hv & Ha & He). exists v. eauto using ext_alive.
    + destruct H4 as (H4 & H5). split; [done|]. intros v Hv. destruct (H5 v Hv). eauto using ext_alive.
  - intros (-> & T & q & s & H1 & H2 & H3). split; [done|]. exists T, q, s. split; [done|]. split; [|done].
    destruct Hx as (m & -> & Hm & _). cbn. by eapply lookup_weaken.
Qed.

(** ** Primitives *)
Lemma aliveb_ok w v : vt_alive w v -> aliveb w v = true.
Proof. unfold vt_alive, aliveb. destruct (vp_home v); [|done]. by intros; apply bool_decide_true. Qed.
Lemma read_slot_ok w ms v T k m : vt_alive w v -> vt_entries ms v T -> nth_error ms k = Some m -> read_slot v k w = Ok (T, m) w.
Proof. intros Ha He Hk. unfold read_slot. rewrite aliveb_ok by done. by rewrite (He k m Hk). Qed.
Lemma read_tab_ok w ms v T : vt_alive w v -> vt_entries ms v T -> read_tab v 0 ms w = Ok (map (fun m => (T, m)) ms) w.
Proof.
  intros Ha He. assert (forall tl pre, ms = pre ++ tl -> read_tab v (length pre) tl w = Ok (map (fun m => (T, m)) tl) w) as H.
  { induction tl as [|m tl IH]; intros pre Hp; [done|]. cbn.
    assert (Hk : nth_error ms (length pre) = Some m) by (rewrite Hp, nth_error_app2 by lia; by rewrite Nat.sub_diag).
    rewrite (bind_ok _ _ _ _ _ (read_slot_ok w ms v T (length pre) m Ha He Hk)).
    specialize (IH (pre ++ [m])). rewrite app_length in IH. cbn in IH. rewrite Nat.add_1_r in IH.
    assert (Hp' : ms = (pre ++ [m]) ++ tl) by (by rewrite Hp, <- app_assoc).
    by rewrite (bind_ok _ _ _ _ _ (IH Hp')). }
  by apply (H ms []).
Qed.

Lemma view_of_ok O w ms v T : vt_alive w v -> vt_entries ms v T ->
  exists v', view_of O ms (Some v) w = Ok (Some v') w /\ vt_alive w v' /\ vt_entries ms v' T.
Proof.
  intros Ha He. unfold view_of. destruct ms as [|m [|m' tl]]; [by exists v| |by exists v].
  destruct (ob_triv O m); [|by exists v]. rewrite (bind_ok _ _ _ _ _ (read_slot_ok w [m] v T 0 m Ha He eq_refl)).
  exists (VPtr None [(T, m)] 0). split; [done|]. split; [done|]. intros [|k] m' H; [by injection H as <-|by destruct k].
Qed.
Lemma sub_ptr_ok w to from v T : contiguous to from -> vt_alive w v -> vt_entries from v T ->
  exists v', sub_ptr to from (Some v) w = Ok (Some v') w /\ vt_alive w v' /\ vt_entries to v' T.
Proof.
  intros Hc Ha He. destruct (subtable_some to from v Hc) as (v' & Hv'). exists v'. split.
  - unfold sub_ptr, subtableM. by rewrite Hv'.
  - split; [|by eapply subtable_entries]. unfold vt_alive in *. by rewrite (subtable_home _ _ _ _ Hv').
Qed.

Lemma mk_view_some O w k ms v q T : vt_alive w v -> vt_entries ms v T ->
  exists p, mk_view O k ms (Some v) (Some q) w = Ok p w /\ stands w (CView p) (VView k ms) (Some (T, q)).
Proof.
  intros Ha He. destruct (view_of_ok O w ms v T Ha He) as (v' & Hv & Ha' & He').
  exists (PV k (Some v') (Some q) ms). split; [unfold mk_view; by rewrite (bind_ok _ _ _ _ _ Hv)|].
  split; [done|]. split; [done|]. split; [done|]. by exists v'.
Qed.
Lemma mk_view_none O w k ms v : is_ptr k = true ->
  (forall u, v = Some u -> vt_alive w u /\ exists T, vt_entries ms u T) ->
  exists p, mk_view O k ms v None w = Ok p w /\ stands w (CView p) (VView k ms) None.
Proof.
  intros Hk Hv. destruct v as [v|].
  - destruct (Hv v eq_refl) as (Ha & T & He). destruct (view_of_ok O w ms v T Ha He) as (v' & Hv' & Ha' & He').
    exists (PV k (Some v') None ms). split; [unfold mk_view; by rewrite (bind_ok _ _ _ _ _ Hv')|]. cbn. repeat (split; [done|]).
    intros u [= <-]. eauto.
  - exists (PV k None None ms). split; [unfold mk_view, view_of; by destruct ms as [|? [|? ?]]|]. cbn. by repeat (split; [done|]).
Qed.
Lemma null_stands w k ms : is_ptr k = true -> stands w (CView (null_view k ms)) (VView k ms) None.
Proof. intros Hk. cbn. by repeat (split; [done|]). Qed.

Lemma conv_view_ok O w k k0 v q ms0 ms T : contiguous ms ms0 -> stands w (CView (PV k0 v (Some q) ms0)) (VView k0 ms0) (Some (T, q)) ->
  exists p, conv_view O k ms (PV k0 v (Some q) ms0) w = Ok p w /\ stands w (CView p) (VView k ms) (Some (T, q)).
Proof.
  intros Hc (_ & _ & _ & u & Hv & Ha & He). cbn in Hv. subst v. destruct (sub_ptr_ok w ms ms0 u T Hc Ha He) as (v' & Hs & Ha' & He').
  unfold conv_view. cbn [pv_ms pv_vt pv_p]. rewrite (bind_ok _ _ _ _ _ Hs). by apply mk_view_some.
Qed.

Lemma conv_ptr_ok O w k k0 v p ms0 ms d : contiguous ms ms0 -> is_ptr k = true -> stands w (CView (PV k0 v p ms0)) (VView k0 ms0) d ->
  exists q, conv_ptr O k ms (PV k0 v p ms0) w = Ok q w /\ stands w (CView q) (VView k ms) d.
Proof.
  intros Hc Hk Hs. destruct d as [[T q]|].
  - pose proof Hs as (_ & _ & Hp & _). cbn in Hp. subst p. unfold conv_ptr. cbn [pv_p]. by apply conv_view_ok.
  - pose proof Hs as (_ & _ & Hp & _). cbn in Hp. subst p. unfold conv_ptr. cbn [pv_p]. exists (null_view k ms). split; [done|]. by apply null_stands.
Qed.
Lemma mk_view_ok O w k k0 v p ms d : is_ptr k = is_ptr k0 -> stands w (CView (PV k0 v p ms)) (VView k0 ms) d ->
  exists q, mk_view O k ms v p w = Ok q w /\ stands w (CView q) (VView k ms) d.
Proof.
  intros Hk (_ & _ & Hp & H). cbn in Hp. destruct d as [[T q]|]; cbn in Hp; subst p.
  - destruct H as (u & Hv & Ha & He). cbn in Hv. subst v. by apply mk_view_some.
  - destruct H as (H1 & H2). apply mk_view_none; [congruence|done].
Qed.
Lemma mk_view_ref O w k k0 v q ms T : stands w (CView (PV k0 v (Some q) ms)) (VView k0 ms) (Some (T, q)) ->
  exists p, mk_view O k ms v (Some q) w = Ok p w /\ stands w (CView p) (VView k ms) (Some (T, q)).
Proof. intros (_ & _ & _ & u & Hv & Ha & He). cbn in Hv. subst v. by apply mk_view_some. Qed.

Lemma take_tab_ok w to from v T : incl to from -> vt_alive w v -> vt_entries from v T ->
  take_tab to from (Some v) w = Ok (map (fun m => (T, m)) to) w.
Proof.
  intros Hi Ha He. unfold take_tab. destruct (list_same meqb to from) eqn:Hs.
  - apply (list_same_spec meqb meqb_ok) in Hs. subst. by apply read_tab_ok.
  - by apply pick_slots_ok.
Qed.
Lemma new_stands w r T q ms b : stands (set_sref w (<[r := SRefObj (map (fun m => (T, m)) ms) ms q]> (w_sref w))) (CState b r) (VState b ms) (Some (T, q)).
Proof.
  split; [done|]. exists T, q. eexists. split; [done|]. cbn. split; [apply lookup_insert|]. split; [done|]. split; [done|].
  intros k m Hk. cbn. by rewrite nth_error_map, Hk.
Qed.
Lemma put_sref_ok w r s : w_sref w !! r = None -> put_sref r s w = Ok tt (set_sref w (<[r := s]> (w_sref w))).
Proof. unfold put_sref. by intros ->. Qed.
Lemma get_sref_ok w r s : w_sref w !! r = Some s -> get_sref r w = Ok s w.
Proof. unfold get_sref. by intros ->. Qed.

Lemma from_view_ok w r ms ms0 k v q T : incl ms ms0 -> w_sref w !! r = None ->
  stands w (CView (PV k v (Some q) ms0)) (VView k ms0) (Some (T, q)) ->
  from_view r ms (PV k v (Some q) ms0) w = Ok tt (set_sref w (<[r := SRefObj (map (fun m => (T, m)) ms) ms q]> (w_sref w))).
Proof.
  intros Hi Hr (_ & _ & _ & u & Hv & Ha & He). cbn in Hv. subst v. unfold from_view. cbn [pv_ms pv_vt pv_p].
  rewrite (bind_ok _ _ _ _ _ (take_tab_ok w ms ms0 u T Hi Ha He)). by apply put_sref_ok.
Qed.
Lemma from_state_ok w r' ms ms0 b r q T : incl ms ms0 -> w_sref w !! r' = None ->
  stands w (CState b r) (VState b ms0) (Some (T, q)) ->
  from_state r' ms r w = Ok tt (set_sref w (<[r' := SRefObj (map (fun m => (T, m)) ms) ms q]> (w_sref w))).
Proof.
  intros Hi Hr (_ & T' & q' & s & [= <- <-] & Hs & Hms & Hq & He). unfold from_state.
  rewrite (bind_ok _ _ _ _ _ (get_sref_ok _ _ _ Hs)). rewrite Hms.
  rewrite (bind_ok _ _ _ _ _ (take_tab_ok w ms ms0 _ T Hi (ltac:(by exists s) : vt_alive w (VPtr (Some r) (sr_tab s) 0)) He)).
  rewrite Hq. by apply put_sref_ok.
Qed.

(** ** One conversion *)
Lemma step_ok O w st c s s' d : converts s st s' -> stands w c s d -> (d = None -> null_safe [st]) -> fresh_names w (step_names st) ->
  exists c' w', run_step O st c w = Ok c' w' /\ only_new_refs (step_names st) w w' /\ stands w' c' s' d.
Proof.
  intros Hcv Hst Hnull [_ Hfresh].
  assert (forall k' ms' (m : M pval) (f : pval -> cur), f = CView -> (exists p, m w = Ok p w /\ stands w (CView p) (VView k' ms') d) ->
     exists c' w', (let! q := m in retM (f q)) w = Ok c' w' /\ only_new_refs [] w w' /\ stands w' c' (VView k' ms') d) as Hlift.
  { intros k' ms' m f -> (p & Hp & Hs). exists (CView p), w. rewrite (bind_ok _ _ _ _ _ Hp). split; [done|]. split; [apply ext_refl|done]. }
  destruct Hcv as [ms0 ms Hc|k ms0 ms Hk Hc|ms0 ms Hc|k ms0 ms Hk Hc|ms|ms|ms|ms|ms|r ms0 ms Hi|r ms0 ms Hi|k r ms0 ms Hk Hi|b r ms0 ms Hi|ms|ms];
    (destruct c as [[k0 v p ms1]|b0 r0]; try by destruct Hst).
  - destruct Hst as (Hk0 & Hm0 & Hst). cbn in Hk0, Hm0. subst k0 ms1. cbn. apply Hlift; [done|]. by eapply conv_ptr_ok.
  - pose proof Hst as (Hk0 & Hm0 & _). cbn in Hk0, Hm0. subst k0 ms1. destruct k; try done; cbn.
    + destruct (mk_view_ok O w KCPtr KPtr v p ms0 d eq_refl Hst) as (q & Hq & Hs). rewrite (bind_ok _ _ _ _ _ Hq).
      destruct (list_same meqb ms ms0) eqn:Hsame.
      * apply (list_same_spec meqb meqb_ok) in Hsame. subst. exists (CView q), w. split; [done|]. split; [apply ext_refl|done].
      * apply Hlift; [done|]. pose proof Hs as (Hk1 & Hm1 & _). destruct q as [k1 v1 p1 ms1]. cbn in Hk1, Hm1. subst k1 ms1. by eapply conv_ptr_ok.
    + apply Hlift; [done|]. by eapply conv_ptr_ok.
  - pose proof Hst as (Hk0 & Hm0 & Hp & _). cbn in Hk0, Hm0, Hp. subst k0 ms1. destruct d as [[T q]|]; [|by specialize (Hnull eq_refl); inversion Hnull].
    cbn in Hp. subst p. cbn. apply Hlift; [done|]. by eapply conv_view_ok.
  - pose proof Hst as (Hk0 & Hm0 & Hp & _). cbn in Hk0, Hm0, Hp. subst k0 ms1. destruct d as [[T q]|]; [|by specialize (Hnull eq_refl); inversion Hnull].
    cbn in Hp. subst p. destruct k; try done; cbn; (apply Hlift; [done|]; by eapply conv_view_ok).
  - pose proof Hst as (Hk0 & Hm0 & Hp & H). cbn in Hk0, Hm0, Hp. subst k0 ms1. destruct d as [[T q]|]; [|by specialize (Hnull eq_refl); inversion Hnull].
    cbn in Hp. subst p. cbn. eexists _, w. split; [done|]. split; [apply ext_refl|]. cbn. by repeat (split; [done|]).
  - pose proof Hst as (Hk0 & Hm0 & Hp & H). cbn in Hk0, Hm0, Hp. subst k0 ms1. destruct d as [[T q]|]; [|by specialize (Hnull eq_refl); inversion Hnull].
    cbn in Hp. subst p. cbn. eexists _, w. split; [done|]. split; [apply ext_refl|]. cbn. by repeat (split; [done|]).
  - pose proof Hst as (Hk0 & Hm0 & Hp & H). cbn in Hk0, Hm0, Hp. subst k0 ms1. destruct d as [[T q]|]; [|by specialize (Hnull eq_refl); inversion Hnull].
    cbn in Hp. subst p. cbn. apply Hlift; [done|]. by eapply mk_view_ref.
  - pose proof Hst as (Hk0 & Hm0 & Hp & H). cbn in Hk0, Hm0, Hp. subst k0 ms1. destruct d as [[T q]|]; [|by specialize (Hnull eq_refl); inversion Hnull].
    cbn in Hp. subst p. cbn. apply Hlift; [done|]. by eapply mk_view_ref.
  - pose proof Hst as (Hk0 & Hm0 & Hp & H). cbn in Hk0, Hm0. subst k0 ms1. cbn. apply Hlift; [done|]. by eapply (mk_view_ok _ _ _ KCPtr).
  - pose proof Hst as (Hk0 & Hm0 & Hp & _). cbn in Hk0, Hm0, Hp. subst k0 ms1. destruct d as [[T q]|]; [|by specialize (Hnull eq_refl); inversion Hnull].
    cbn in Hp. subst p. cbn [run_step]. assert (Hr : w_sref w !! r = None) by (apply Hfresh; by left).
    rewrite (bind_ok _ _ _ _ _ (from_view_ok w r ms ms0 KRef v q T Hi Hr Hst)). eexists _, _. split; [done|]. split; [by apply ext_add|apply new_stands].
  - destruct Hst as (-> & Hst). destruct d as [[T q]|]; [|by destruct Hst as (? & ? & ? & ? & _)]. cbn [run_step].
    assert (Hr : w_sref w !! r = None) by (apply Hfresh; by left).
    rewrite (bind_ok _ _ _ _ _ (from_state_ok w r ms ms0 false r0 q T Hi Hr (conj eq_refl Hst))). eexists _, _. split; [done|]. split; [by apply ext_add|apply new_stands].
  - pose proof Hst as (Hk0 & Hm0 & Hp & _). cbn in Hk0, Hm0, Hp. subst k0 ms1. destruct d as [[T q]|]; [|by specialize (Hnull eq_refl); inversion Hnull].
    cbn in Hp. subst p. assert (Hr : w_sref w !! r = None) by (apply Hfresh; by left).
    destruct k; try done; cbn [run_step]; rewrite (bind_ok _ _ _ _ _ (from_view_ok w r ms ms0 _ v q T Hi Hr Hst));
      (eexists _, _; split; [done|]; split; [by apply ext_add|apply new_stands]).
  - destruct Hst as (-> & Hst). destruct d as [[T q]|]; [|by destruct Hst as (? & ? & ? & ? & _)].
    assert (Hr : w_sref w !! r = None) by (apply Hfresh; by left).
    destruct b; cbn [run_step]; rewrite (bind_ok _ _ _ _ _ (from_state_ok w r ms ms0 true r0 q T Hi Hr (conj eq_refl Hst)));
      (eexists _, _; split; [done|]; split; [by apply ext_add|apply new_stands]).
  - destruct Hst as (-> & T & q & s & -> & Hs & Hms & Hq & He). cbn [run_step].
    rewrite (bind_ok _ _ _ _ _ (get_sref_ok _ _ _ Hs)). subst. apply Hlift; [done|]. apply mk_view_some; [by exists s|done].
  - destruct Hst as (-> & T & q & s & -> & Hs & Hms & Hq & He). cbn [run_step].
    rewrite (bind_ok _ _ _ _ _ (get_sref_ok _ _ _ Hs)). subst. apply Hlift; [done|]. apply mk_view_some; [by exists s|done].
Qed.

Lemma ext_nil_names ns w w' : only_new_refs [] w w' -> only_new_refs ns w w'.
Proof. intros (m & H1 & H2 & H3). exists m. split; [done|]. split; [done|]. intros r Hr. destruct (H3 r Hr) as [?|[]]. by left. Qed.

Lemma steps_ok O l : forall w c s s' d, chain s l s' -> stands w c s d -> (d = None -> null_safe l) -> fresh_names w (concat (map step_names l)) ->
  exists c' w', run_steps O l c w = Ok c' w' /\ only_new_refs (concat (map step_names l)) w w' /\ stands w' c' s' d.
Proof.
  induction l as [|st tl IH]; intros w c s s' d Hch Hst Hn Hf.
  - inversion Hch; subst. exists c, w. split; [done|]. split; [apply ext_refl|done].
  - inversion Hch as [|? ? s1 ? ? Hcv Htl]; subst. cbn in Hf.
    destruct (step_ok O w st c s s1 d Hcv Hst) as (c1 & w1 & H1 & Hx1 & Hs1).
    { intros H. apply Hn in H. inversion H; subst. by constructor. }
    { destruct Hf as [Hd Hf]. apply NoDup_app in Hd as (Hd & _). split; [done|]. intros r Hr. apply Hf. rewrite in_app_iff. by left. }
    destruct (IH w1 c1 s1 s' d Htl Hs1) as (c2 & w2 & H2 & Hx2 & Hs2).
    { intros H. apply Hn in H. by inversion H. }
    { by eapply ext_fresh. }
    exists c2, w2. cbn. rewrite (bind_ok _ _ _ _ _ H1). split; [done|]. split; [|done]. by eapply ext_trans.
Qed.

(** ** Where chains begin *)
Lemma has_sub to from : contiguous to from -> has_subsequence meqb to from = CtOk true.
Proof. intros. by apply (has_subsequence_iff meqb meqb_ok). Qed.

Lemma any_target_some E w i a T q : Inv E w -> w_any w !! i = Some a -> any_target w i (Some (T, q)) ->
  q = a_vp a /\ exists v x id, a_vt a = Some v /\ vt_alive w v /\ vt_entries (a_ms a) v T /\ obj_at w (a_vp a) = Some (Obj T x id) /\ content w i = Some (Some (T, x)).
Proof.
  intros HI Ha (Hq & x & Hc). unfold address in Hq. rewrite Ha in Hq. destruct (a_vt a) as [v|] eqn:Hv; [|done]. injection Hq as <-. split; [done|].
  destruct (any_value _ _ _ _ _ HI Ha Hv) as (T' & x' & id & He & Ho & Hc' & _). rewrite Hc in Hc'. injection Hc' as <- <-.
  exists v, x, id. split; [done|]. split; [by eapply any_home|]. done.
Qed.
Lemma any_target_none w i a : w_any w !! i = Some a -> any_target w i None -> forall E, Inv E w -> a_vt a = None.
Proof.
  intros Ha Hc E HI. destruct (a_vt a) as [v|] eqn:Hv; [|done]. destruct (any_value _ _ _ _ _ HI Ha Hv) as (? & ? & ? & _ & _ & Hc' & _).
  cbn in Hc. congruence.
Qed.

Lemma ptr_any_ok E O w i a ms d : Inv E w -> w_any w !! i = Some a -> contiguous ms (a_ms a) -> any_target w i d ->
  exists p, ptr_any O i ms w = Ok p w /\ stands w (CView p) (VView KPtr ms) d.
Proof.
  intros HI Ha Hc Hd. unfold ptr_any. rewrite (bind_get_any _ _ _ _ Ha), (has_sub _ _ Hc). unfold has_val. destruct d as [[T q]|].
  - destruct (any_target_some _ _ _ _ _ _ HI Ha Hd) as (-> & v & x & id & Hv & Hal & He & _). rewrite Hv.
    destruct (sub_ptr_ok w ms (a_ms a) v T Hc Hal He) as (v' & Hs & Ha' & He'). rewrite (bind_ok _ _ _ _ _ Hs). by apply mk_view_some.
  - rewrite (any_target_none _ _ _ Ha Hd E HI). exists (null_view KPtr ms). split; [done|]. by apply null_stands.
Qed.
Lemma cptr_any_ok E O w i a d : Inv E w -> w_any w !! i = Some a -> any_target w i d ->
  exists p, cptr_any O i (a_ms a) w = Ok p w /\ stands w (CView p) (VView KCPtr (a_ms a)) d.
Proof.
  intros HI Ha Hd. pose proof (contiguous_refl (a_ms a)) as Hc. unfold cptr_any. rewrite (bind_get_any _ _ _ _ Ha), (has_sub _ _ Hc).
  unfold has_val. destruct d as [[T q]|].
  - destruct (any_target_some _ _ _ _ _ _ HI Ha Hd) as (-> & v & x & id & Hv & Hal & He & _). rewrite Hv.
    destruct (sub_ptr_ok w (a_ms a) (a_ms a) v T Hc Hal He) as (v' & Hs & Ha' & He'). rewrite (bind_ok _ _ _ _ _ Hs). by apply mk_view_some.
  - rewrite (any_target_none _ _ _ Ha Hd E HI). exists (null_view KCPtr (a_ms a)). split; [done|]. by apply null_stands.
Qed.

Lemma start_ok E O w o s d : Inv E w -> begins w o s d -> fresh_names w (origin_names o) ->
  exists c w', start O o w = Ok c w' /\ only_new_refs (origin_names o) w w' /\ stands w' c s d.
Proof.
  intros HI Hb [_ Hf]. destruct Hb as [i a d Ha Hd|i a d Ha Hd|ms|i a ms d Ha Hc Hd|k T p ms d Hd Hk|b r T q ms d Hd]; cbn.
  - rewrite (bind_get_any _ _ _ _ Ha). destruct (ptr_any_ok E O w i a (a_ms a) d HI Ha (contiguous_refl _) Hd) as (p & Hp & Hs).
    rewrite (bind_ok _ _ _ _ _ Hp). exists (CView p), w. split; [done|]. split; [apply ext_refl|done].
  - rewrite (bind_get_any _ _ _ _ Ha). destruct (cptr_any_ok E O w i a d HI Ha Hd) as (p & Hp & Hs).
    rewrite (bind_ok _ _ _ _ _ Hp). exists (CView p), w. split; [done|]. split; [apply ext_refl|done].
  - exists (CView (null_view KPtr ms)), w. split; [done|]. split; [apply ext_refl|]. by apply null_stands.
  - destruct (ptr_any_ok E O w i a ms d HI Ha Hc Hd) as (p & Hp & Hs).
    rewrite (bind_ok _ _ _ _ _ Hp). exists (CView p), w. split; [done|]. split; [apply ext_refl|done].
  - pose proof (addr_vtable_entries T ms) as He. destruct p as [q|].
    + destruct Hd as (-> & _). destruct (mk_view_some O w k ms (addr_vtable_for T ms) q T I He) as (p & Hp & Hs).
      rewrite (bind_ok _ _ _ _ _ Hp). exists (CView p), w. split; [done|]. split; [apply ext_refl|done].
    + cbn in Hd. subst d. destruct (mk_view_none O w k ms (Some (addr_vtable_for T ms)) (Hk eq_refl)) as (p & Hp & Hs).
      { intros u [= <-]. split; [done|]. by exists T. }
      rewrite (bind_ok _ _ _ _ _ Hp). exists (CView p), w. split; [done|]. split; [apply ext_refl|done].
  - destruct Hd as (-> & _). assert (Hr : w_sref w !! r = None) by (apply Hf; by left).
    rewrite (bind_ok _ _ _ _ _ (put_sref_ok _ _ _ Hr)). eexists _, _. split; [done|]. split; [by apply ext_add|apply new_stands].
Qed.

(** every accepted chain works and its result denotes the object the chain began with *)
Lemma chain_ok E O w o l s s' d : Inv E w -> begins w o s d -> chain s l s' -> (d = None -> null_safe l) -> fresh_names w (all_names o l) ->
  exists c w', obtained O w o l c w' /\ only_new_refs (all_names o l) w w' /\ stands w' c s' d.
Proof.
  intros HI Hb Hch Hn Hf. pose proof Hf as [Hd Hff]. unfold all_names in *. apply NoDup_app in Hd as (Hd & _ & _).
  destruct (start_ok E O w o s d HI Hb) as (c & w1 & H1 & Hx1 & Hs1).
  { split; [done|]. intros r Hr. apply Hff. rewrite in_app_iff. by left. }
  destruct (steps_ok O l w1 c s s' d Hch Hs1 Hn) as (c' & w2 & H2 & Hx2 & Hs2); [by eapply ext_fresh|].
  exists c', w2. split; [unfold obtained; by rewrite (bind_ok _ _ _ _ _ H1)|]. split; [|done]. by eapply ext_trans.
Qed.
Lemma obtained_stands E O w o l s s' d c w' : Inv E w -> begins w o s d -> chain s l s' -> (d = None -> null_safe l) ->
  fresh_names w (all_names o l) -> obtained O w o l c w' -> only_new_refs (all_names o l) w w' /\ stands w' c s' d.
Proof.
  intros HI Hb Hch Hn Hf Ho. destruct (chain_ok E O w o l s s' d HI Hb Hch Hn Hf) as (c' & w'' & Ho' & H). unfold obtained in *. rewrite Ho in Ho'. by injection Ho' as <- <-.
Qed.
