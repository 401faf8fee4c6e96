(** Programs over pointer and reference variables. *)
From stdpp Require Import gmap list.
From Verif Require Import TypeListModel TypeListSpec TypeListProofs AnyModel AnyInv AnySteps AnyOps AnyMove AnyLife AnyAssign
  AnyRefs AnyHistory AnyFacts DescModel DescSpec DescProofs PolyModel PolySpec PolyProofs PolyFacts RebindModel RebindSpec.

(** the stateful reference whose table a view uses *)
Definition home (c : cur) : option nat :=
  match c with CView p => match pv_vt p with Some v => vp_home v | None => None end | CState _ r => Some r end.

Lemma home_refresh w c : home (refresh w c) = home c.
Proof.
  destruct c as [[k v p ms]|b r]; [|done]. cbn. destruct v as [v|]; [|done]. cbn. unfold refresh_vt. destruct (vp_home v) as [r|] eqn:Hr; [|done].
  destruct (w_sref w !! r) as [s|]; [done|]. done.
Qed.
Lemma refresh_frame w w' c : (forall r, home c = Some r -> w_sref w' !! r = w_sref w !! r) -> refresh w' c = refresh w c.
Proof.
  intros H. destruct c as [[k v p ms]|b r]; [|done]. cbn in *. destruct v as [v|]; [|done]. cbn. do 3 f_equal. unfold refresh_vt.
  destruct (vp_home v) as [r|]; [|done]. by rewrite (H r eq_refl).
Qed.
Lemma refresh_twice w c : refresh w (refresh w c) = refresh w c.
Proof.
  destruct c as [[k v p ms]|b r]; [|done]. cbn. destruct v as [v|]; [|done]. cbn. do 3 f_equal. unfold refresh_vt.
  destruct (vp_home v) as [r|] eqn:Hr; [|by rewrite Hr]. destruct (w_sref w !! r) as [s|] eqn:Hs; cbn; [by rewrite Hs|by rewrite Hr, Hs].
Qed.

Lemma alive_frame w w' v : (forall r, vp_home v = Some r -> w_sref w' !! r = w_sref w !! r) -> vt_alive w v -> vt_alive w' v.
Proof. unfold vt_alive. destruct (vp_home v) as [r|]; [|done]. intros H. by rewrite (H r eq_refl). Qed.
Lemma stands_frame w w' c s d : (forall r, home c = Some r -> w_sref w' !! r = w_sref w !! r) -> stands w c s d -> stands w' c s d.
Proof.
  intros H. destruct c as [p|b r], s as [k ms|b' ms]; cbn in *; try done.
  - intros (H1 & H2 & H3 & H4). split; [done|]. split; [done|]. split; [done|]. destruct d as [[T q]|].
    + destruct H4 as (v & Hv & Ha & He). exists v. split; [done|]. split; [|done]. eapply alive_frame; [|done]. rewrite Hv in H. done.
    + destruct H4 as (H4 & H5). split; [done|]. intros v Hv. destruct (H5 v Hv) as [Ha He]. split; [|done]. eapply alive_frame; [|done]. rewrite Hv in H. done.
  - intros (-> & T & q & s & H1 & H2 & H3). split; [done|]. exists T, q, s. split; [done|]. split; [|done]. by rewrite (H r eq_refl).
Qed.

(** ** Homes of the results of conversions *)
Lemma bind_inv {A B} (m : M A) (f : A -> M B) w b w' : bindM m f w = Ok b w' -> exists a w1, m w = Ok a w1 /\ f a w1 = Ok b w'.
Proof. unfold bindM. destruct (m w) as [a w1| | |] eqn:H; try done. eauto. Qed.

Lemma read_slot_same v k w s w' : read_slot v k w = Ok s w' -> w' = w.
Proof. unfold read_slot. destruct (aliveb w v); [|done]. destruct (nth_error _ _); [|done]. by intros [= _ ->]. Qed.
Lemma view_of_home O ms v w v' w' : view_of O ms v w = Ok v' w' -> w' = w /\ (v' = v \/ exists t, v' = Some (VPtr None t 0)).
Proof.
  assert (Hret : forall u, retM u w = Ok v' w' -> u = v -> w' = w /\ (v' = v \/ exists t, v' = Some (VPtr None t 0))).
  { intros u [= <- <-] ->. split; [done|by left]. }
  unfold view_of. destruct ms as [|m [|m' tl]]; [by intros H; apply (Hret v)| |by intros H; destruct v; apply (Hret _ H)].
  destruct v as [v|]; [|by intros H; apply (Hret _ H)]. destruct (ob_triv O m); [|by intros H; apply (Hret _ H)].
  intros H. apply bind_inv in H as (s & w1 & H1 & H2). apply read_slot_same in H1 as ->. injection H2 as <- <-. split; [done|]. right. by eexists.
Qed.
(** the two views use the same table, or the second has its own copy *)
Definition derived (a b : option vptr) : Prop :=
  match b with
  | None => True
  | Some v => vp_home v = None \/ exists u, a = Some u /\ vp_home u = vp_home v /\ vp_tab u = vp_tab v
  end.
Lemma derived_refl a : derived a a.
Proof. destruct a as [v|]; [|done]. right. by exists v. Qed.
Lemma derived_trans a b c : derived a b -> derived b c -> derived a c.
Proof.
  unfold derived. destruct c as [v|]; [|done]. intros H [H1|(u & -> & H1 & H2)]; [by left|]. destruct H as [H|(t & -> & H3 & H4)]; [left; congruence|].
  right. exists t. split; [done|]. split; congruence.
Qed.
Lemma mk_view_derived O k ms v q w p w' : mk_view O k ms v q w = Ok p w' -> w' = w /\ derived v (pv_vt p).
Proof.
  unfold mk_view. intros H. apply bind_inv in H as (v' & w1 & H1 & H2). injection H2 as <- <-. apply view_of_home in H1 as (-> & H). split; [done|]. cbn.
  destruct H as [->|(t & ->)]; [apply derived_refl|]. by left.
Qed.
Lemma subtable_derived to from v w v' w' : sub_ptr to from v w = Ok v' w' -> w' = w /\ derived v v'.
Proof.
  unfold sub_ptr. destruct v as [v|].
  - intros H. apply bind_inv in H as (u & w1 & H1 & H2). injection H2 as <- <-. unfold subtableM in H1. destruct (subtable to from v) as [u'|] eqn:Hs; [|done].
    injection H1 as <- <-. split; [done|]. right. exists v. split; [done|]. rewrite (subtable_home _ _ _ _ Hs). split; [done|].
    unfold subtable in Hs. destruct (list_same _ _ _); [by injection Hs as <-|]. destruct (find_subsequence _ _ _) as [[n|]|]; try done. by injection Hs as <-.
  - destruct (list_same meqb to from); [|done]. by intros [= <- <-].
Qed.

(** a view into a stateful reference has that reference's table *)
Definition current (w : world) (c : cur) : Prop :=
  match c with
  | CView p => forall v r, pv_vt p = Some v -> vp_home v = Some r -> exists s, w_sref w !! r = Some s /\ vp_tab v = sr_tab s
  | CState _ _ => True
  end.
Lemma current_refresh w c : current w c -> refresh w c = c.
Proof.
  destruct c as [[k v p ms]|b r]; [|done]. cbn. intros H. destruct v as [v|]; [|done]. cbn. do 3 f_equal. unfold refresh_vt.
  destruct (vp_home v) as [r|] eqn:Hr; [|done]. destruct (H v r eq_refl Hr) as (s & -> & Ht). destruct v as [h t o]. cbn in *. by subst.
Qed.
Lemma refresh_current w c s d : stands w (refresh w c) s d -> current w (refresh w c).
Proof.
  destruct c as [[k v p ms]|b r]; [|done]. destruct s as [k' ms'|b ms']; [|done]. cbn. intros (_ & _ & _ & H) u r Hu Hr. destruct v as [v|]; [|done]. cbn in Hu. injection Hu as <-.
  assert (Ha : vt_alive w (refresh_vt w v)).
  { destruct d as [[T q]|]; [destruct H as (v' & [= <-] & Ha & _); done|]. destruct H as (_ & H). by destruct (H _ eq_refl). }
  unfold vt_alive in Ha. rewrite Hr in Ha. destruct Ha as [t Ht]. exists t. split; [done|]. unfold refresh_vt in *.
  destruct (vp_home v) as [r'|] eqn:Hv; [|congruence]. destruct (w_sref w !! r') as [t'|] eqn:Ht'; cbn in *; [|congruence]. congruence.
Qed.
Lemma derived_home a k k' p p' ms ms' b : derived a b ->
  home (CView (PV k' b p' ms')) = None \/ home (CView (PV k' b p' ms')) = home (CView (PV k a p ms)).
Proof. cbn. destruct b as [v|]; [|by left]. intros [->|(u & -> & Hu & _)]; [by left|by right]. Qed.
Lemma derived_current w a k k' p p' ms ms' b : derived a b -> current w (CView (PV k a p ms)) -> current w (CView (PV k' b p' ms')).
Proof.
  cbn. destruct b as [v|]; [|done]. intros [Hn|(u & -> & Hu & Ht)] Hc v' r [= <-] Hr; [congruence|].
  destruct (Hc u r eq_refl ltac:(congruence)) as (s & Hs & Hst). exists s. split; [done|congruence].
Qed.

Lemma conv_view_derived O k ms p w q w' : conv_view O k ms p w = Ok q w' -> w' = w /\ derived (pv_vt p) (pv_vt q).
Proof.
  unfold conv_view. intros H. apply bind_inv in H as (v & w1 & H1 & H2). apply subtable_derived in H1 as (-> & H1). apply mk_view_derived in H2 as (-> & H2).
  split; [done|]. by eapply derived_trans.
Qed.
Lemma conv_ptr_derived O k ms p w q w' : conv_ptr O k ms p w = Ok q w' -> w' = w /\ derived (pv_vt p) (pv_vt q).
Proof. unfold conv_ptr. destruct (pv_p p); [apply conv_view_derived|]. by intros [= <- <-]. Qed.
Lemma put_sref_inv r s w u w' : put_sref r s w = Ok u w' -> w' = set_sref w (<[r := s]> (w_sref w)).
Proof. unfold put_sref. destruct (w_sref w !! r); [done|]. by intros [= _ <-]. Qed.
Lemma get_sref_inv r w s w' : get_sref r w = Ok s w' -> w' = w /\ w_sref w !! r = Some s.
Proof. unfold get_sref. destruct (w_sref w !! r) eqn:H; [|done]. by intros [= -> ->]. Qed.

(** ** One conversion *)
Lemma step_home O st c w c' w' : run_step O st c w = Ok c' w' -> current w c ->
  current w' c' /\ (home c' = None \/ home c' = last_ref (home c) [st]).
Proof.
  intros H Hc.
  assert (Hview : forall k0 v0 p0 ms0 (q : pval) w1, c = CView (PV k0 v0 p0 ms0) -> w1 = w -> derived v0 (pv_vt q) ->
     current w1 (CView q) /\ (home (CView q) = None \/ home (CView q) = home c)).
  { intros k0 v0 p0 ms0 [k1 v1 p1 ms1] w1 -> -> Hd. cbn [pv_vt] in Hd. split; [by eapply derived_current|]. by apply derived_home. }
  assert (Hstate : forall (b : bool) r (m : M unit) ms, (m ;;; retM (CState b r)) w = Ok c' w' -> st = ToSref r ms \/ st = ToScref r ms ->
     current w' c' /\ (home c' = None \/ home c' = last_ref (home c) [st])).
  { intros b r m ms Hm Hst. apply bind_inv in Hm as (u & w1 & _ & Hm). injection Hm as <- <-. split; [done|]. right. by destruct Hst as [->| ->]. }
  destruct c as [[k v p ms0]|b r].
  - destruct k, st; cbn [run_step] in H; try done;
      try (by eapply (Hstate false); [exact H|]; auto); try (by eapply (Hstate true); [exact H|]; auto).
    + apply bind_inv in H as (q & w1 & H1 & H2). injection H2 as <- <-. apply conv_ptr_derived in H1 as (-> & H1). by eapply Hview.
    + apply bind_inv in H as (q & w1 & H1 & H2). apply mk_view_derived in H1 as (-> & H1).
      destruct (list_same meqb ms ms0); [injection H2 as <- <-; by eapply Hview|].
      apply bind_inv in H2 as (q' & w2 & H2 & H3). injection H3 as <- <-. apply conv_ptr_derived in H2 as (-> & H2).
      eapply Hview; [done|done|]. by eapply derived_trans.
    + destruct p; [|done]. injection H as <- <-. eapply Hview; [done|done|]. apply derived_refl.
    + apply bind_inv in H as (q & w1 & H1 & H2). injection H2 as <- <-. apply conv_ptr_derived in H1 as (-> & H1). by eapply Hview.
    + injection H as <- <-. eapply Hview; [done|done|]. apply derived_refl.
    + apply bind_inv in H as (q & w1 & H1 & H2). injection H2 as <- <-. apply mk_view_derived in H1 as (-> & H1). by eapply Hview.
    + apply bind_inv in H as (q & w1 & H1 & H2). injection H2 as <- <-. apply conv_view_derived in H1 as (-> & H1). by eapply Hview.
    + apply bind_inv in H as (q & w1 & H1 & H2). injection H2 as <- <-. apply conv_view_derived in H1 as (-> & H1). by eapply Hview.
    + apply bind_inv in H as (q & w1 & H1 & H2). injection H2 as <- <-. apply mk_view_derived in H1 as (-> & H1). by eapply Hview.
    + apply bind_inv in H as (q & w1 & H1 & H2). injection H2 as <- <-. apply conv_view_derived in H1 as (-> & H1). by eapply Hview.
    + apply bind_inv in H as (q & w1 & H1 & H2). injection H2 as <- <-. apply mk_view_derived in H1 as (-> & H1). by eapply Hview.
  - destruct st; cbn [run_step] in H; try (by destruct b);
      try (by destruct b; (done || (eapply (Hstate false); [exact H|]; auto)));
      try (by eapply (Hstate true); [exact H|]; auto); try (by destruct b; (eapply (Hstate true); [exact H|]; auto)).
    assert (Hb : exists k, (let! s := get_sref r in let! q := mk_view O k (sr_ms s) (Some (VPtr (Some r) (sr_tab s) 0)) (Some (sr_ptr s)) in retM (CView q)) w = Ok c' w')
      by (destruct b; eauto).
    clear H. destruct Hb as (k & H).
    apply bind_inv in H as (s & w1 & H1 & H2). apply get_sref_inv in H1 as (-> & Hs). apply bind_inv in H2 as (q & w2 & H2 & H3). injection H3 as <- <-.
    apply mk_view_derived in H2 as (-> & H2). destruct q as [k1 v1 p1 ms1]. cbn [pv_vt] in H2. cbn in H2 |- *.
    destruct v1 as [v1|]; [|by split; [intros ? ? ?|left]]. split.
    + intros v' r' [= <-] Hr. destruct H2 as [H2|(u & [= <-] & Hu & Ht)]; [congruence|]. cbn in Hu, Ht. rewrite Hr in Hu. injection Hu as <-. by exists s.
    + destruct H2 as [H2|(u & [= <-] & Hu & Ht)]; [by left|]. by right.
Qed.

Lemma last_ref_cases f l : (forall g, last_ref g l = g) \/ (forall g, last_ref g l = last_ref f l).
Proof.
  revert f. induction l as [|st tl IH]; intros f; [by left|].
  destruct st; try (by destruct (IH f) as [H|H]; [left|right]; intros g; cbn; apply H); right; intros g; cbn; done.
Qed.
Lemma steps_home O l : forall c w c' w', run_steps O l c w = Ok c' w' -> current w c ->
  current w' c' /\ (home c' = None \/ home c' = last_ref (home c) l).
Proof.
  induction l as [|st tl IH]; intros c w c' w' H Hc.
  - injection H as <- <-. split; [done|by right].
  - cbn [run_steps] in H. apply bind_inv in H as (c1 & w1 & H1 & H2). destruct (step_home O st c w c1 w1 H1 Hc) as (Hc1 & Hh1).
    destruct (IH c1 w1 c' w' H2 Hc1) as (Hc2 & Hh2). split; [done|]. destruct Hh2 as [Hh2|Hh2]; [by left|].
    assert (Hl : last_ref (home c) (st :: tl) = last_ref (last_ref (home c) [st]) tl) by (destruct st; done). rewrite Hl.
    destruct Hh1 as [Hh1|Hh1]; [|by right; rewrite Hh2, Hh1]. rewrite Hh1 in Hh2.
    destruct (last_ref_cases None tl) as [Hn|Hn]; [left; rewrite Hh2; apply Hn|]. right. rewrite Hh2. symmetry. apply Hn.
Qed.

(** ** Where chains begin *)
Lemma ptr_any_derived O i ms w a p w' : w_any w !! i = Some a -> ptr_any O i ms w = Ok p w' -> w' = w /\ derived (a_vt a) (pv_vt p).
Proof.
  intros Ha. unfold ptr_any. rewrite (bind_get_any _ _ _ _ Ha). destruct (has_subsequence _ _ _) as [[]|]; try done.
  destruct (has_val a); [|by intros [= <- <-]].
  intros H. apply bind_inv in H as (v & w1 & H1 & H2). apply subtable_derived in H1 as (-> & H1). apply mk_view_derived in H2 as (-> & H2).
  split; [done|]. by eapply derived_trans.
Qed.
Lemma cptr_any_derived O i ms w a p w' : w_any w !! i = Some a -> cptr_any O i ms w = Ok p w' -> w' = w /\ derived (a_vt a) (pv_vt p).
Proof.
  intros Ha. unfold cptr_any. rewrite (bind_get_any _ _ _ _ Ha). destruct (has_subsequence _ _ _) as [[]|]; try done.
  destruct (has_val a); [|by intros [= <- <-]].
  intros H. apply bind_inv in H as (v & w1 & H1 & H2). apply subtable_derived in H1 as (-> & H1). apply mk_view_derived in H2 as (-> & H2).
  split; [done|]. by eapply derived_trans.
Qed.
(** anys have tables of their own *)
Definition own_tables (w : world) : Prop := forall i a v, w_any w !! i = Some a -> a_vt a = Some v -> vp_home v = None.
Lemma derived_own a b : (forall v, a = Some v -> vp_home v = None) -> derived a b -> forall v, b = Some v -> vp_home v = None.
Proof. intros Ha Hd v ->. destruct Hd as [?|(u & -> & Hu & _)]; [done|]. rewrite <- Hu. by apply Ha. Qed.
Lemma start_home O o w c w' : own_tables w -> start O o w = Ok c w' -> current w' c /\ (home c = None \/ home c = origin_ref o).
Proof.
  intros Hown H.
  assert (Hd : forall p, (forall v, pv_vt p = Some v -> vp_home v = None) -> c = CView p -> current w' c /\ (home c = None \/ home c = origin_ref o)).
  { intros p Hp ->. split; [intros v r Hv Hr; rewrite (Hp v Hv) in Hr; done|]. left. cbn. destruct (pv_vt p) as [v|]; [by apply Hp|done]. }
  destruct o as [i|i|[i|] ms|k T p ms|b r T p ms]; cbn [start] in H.
  - apply bind_inv in H as (a & w1 & H1 & H). unfold get_any in H1. destruct (w_any w !! i) as [a'|] eqn:Ha; [|done]. injection H1 as -> <-.
    apply bind_inv in H as (p & w2 & H1 & H2). injection H2 as <- <-. destruct (ptr_any_derived _ _ _ _ _ _ _ Ha H1) as (-> & Hp).
    eapply Hd; [|done]. eapply derived_own; [|done]. intros v. by apply Hown with i.
  - apply bind_inv in H as (a & w1 & H1 & H). unfold get_any in H1. destruct (w_any w !! i) as [a'|] eqn:Ha; [|done]. injection H1 as -> <-.
    apply bind_inv in H as (p & w2 & H1 & H2). injection H2 as <- <-. destruct (cptr_any_derived _ _ _ _ _ _ _ Ha H1) as (-> & Hp).
    eapply Hd; [|done]. eapply derived_own; [|done]. intros v. by apply Hown with i.
  - apply bind_inv in H as (p & w2 & H1 & H2). injection H2 as <- <-.
    destruct (w_any w !! i) as [a|] eqn:Ha; [|by unfold ptr_any, bindM, get_any in H1; rewrite Ha in H1].
    destruct (ptr_any_derived _ _ _ _ _ _ _ Ha H1) as (-> & Hp). eapply Hd; [|done]. eapply derived_own; [|done]. intros v. by apply Hown with i.
  - injection H as <- <-. eapply Hd; [|done]. done.
  - apply bind_inv in H as (q & w2 & H1 & H2). injection H2 as <- <-. apply mk_view_derived in H1 as (-> & H1). eapply Hd; [|done].
    eapply derived_own; [|done]. by intros v [= <-].
  - apply bind_inv in H as (u & w2 & _ & H2). injection H2 as <- <-. split; [done|by right].
Qed.

(** ** The state of a program and what its variables mean *)
Definition home_fits (v : vinfo) (c : cur) : Prop :=
  match c with CState _ r => vi_from v = Some r | CView _ => forall r, home c = Some r -> vi_from v = Some r end.

Record good (w0 : world) (used : list nat) (G : vinfos) (s : pstate) : Prop := {
  g_world : exists m, ps_w s = set_sref w0 m /\ forall r, is_Some (m !! r) -> In r used;
  g_dom : forall x, G !! x = None -> ps_vars s !! x = None;
  g_var : forall x v, G !! x = Some v -> exists c, ps_vars s !! x = Some c /\
            stands (ps_w s) (refresh (ps_w s) c) (vi_ty v) (vi_target v) /\ home_fits v c /\
            (forall r, vi_from v = Some r -> In r used);
  g_own : forall x y vx vy, G !! x = Some vx -> G !! y = Some vy -> x <> y -> is_view (vi_ty vx) = false -> is_view (vi_ty vy) = false ->
            vi_from vx <> vi_from vy
}.

Lemma begins_sref w m o s d : begins w o s d -> begins (set_sref w m) o s d.
Proof. destruct 1; econstructor; eauto. Qed.
Lemma set_sref_twice w m m' : set_sref (set_sref w m) m' = set_sref w m'.
Proof. done. Qed.

Section Prog.
  Context (E : env) (O : obs) (w0 : world) (HI : Inv E w0) (H0 : w_sref w0 = ∅).

  Lemma own0 m : own_tables (set_sref w0 m).
  Proof.
    intros i a v Ha Hv. cbn in Ha. pose proof (inv_home _ _ HI i a Ha) as Hh. unfold home_ok in Hh. rewrite Hv in Hh. unfold vt_alive in Hh.
    destruct (vp_home v) as [r|]; [|done]. rewrite H0 in Hh. destruct Hh as [? Hh]. by rewrite lookup_empty in Hh.
  Qed.
  Lemma inv0 m : Inv E (set_sref w0 m).
  Proof.
    apply (ext_inv E (map fst (map_to_list m)) w0); [|done]. exists m. split; [done|]. split; [rewrite H0; apply map_empty_subseteq|].
    intros r [s Hs]. right. apply elem_of_list_In, elem_of_list_fmap. exists (r, s). split; [done|]. by apply elem_of_map_to_list.
  Qed.

  Lemma eval_ok used G s e l v : good w0 used G s -> expr_means w0 G e l v -> NoDup (used ++ expr_names e l) ->
    exists c w', eval O s e l = Ok c w' /\ only_new_refs (expr_names e l) (ps_w s) w' /\ stands w' c (vi_ty v) (vi_target v) /\
      current w' c /\ home_fits v c /\ (forall r, vi_from v = Some r -> In r (used ++ expr_names e l)).
  Proof.
    intros [Hw Hd Hv _] He Hn. destruct Hw as (m & Hw & Hm).
    assert (Hfresh : fresh_names (ps_w s) (expr_names e l)).
    { apply NoDup_app in Hn as (_ & Hn & Hn'). split; [done|]. intros r Hr. rewrite Hw. cbn. destruct (m !! r) as [t|] eqn:Ht; [|done].
      exfalso. apply (Hn r); [apply elem_of_list_In, Hm; by exists t|by apply elem_of_list_In]. }
    assert (Hfits : forall c w' f, current w' c -> home c = None \/ home c = last_ref f l -> home_fits (VInfo (vi_ty v) (vi_target v) (last_ref f l)) c).
    { intros c w' f _ Hh. destruct c as [p|b r]; cbn [home_fits vi_from].
      - intros r Hr. destruct Hh as [Hh|Hh]; congruence.
      - destruct Hh as [Hh|Hh]; [done|]. by rewrite <- Hh. }
    assert (Hlast : forall f, (forall r, f = Some r -> In r (used ++ expr_names e l)) -> forall l', incl (concat (map step_names l')) (expr_names e l) ->
      forall r, last_ref f l' = Some r -> In r (used ++ expr_names e l)).
    { intros f Hf l'. revert f Hf. induction l' as [|st tl IH]; intros f Hf Hi r Hr; [by apply Hf|].
      assert (Hi' : incl (concat (map step_names tl)) (expr_names e l)) by (intros r' Hr'; apply Hi; cbn; rewrite in_app_iff; by right).
      destruct st; cbn in Hr; try (by apply (IH f Hf Hi' r Hr)).
      all: eapply IH; [|exact Hi'|exact Hr]; intros r' [= <-]; rewrite in_app_iff; right; apply Hi; by left. }
    destruct He as [o st d l s' Hb Hch Hnull|y st d f l s' Hy Hch Hnull].
    - cbn [expr_names] in *. rewrite Hw in Hfresh |- *.
      destruct (chain_ok E O (set_sref w0 m) o l st s' d (inv0 m) (begins_sref _ _ _ _ _ Hb) Hch Hnull Hfresh) as (c & w' & Hob & Hx & Hst).
      unfold obtained in Hob. pose proof Hob as Hob'. apply bind_inv in Hob' as (c1 & w1 & H1 & H2).
      destruct (start_home O o _ c1 w1 (own0 m) H1) as (Hc1 & Hh1). destruct (steps_home O l c1 w1 c w' H2 Hc1) as (Hc & Hh).
      exists c, w'. split; [cbn; by rewrite Hw|]. split; [done|]. split; [done|]. split; [done|]. split.
      + apply (Hfits c w'); [done|]. destruct Hh as [Hh|Hh]; [by left|]. destruct Hh1 as [Hh1|Hh1]; [|right; congruence].
        rewrite Hh1 in Hh. destruct (last_ref_cases None l) as [Hl|Hl]; [left; rewrite Hh; apply Hl|]. right. rewrite Hh. symmetry. apply Hl.
      + apply Hlast.
        * intros r Hr. rewrite in_app_iff. right. unfold all_names. rewrite in_app_iff. left. destruct o; try done. cbn in Hr |- *. injection Hr as ->. by left.
        * intros r Hr. unfold all_names. rewrite in_app_iff. by right.
    - cbn [expr_names] in *. destruct (Hv _ _ Hy) as (c0 & Hc0 & Hs0 & Hf0 & Hu0). cbn [vi_ty vi_target vi_from] in *.
      pose proof (refresh_current _ _ _ _ Hs0) as Hcur.
      destruct (steps_ok O l (ps_w s) (refresh (ps_w s) c0) st s' d Hch Hs0 Hnull Hfresh) as (c & w' & Hr & Hx & Hst).
      destruct (steps_home O l _ _ c w' Hr Hcur) as (Hc & Hh). rewrite home_refresh in Hh.
      exists c, w'. split; [cbn; unfold read_var; by rewrite Hc0|]. split; [done|]. split; [done|]. split; [done|]. split.
      + apply (Hfits c w'); [done|]. destruct Hh as [Hh|Hh]; [by left|]. rewrite Hh.
        destruct (last_ref_cases None l) as [Hl|Hl]; [|right; by rewrite (Hl (home c0)), (Hl f)]. rewrite !Hl.
        destruct c0 as [p|b r]; [|right; by symmetry]. destruct (home (CView p)) as [r|] eqn:Hp; [|by left]. right. symmetry. by apply Hf0.
      + apply Hlast; [|by apply incl_refl]. intros r Hr'. rewrite in_app_iff. left. by apply Hu0.
  Qed.

  (** ** Statements *)
  Lemma new_names_eq e l : new_names e l = expr_names e l.
  Proof.
    unfold new_names, expr_names, all_names. assert (Hl : map (fun st => match st with ToSref r _ | ToScref r _ => [r] | _ => [] end) l = map step_names l) by done.
    rewrite Hl. destruct e as [o|y]; [|done]. by destruct o.
  Qed.
  Lemma drop_lookup names keep w r : (~ In r names \/ keep = Some r) -> w_sref (drop_temps names keep w) !! r = w_sref w !! r.
  Proof.
    intros H. cbn. induction names as [|a tl IH]; [done|]. cbn. destruct (bool_decide (keep = Some a)) eqn:Hk.
    - apply IH. destruct H as [H|H]; [left; intros Ht; apply H; by right|by right].
    - apply bool_decide_eq_false in Hk. rewrite lookup_delete_ne.
      + apply IH. destruct H as [H|H]; [left; intros Ht; apply H; by right|by right].
      + intros ->. destruct H as [H|H]; [apply H; by left|done].
  Qed.
  Lemma drop_some names keep w r : is_Some (w_sref (drop_temps names keep w) !! r) -> is_Some (w_sref w !! r).
  Proof.
    cbn. induction names as [|a tl IH]; [done|]. cbn. destruct (bool_decide (keep = Some a)); [done|]. destruct (decide (a = r)) as [->|Hn].
    - rewrite lookup_delete. by intros [? ?].
    - by rewrite lookup_delete_ne.
  Qed.

  Lemma good_put used used' G s s' x v c m' :
    good w0 used G s -> incl used used' -> ps_w s' = set_sref w0 m' -> (forall r, is_Some (m' !! r) -> In r used') ->
    (forall y vy cy, y <> x -> G !! y = Some vy -> ps_vars s !! y = Some cy -> forall r, home cy = Some r -> w_sref (ps_w s') !! r = w_sref (ps_w s) !! r) ->
    ps_vars s' = <[x := c]> (ps_vars s) -> stands (ps_w s') (refresh (ps_w s') c) (vi_ty v) (vi_target v) -> home_fits v c ->
    (forall r, vi_from v = Some r -> In r used') ->
    (is_view (vi_ty v) = false -> forall y vy, y <> x -> G !! y = Some vy -> is_view (vi_ty vy) = false -> vi_from vy <> vi_from v) ->
    good w0 used' (<[x := v]> G) s'.
  Proof.
    intros [Hw Hd Hv Ho] Hu Hw' Hm' Hframe Hvars Hst Hfit Hfrom Hown. split.
    - by exists m'.
    - intros y. destruct (decide (y = x)) as [->|Hn]; [by rewrite lookup_insert|]. rewrite Hvars, !lookup_insert_ne by done. apply Hd.
    - intros y vy. destruct (decide (y = x)) as [->|Hn].
      + rewrite lookup_insert. intros [= <-]. exists c. rewrite Hvars, lookup_insert. done.
      + rewrite lookup_insert_ne by done. intros Hy. destruct (Hv y vy Hy) as (cy & Hcy & Hs & Hf & Hr). exists cy.
        rewrite Hvars, lookup_insert_ne by done. split; [done|]. split; [|split; [done|intros r Hr'; by apply Hu, Hr]].
        assert (Hfr := Hframe y vy cy Hn Hy Hcy). rewrite (refresh_frame (ps_w s) (ps_w s') cy Hfr). eapply stands_frame; [|done]. by rewrite home_refresh.
    - intros y z vy vz. destruct (decide (y = x)) as [->|Hy], (decide (z = x)) as [->|Hz]; rewrite ?lookup_insert; rewrite ?lookup_insert_ne by done.
      + done.
      + intros [= <-] Hz' _ H1 H2 H3. apply (Hown H1 z vz Hz Hz' H2). done.
      + intros Hy' [= <-] _ H1 H2. by apply (Hown H2 y vy Hy Hy' H1).
      + apply Ho.
  Qed.

  Lemma null_good used G s x k ms : good w0 used G s -> is_ptr k = true ->
    good w0 used (<[x := VInfo (VView k ms) None None]> G) (PState (ps_w s) (<[x := CView (null_view k ms)]> (ps_vars s))).
  Proof.
    intros Hg Hk. destruct (g_world _ _ _ _ Hg) as (m & Hw & Hm). eapply (good_put used used G s _ x _ (CView (null_view k ms)) m Hg); try done.
    apply incl_refl.
  Qed.

  Lemma chain_state s l b ms f : chain s l (VState b ms) -> l <> [] -> exists r, last_ref f l = Some r /\ In r (concat (map step_names l)).
  Proof.
    remember (VState b ms) as s' eqn:Hs'. intros Hch. revert f. induction Hch as [s|s st s1 l s2 Hcv Hch IH]; [done|]. intros f _. subst s2.
    destruct l as [|st' tl].
    - inversion Hch; subst. inversion Hcv; subst; cbn; eauto.
    - destruct (IH eq_refl) with (f := last_ref f [st]) as (r & Hr & Hin); [done|]. exists r. split; [|cbn; rewrite in_app_iff; by right].
      rewrite <- Hr. by destruct st.
  Qed.
  Lemma new_state_name G e l v : expr_means w0 G e l v -> is_view (vi_ty v) = false -> temporary e l -> forall r, vi_from v = Some r -> In r (expr_names e l).
  Proof.
    intros He Hs Ht r Hr. destruct He as [o st d l s' Hb Hch Hn|y st d f l s' Hy Hch Hn]; cbn in *.
    - unfold all_names. rewrite in_app_iff. destruct l as [|st1 tl].
      + cbn in Hr. left. destruct o; try done. cbn in *. injection Hr as ->. by left.
      + destruct s' as [|b ms]; [done|]. destruct (chain_state _ _ _ _ (origin_ref o) Hch) as (r' & Hr' & Hin); [done|]. right. congruence.
    - destruct s' as [|b ms]; [done|]. destruct (chain_state _ _ _ _ f Hch Ht) as (r' & Hr' & Hin). congruence.
  Qed.

  (** temporaries and variables do not meet *)
  Lemma ext_keeps (names used : list nat) w w' r : only_new_refs names w w' -> In r used -> NoDup (used ++ names) -> w_sref w' !! r = w_sref w !! r.
  Proof.
    intros (m & -> & Hsub & Hnew) Hr Hn. cbn. destruct (w_sref w !! r) as [t|] eqn:Ht; [by eapply lookup_weaken|].
    destruct (m !! r) as [t|] eqn:Hm; [|done]. destruct (Hnew r) as [H|H]; [by exists t|rewrite Ht in H; by destruct H|].
    exfalso. apply NoDup_app in Hn as (_ & Hn & _). apply (Hn r); by apply elem_of_list_In.
  Qed.
  Lemma nodup_not (used names : list nat) r : NoDup (used ++ names) -> In r used -> ~ In r names.
  Proof. intros Hn Hr Hi. apply NoDup_app in Hn as (_ & Hn & _). apply (Hn r); by apply elem_of_list_In. Qed.

  Lemma home_used used G s y vy cy r : good w0 used G s -> G !! y = Some vy -> ps_vars s !! y = Some cy -> home cy = Some r -> vi_from vy = Some r /\ In r used.
  Proof.
    intros Hg Hy Hc Hh. destruct (g_var _ _ _ _ Hg y vy Hy) as (c & Hc' & _ & Hf & Hu). rewrite Hc in Hc'. injection Hc' as <-.
    assert (vi_from vy = Some r) by (destruct cy; [by apply Hf|]; cbn in *; congruence). split; [done|]. by apply Hu.
  Qed.

  Lemma stands_view w c s d : stands w c s d -> is_view s = match c with CView _ => true | CState _ _ => false end.
  Proof. by destruct c, s. Qed.
  Lemma stands_refresh_view w c s d : stands w (refresh w c) s d -> is_view s = match c with CView _ => true | CState _ _ => false end.
  Proof. intros H. rewrite (stands_view _ _ _ _ H). by destruct c. Qed.

  Lemma new_ok used G s x e l v : good w0 used G s -> G !! x = None -> expr_means w0 G e l v -> (is_view (vi_ty v) = false -> temporary e l) ->
    lasting e l v -> NoDup (used ++ expr_names e l) ->
    exists s', run_stmt O (SNew x e l) s = POk s' /\ good w0 (used ++ expr_names e l) (<[x := v]> G) s'.
  Proof.
    intros Hg Hx He Htmp Hlast Hn. destruct (eval_ok used G s e l v Hg He Hn) as (c & w' & Hev & Hext & Hst & Hcur & Hfit & Hfrom).
    pose proof (stands_view _ _ _ _ Hst) as Hview. destruct (g_world _ _ _ _ Hg) as (m & Hw & Hm). pose proof Hext as (m1 & Hm1 & _ & Hnew).
    set (keep := match c with CState _ r => Some r | CView _ => None end).
    set (s' := finish (new_names e l) keep (PState w' (<[x := c]> (ps_vars s)))).
    exists s'. split.
    - cbn [run_stmt]. rewrite (g_dom _ _ _ _ Hg x Hx), Hev. destruct c as [p|b r]; [by destruct e, l|].
      destruct e as [o|y]; [by destruct l|]. destruct l; [|done]. exfalso. by apply Htmp.
    - assert (Hname : forall r, In r used -> ~ In r (expr_names e l)) by (intros r; by apply nodup_not).
      assert (Hkeep : forall r, home c = Some r -> ~ In r (new_names e l) \/ keep = Some r).
      { intros r Hr. destruct c as [p|b r']; [|right; exact Hr]. left. rewrite new_names_eq. apply Hlast; [by rewrite Hview|]. by apply Hfit. }
      eapply (good_put used _ G s s' x v c (w_sref (ps_w s')) Hg).
      + intros r Hr. rewrite in_app_iff. by left.
      + unfold s', finish, drop_temps. cbn. rewrite Hm1, Hw. done.
      + intros r Hr. unfold s', finish in Hr. cbn [ps_w] in Hr. apply drop_some in Hr. rewrite Hm1 in Hr. cbn in Hr. rewrite in_app_iff.
        destruct (Hnew r Hr) as [H|H]; [|by right]. left. rewrite Hw in H. by apply Hm.
      + intros y vy cy Hyx Hy Hcy r Hr. destruct (home_used _ _ _ _ _ _ _ Hg Hy Hcy Hr) as (_ & Hru). unfold s', finish. cbn [ps_w].
        rewrite drop_lookup; [by eapply ext_keeps|]. left. rewrite new_names_eq. by apply Hname.
      + done.
      + assert (Hfr : forall r, home c = Some r -> w_sref (ps_w s') !! r = w_sref w' !! r).
        { intros r Hr. unfold s', finish. cbn [ps_w]. apply drop_lookup. by apply Hkeep. }
        rewrite (refresh_frame w' (ps_w s') c Hfr), (current_refresh _ _ Hcur). by eapply stands_frame.
      + done.
      + done.
      + intros Hs y vy Hyx Hy Hsy Heq. destruct (g_var _ _ _ _ Hg y vy Hy) as (cy & Hcy & Hsty & Hfy & Huy).
        rewrite (stands_refresh_view _ _ _ _ Hsty) in Hsy. destruct cy as [py|by' ry]; [done|]. cbn in Hfy.
        apply (Hname ry); [by apply Huy|]. eapply new_state_name; [done|done|by apply Htmp|]. congruence.
  Qed.

  Lemma is_ptr_kind k : kind_ptr k = is_ptr k.
  Proof. by destruct k. Qed.
  Lemma list_same_refl (ms : list method) : list_same meqb ms ms = true.
  Proof. by apply (list_same_spec meqb meqb_ok). Qed.

  Lemma same_type_ok w w1 w' c0 c d d' s : stands w (refresh w c0) s d -> stands w' c s d' ->
    (forall r, home c0 = Some r -> w_sref w1 !! r = w_sref w !! r) -> (forall r, home c = Some r -> w_sref w1 !! r = w_sref w' !! r) ->
    same_type w1 c0 c = true.
  Proof.
    intros H1 H2 Hf Hf'. destruct c0 as [p|b r], c as [q|b' r'], s as [k ms|bs ms]; try done; cbn [same_type].
    - destruct H1 as (Hk & Hm & _), H2 as (Hk' & Hm' & _). cbn in Hk, Hm. rewrite Hk, Hk', Hm, Hm', list_same_refl. by destruct k.
    - destruct H1 as (-> & T & q & t & _ & Ht & Hms & _), H2 as (-> & T' & q' & t' & _ & Ht' & Hms' & _).
      rewrite (Hf r eq_refl), (Hf' r' eq_refl), Ht, Ht', Hms, Hms', list_same_refl. by destruct bs.
  Qed.
  Lemma assignable_ok w c s d const lvalue : stands w (refresh w c) s d -> (is_ref s = true -> const = lvalue) ->
    assignable c (Arg true const lvalue) = true.
  Proof.
    intros Hs Ha. destruct c as [p|b r], s as [k ms|bs ms]; try done.
    - destruct Hs as (Hk & _). cbn in Hk. cbn [assignable]. rewrite Hk, is_ptr_kind. cbn [is_ref] in Ha. destruct (is_ptr k) eqn:Hp.
      + by destruct const, lvalue.
      + rewrite (Ha eq_refl). by destruct lvalue.
    - cbn [assignable]. rewrite (Ha eq_refl). by destruct lvalue.
  Qed.

  (** storing a value of the same type; [w1] is the state in which the value [c] was computed, [w2] the one afterwards *)
  Lemma store_ok used used' G s x vx c0 v c w1 names :
    good w0 used G s -> incl used used' -> G !! x = Some vx -> ps_vars s !! x = Some c0 -> ~ lent G x ->
    only_new_refs names (ps_w s) w1 -> NoDup (used ++ names) -> incl names used' ->
    stands w1 c (vi_ty vx) (vi_target v) -> current w1 c -> home_fits v c -> (forall r, vi_from v = Some r -> In r used') ->
    (is_view (vi_ty vx) = true -> forall r, home c = Some r -> ~ In r names) ->
    exists s1, store x c0 c (PState w1 (ps_vars s)) = Some s1 /\ good w0 used' (<[x := assigned vx v]> G) (finish names None s1).
  Proof.
    intros Hg Hu Hx Hc0 Hlent Hext Hn Hnu Hst Hcur Hfit Hfrom Hlast.
    destruct (g_var _ _ _ _ Hg x vx Hx) as (c0' & Hc0' & Hs0 & Hf0 & Hu0). rewrite Hc0 in Hc0'. injection Hc0' as <-.
    destruct (g_world _ _ _ _ Hg) as (m & Hw & Hm). pose proof Hext as (m1 & Hm1 & _ & Hnew).
    assert (Hname : forall r, In r used -> ~ In r names) by (intros r; by apply nodup_not).
    assert (Hkeys : forall r, is_Some (m1 !! r) -> In r used').
    { intros r Hr. destruct (Hnew r Hr) as [H|H]; [|by apply Hnu]. apply Hu. rewrite Hw in H. by apply Hm. }
    pose proof (stands_refresh_view _ _ _ _ Hs0) as Hv0. pose proof (stands_view _ _ _ _ Hst) as Hv. rewrite Hv0 in Hv.
    destruct c0 as [p0|b0 r0], c as [p|b r]; try done.
    - (* views *)
      set (s' := finish names None (PState w1 (<[x := CView p]> (ps_vars s)))). eexists. split; [reflexivity|]. fold s'.
      eapply (good_put used used' G s s' x (assigned vx v) (CView p) (w_sref (ps_w s')) Hg Hu).
      + unfold s', finish, drop_temps. cbn. by rewrite Hm1, Hw.
      + intros r Hr. apply Hkeys. unfold s', finish in Hr. cbn [ps_w] in Hr. apply drop_some in Hr. by rewrite Hm1 in Hr.
      + intros y vy cy Hyx Hy Hcy r Hr. destruct (home_used _ _ _ _ _ _ _ Hg Hy Hcy Hr) as (_ & Hru). unfold s', finish. cbn [ps_w].
        rewrite drop_lookup; [by eapply ext_keeps|]. left. by apply Hname.
      + done.
      + assert (Hfr : forall r, home (CView p) = Some r -> w_sref (ps_w s') !! r = w_sref w1 !! r).
        { intros r Hr. unfold s', finish. cbn [ps_w]. apply drop_lookup. left. by apply Hlast. }
        rewrite (refresh_frame w1 (ps_w s') _ Hfr), (current_refresh _ _ Hcur). by eapply stands_frame.
      + unfold assigned, home_fits. cbn [vi_from vi_ty]. rewrite Hv0. done.
      + unfold assigned. cbn [vi_from]. rewrite Hv0. done.
      + unfold assigned. cbn [vi_ty]. by rewrite Hv0.
    - (* stateful references *)
      destruct (vi_ty vx) as [k ms|bs ms] eqn:Hty; [done|]. cbn [refresh] in Hs0. cbn in Hf0.
      pose proof Hst as (-> & T & q & t & Htgt & Ht & Hms & Hq & Hent). pose proof Hs0 as (-> & _).
      cbn [store]. cbn [ps_w]. rewrite Ht. eexists. split; [reflexivity|].
      set (s' := finish names None (PState (set_sref w1 (<[r0 := t]> (w_sref w1))) (ps_vars s))). cbn [ps_vars]. fold s'.
      assert (Hr0 : In r0 used) by by apply Hu0.
      eapply (good_put used used' G s s' x (assigned vx v) (CState bs r0) (w_sref (ps_w s')) Hg Hu).
      + unfold s', finish, drop_temps. cbn. by rewrite Hm1, Hw.
      + intros r1 Hr1. unfold s', finish in Hr1. cbn [ps_w] in Hr1. apply drop_some in Hr1. cbn [w_sref set_sref] in Hr1.
        destruct (decide (r1 = r0)) as [->|Hne]; [by apply Hu|]. rewrite lookup_insert_ne in Hr1 by done. rewrite Hm1 in Hr1. by apply Hkeys.
      + intros y vy cy Hyx Hy Hcy r1 Hr1. destruct (home_used _ _ _ _ _ _ _ Hg Hy Hcy Hr1) as (Hfy & Hru). unfold s', finish. cbn [ps_w].
        rewrite drop_lookup by (left; by apply Hname). cbn [w_sref set_sref]. rewrite lookup_insert_ne; [by eapply ext_keeps|]. intros ->.
        destruct (g_var _ _ _ _ Hg y vy Hy) as (cy' & Hcy' & Hsy & _). rewrite Hcy in Hcy'. injection Hcy' as <-.
        destruct (is_view (vi_ty vy)) eqn:Hvy.
        * apply Hlent. exists vx, y, vy. rewrite Hty. split; [done|]. split; [done|]. split; [done|]. split; [done|]. congruence.
        * eapply (g_own _ _ _ _ Hg y x vy vx); try done; [by rewrite Hty|congruence].
      + cbn [ps_vars s' finish]. by rewrite insert_id.
      + cbn [refresh]. unfold assigned. cbn [vi_ty vi_target]. rewrite Hty. split; [done|]. exists T, q, t. split; [done|]. split.
        * unfold s', finish. cbn [ps_w]. rewrite drop_lookup by (left; by apply Hname). cbn [w_sref set_sref]. by rewrite lookup_insert.
        * split; [done|]. split; [done|]. intros k mm Hk. apply (Hent k mm Hk).
      + unfold assigned, home_fits. cbn [vi_from]. by rewrite Hty.
      + unfold assigned. cbn [vi_from]. rewrite Hty. cbn. intros r1 Hr1. apply Hu, Hu0. congruence.
      + unfold assigned. cbn [vi_from vi_ty]. rewrite Hty. intros _ y vy Hyx Hy Hsy. cbn [is_view].
        apply (g_own _ _ _ _ Hg y x vy vx); try done. by rewrite Hty.
  Qed.

  Lemma assign_ok used G s x e l v old : good w0 used G s -> G !! x = Some old -> expr_means w0 G e l v -> vi_ty v = vi_ty old -> temporary e l ->
    lasting e l v -> ~ lent G x -> NoDup (used ++ expr_names e l) ->
    exists s', run_stmt O (SAssign x e l) s = POk s' /\ good w0 (used ++ expr_names e l) (<[x := assigned old v]> G) s'.
  Proof.
    intros Hg Hx He Hty Htmp Hlast Hlent Hn. destruct (eval_ok used G s e l v Hg He Hn) as (c & w' & Hev & Hext & Hst & Hcur & Hfit & Hfrom).
    destruct (g_var _ _ _ _ Hg x old Hx) as (c0 & Hc0 & Hs0 & Hf0 & Hu0). rewrite Hty in Hst.
    destruct (store_ok used (used ++ expr_names e l) G s x old c0 v c w' (expr_names e l)) as (s1 & Hs1 & Hg1); try done.
    - intros r Hr. rewrite in_app_iff. by left.
    - intros r Hr. rewrite in_app_iff. by right.
    - intros Hv r Hr. apply Hlast; [by rewrite Hty|]. pose proof (stands_view _ _ _ _ Hst) as Hcv. rewrite Hv in Hcv. destruct c as [p|]; [|done]. by apply Hfit.
    - eexists. split; [|exact Hg1]. cbn [run_stmt]. rewrite Hc0, Hev.
      assert (Hsame : same_type w' c0 c = true).
      { eapply (same_type_ok (ps_w s) w' w'); [done|done| |done]. intros r Hr. destruct (home_used _ _ _ _ _ _ _ Hg Hx Hc0 Hr) as (_ & Hru). by eapply ext_keeps. }
      rewrite Hsame, (assignable_ok _ _ _ _ false false Hs0 (fun _ => eq_refl)), Hs1, new_names_eq.
      destruct e as [o|y]; [by destruct l|]. by destruct l.
  Qed.

  Lemma finish_nil s : finish [] None s = s.
  Proof. destruct s as [w vs]. unfold finish, drop_temps. cbn. f_equal. by destruct w. Qed.
  Lemma assign_var_ok used G s x y n v old : good w0 used G s -> G !! x = Some old -> G !! y = Some v -> vi_ty v = vi_ty old ->
    may_assign (vi_ty old) n -> ~ lent G x -> NoDup used ->
    exists s', run_stmt O (SAssignVar x y n) s = POk s' /\ good w0 used (<[x := assigned old v]> G) s'.
  Proof.
    intros Hg Hx Hy Hty Hmay Hlent Hn. destruct (g_var _ _ _ _ Hg x old Hx) as (c0 & Hc0 & Hs0 & Hf0 & Hu0).
    destruct (g_var _ _ _ _ Hg y v Hy) as (c & Hc & Hs & Hf & Hu). pose proof (refresh_current _ _ _ _ Hs) as Hcur. rewrite Hty in Hs.
    destruct (store_ok used used G s x old c0 v (refresh (ps_w s) c) (ps_w s) []) as (s1 & Hs1 & Hg1); try done.
    - apply incl_refl.
    - apply ext_refl.
    - by rewrite app_nil_r.
    - by intros r [].
    - destruct c as [p|b r]; [|done]. intros r Hr. apply Hf. rewrite <- Hr. symmetry. exact (home_refresh (ps_w s) (CView p)).
    - intros _ r _ [].
    - exists s1. rewrite finish_nil in Hg1. split; [|done]. destruct n as [const lvalue]. cbn [run_stmt]. unfold read_var. rewrite Hc0, Hc. cbn [option_map].
      assert (Hsame : same_type (ps_w s) c0 (refresh (ps_w s) c) = true) by by eapply (same_type_ok (ps_w s) (ps_w s) (ps_w s)).
      rewrite Hsame, (assignable_ok _ _ _ _ const lvalue Hs0 Hmay). destruct s as [w vs]. cbn [ps_w ps_vars] in *. by rewrite Hs1.
  Qed.

  Lemma end_ok used G s x v : good w0 used G s -> G !! x = Some v -> ~ lent G x ->
    exists s', run_stmt O (SEnd x) s = POk s' /\ good w0 used (delete x G) s'.
  Proof.
    intros Hg Hx Hlent. destruct (g_var _ _ _ _ Hg x v Hx) as (c & Hc & Hs & Hf & Hu). destruct (g_world _ _ _ _ Hg) as (m & Hw & Hm).
    pose proof (stands_refresh_view _ _ _ _ Hs) as Hv.
    assert (Hkeep : forall w' vs, vs = delete x (ps_vars s) -> (exists m', w' = set_sref w0 m' /\ forall r, is_Some (m' !! r) -> In r used) ->
      (forall y vy cy, y <> x -> G !! y = Some vy -> ps_vars s !! y = Some cy -> forall r, home cy = Some r -> w_sref w' !! r = w_sref (ps_w s) !! r) ->
      good w0 used (delete x G) (PState w' vs)).
    { intros w' vs -> Hm' Hfr. split.
      - exact Hm'.
      - intros y. cbn. destruct (decide (y = x)) as [->|Hne]; [by rewrite !lookup_delete|]. rewrite !lookup_delete_ne by done. apply (g_dom _ _ _ _ Hg).
      - intros y vy. destruct (decide (y = x)) as [->|Hne]; [by rewrite lookup_delete|]. rewrite lookup_delete_ne by done. intros Hy.
        destruct (g_var _ _ _ _ Hg y vy Hy) as (cy & Hcy & Hsy & Hfy). exists cy. cbn [ps_vars ps_w]. rewrite lookup_delete_ne by done. split; [done|]. split; [|done].
        assert (Hfr' := Hfr y vy cy Hne Hy Hcy). rewrite (refresh_frame (ps_w s) w' cy Hfr'). eapply stands_frame; [|done]. by rewrite home_refresh.
      - intros y z vy vz Hy Hz. apply lookup_delete_Some in Hy as (_ & Hy). apply lookup_delete_Some in Hz as (_ & Hz). by apply (g_own _ _ _ _ Hg). }
    cbn [run_stmt]. rewrite Hc. destruct c as [p|b r].
    - eexists. split; [done|]. apply Hkeep; [done|by exists m|done].
    - eexists. split; [done|]. apply Hkeep; [done| |].
      + exists (delete r m). rewrite Hw. split; [done|]. intros r' Hr'. apply Hm. destruct Hr' as [t Ht]. apply lookup_delete_Some in Ht as (_ & Ht). by exists t.
      + intros y vy cy Hyx Hy Hcy r' Hr'. cbn. rewrite lookup_delete_ne; [done|]. intros <-.
        destruct (home_used _ _ _ _ _ _ _ Hg Hy Hcy Hr') as (Hfy & _). cbn in Hf. destruct (is_view (vi_ty vy)) eqn:Hvy.
        * apply Hlent. exists v, y, vy. split; [done|]. split; [done|]. split; [done|]. split; [done|]. congruence.
        * eapply (g_own _ _ _ _ Hg y x vy v); try done. congruence.
  Qed.

  Lemma stmt_ok used G s t G' : good w0 used G s -> means w0 G t G' -> NoDup (used ++ stmt_names t) ->
    exists s', run_stmt O t s = POk s' /\ good w0 (used ++ stmt_names t) G' s'.
  Proof.
    intros Hg Hm Hn. destruct Hm as [x k ms Hx Hk|x k ms Hx Hk|x e l v Hx He Htmp Hl|x k ms d f Hx Hk|x e l v old Hx He Hty Ht Hl Hlent|x y n v old Hx Hy Hty Hmay Hlent|x v Hx Hlent];
      cbn [stmt_names] in *; rewrite ?app_nil_r in *.
    - eexists. cbn [run_stmt]. rewrite (g_dom _ _ _ _ Hg x Hx), is_ptr_kind, Hk. split; [done|]. by apply null_good.
    - eexists. cbn [run_stmt]. rewrite (g_dom _ _ _ _ Hg x Hx), is_ptr_kind, Hk. split; [done|]. by apply null_good.
    - by apply new_ok.
    - destruct (g_var _ _ _ _ Hg x _ Hx) as (c & Hc & Hs & _). cbn [vi_ty] in Hs. destruct c as [p|]; [|done]. destruct Hs as (Hk' & Hms & _). cbn in Hk', Hms.
      eexists. cbn [run_stmt]. rewrite Hc, is_ptr_kind, Hk', Hk, Hms. split; [done|]. by apply null_good.
    - by apply assign_ok.
    - by apply assign_var_ok.
    - by eapply end_ok.
  Qed.

  Lemma stmts_ok l : forall used G s G', good w0 used G s -> means_all w0 G l G' -> NoDup (used ++ concat (map stmt_names l)) ->
    exists s', run_stmts O l s = POk s' /\ good w0 (used ++ concat (map stmt_names l)) G' s'.
  Proof.
    induction l as [|t tl IH]; intros used G s G' Hg Hm Hn.
    - inversion Hm; subst. exists s. split; [done|]. cbn. by rewrite app_nil_r.
    - inversion Hm as [|? ? G1 ? ? H1 H2]; subst. cbn [map concat] in *. rewrite app_assoc in Hn |- *.
      destruct (stmt_ok used G s t G1 Hg H1) as (s1 & Hs1 & Hg1); [by apply NoDup_app in Hn as (Hn & _ & _)|].
      destruct (IH _ G1 s1 G' Hg1 H2 Hn) as (s2 & Hs2 & Hg2). exists s2. split; [|done]. cbn. by rewrite Hs1.
  Qed.

  Lemma good_nil : good w0 [] ∅ (PState w0 ∅).
  Proof.
    split.
    - exists ∅. split; [|intros r [? Hr]; by rewrite lookup_empty in Hr]. cbn. rewrite <- H0. by destruct w0.
    - intros x _. cbn. apply lookup_empty.
    - intros x v Hx. by rewrite lookup_empty in Hx.
    - intros x y vx vy Hx. by rewrite lookup_empty in Hx.
  Qed.

  (** ** Observations *)
  Lemma stands_acts w c v : stands w c (vi_ty v) (vi_target v) -> acts_as w c v.
  Proof.
    intros Hs. unfold acts_as. destruct (vi_ty v) as [k ms|b ms] eqn:Hty.
    - destruct c as [p|]; [|done]. destruct (is_ptr k) eqn:Hk.
      + exists p. split; [done|]. pose proof Hs as (Hpk & Hpm & Hpp & Hrest). unfold pointer_to. split; [done|]. split; [done|]. split; [done|].
        assert (Hhv : has_value p = match vi_target v with Some _ => true | None => false end) by (unfold has_value, raw; rewrite Hpp; by destruct (vi_target v)).
        unfold to_bool, ne_null, eq_null. rewrite Hhv. destruct (vi_target v) as [[T q]|]; cbn.
        * do 4 (split; [done|]).
          assert (Har : forall k', stands w (CView (PV k' (pv_vt p) (pv_p p) (pv_ms p))) (VView k' ms) (Some (T, q))).
          { intros k'. destruct Hrest as (u & Hu & Ha & He). split; [done|]. split; [done|]. split; [done|]. by exists u. }
          unfold arrow. rewrite Hpk. destruct k; try done; eexists; (split; [reflexivity|]); (split; [|by repeat split]); split; try (intros m Hm; eapply stands_slot; [apply Har|done]);
            eapply stands_self; apply Har.
        * by repeat split.
      + unfold reference_to. destruct (vi_target v) as [[T q]|].
        * split; [intros m Hm; by eapply stands_slot|by eapply stands_self].
        * destruct Hs as (_ & _ & _ & H & _). congruence.
    - unfold reference_to. destruct (vi_target v) as [[T q]|]; [|by destruct c as [|bb rr]; [done|]; destruct Hs as (_ & T & q & t & Hd & _)].
      split; [intros m Hm; by eapply stands_slot|by eapply stands_self].
  Qed.
End Prog.

Lemma program_good E O w0 l G : reachable E w0 -> env_wf E -> program w0 l G ->
  exists s, run_stmts O l (PState w0 ∅) = POk s /\ good w0 (concat (map stmt_names l)) G s /\ Inv E (ps_w s).
Proof.
  intros Hr HE (H0 & Hn & Hm). assert (HI : Inv E w0) by by apply (reachable_inv E w0 HE).
  destruct (stmts_ok E O w0 HI H0 l [] ∅ (PState w0 ∅) G (good_nil E w0 HI H0) Hm Hn) as (s & Hs & Hg). exists s. split; [done|]. split; [done|].
  destruct (g_world _ _ _ _ Hg) as (m & -> & _). by apply inv0.
Qed.

Lemma program_ok E O w0 l G : env_wf E -> reachable E w0 -> program w0 l G ->
  exists s, run_stmts O l (PState w0 ∅) = POk s /\ same_objects w0 (ps_w s) /\
    forall x v, G !! x = Some v -> exists c, read_var s x = Some c /\ acts_as (ps_w s) c v.
Proof.
  intros HE Hr Hp. destruct (program_good E O w0 l G Hr HE Hp) as (s & Hs & Hg & _). exists s. split; [done|]. split.
  - destruct (g_world _ _ _ _ Hg) as (m & -> & _). split; [|done]. intros [i|b]; done.
  - intros x v Hx. destruct (g_var _ _ _ _ Hg x v Hx) as (c & Hc & Hst & _). exists (refresh (ps_w s) c). unfold read_var. rewrite Hc. split; [done|]. by apply stands_acts.
Qed.

Lemma pointer_variables E O w0 l G : env_wf E -> reachable E w0 -> program w0 l G ->
  exists s, run_stmts O l (PState w0 ∅) = POk s /\ same_objects w0 (ps_w s) /\
    forall x k ms d f, G !! x = Some (VInfo (VView k ms) d f) -> is_ptr k = true ->
      exists p, read_var s x = Some (CView p) /\ pointer_to (ps_w s) p k ms d.
Proof.
  intros HE Hr Hp. destruct (program_ok E O w0 l G HE Hr Hp) as (s & Hs & Ho & Hv). exists s. split; [done|]. split; [done|].
  intros x k ms d f Hx Hk. destruct (Hv x _ Hx) as (c & Hc & Ha). unfold acts_as in Ha. cbn [vi_ty vi_target] in Ha. rewrite Hk in Ha.
  destruct Ha as (p & -> & Ha). by exists p.
Qed.
Lemma reference_variables E O w0 l G : env_wf E -> reachable E w0 -> program w0 l G ->
  exists s, run_stmts O l (PState w0 ∅) = POk s /\ same_objects w0 (ps_w s) /\
    forall x v, G !! x = Some v -> is_ref (vi_ty v) = true ->
      exists c ms, read_var s x = Some c /\ sty_methods (vi_ty v) = ms /\ reference_to (ps_w s) c ms (vi_target v).
Proof.
  intros HE Hr Hp. destruct (program_ok E O w0 l G HE Hr Hp) as (s & Hs & Ho & Hv). exists s. split; [done|]. split; [done|].
  intros x v Hx Hk. destruct (Hv x _ Hx) as (c & Hc & Ha). exists c. eexists. split; [done|]. split; [done|].
  unfold acts_as in Ha. destruct (vi_ty v) as [k ms|b ms]; [|done]. cbn [sty_methods]. rewrite <- is_ptr_kind in Ha. by destruct k.
Qed.

(** ** Comparison *)
Lemma to_const_ok O w p ms d : stands w (CView p) (VView KPtr ms) d -> exists q, to_const O p w = Ok q w /\ stands w (CView q) (VView KCPtr ms) d.
Proof.
  intros Hs. pose proof Hs as (Hk & Hm & _). destruct p as [k v p0 ms0]. cbn in Hk, Hm. subst k ms0.
  destruct (mk_view_ok O w KCPtr KPtr v p0 ms d eq_refl Hs) as (q & Hq & Hsq). exists q. split; [|done]. unfold to_const. cbn [pv_ms].
  assert (H1 : run_step O (ToCPtr ms) (CView (PV KPtr v p0 ms)) w = Ok (CView q) w).
  { cbn [run_step]. rewrite (bind_ok _ _ _ _ _ Hq). by rewrite list_same_refl. }
  by rewrite (bind_ok _ _ _ _ _ H1).
Qed.
Lemma cmp_ok E O w cpp20 p q kp kq ms dp dq : Inv E w -> obs_wf O -> reports_type ms -> is_ptr kp = true -> is_ptr kq = true ->
  stands w (CView p) (VView kp ms) dp -> stands w (CView q) (VView kq ms) dq ->
  cmp_eq O cpp20 p q w = Ok (bool_decide (dp = dq)) w /\ cmp_ne O cpp20 p q w = Ok (negb (bool_decide (dp = dq))) w.
Proof.
  intros HI HO Hms Hp Hq Hsp Hsq. pose proof Hsp as (Hkp & Hmp & _). pose proof Hsq as (Hkq & Hmq & _).
  assert (Heq : cmp_eq O cpp20 p q w = Ok (bool_decide (dp = dq)) w).
  { unfold cmp_eq. rewrite Hkp, Hkq, Hmp, Hmq, list_same_refl. destruct kp, kq; try done.
    - by eapply ptr_eq_ok.
    - destruct (to_const_ok O w p ms dp Hsp) as (p' & Hp' & Hs'). rewrite (bind_ok _ _ _ _ _ Hp'). by eapply ptr_eq_ok.
    - destruct (to_const_ok O w q ms dq Hsq) as (q' & Hq' & Hs'). destruct cpp20; rewrite (bind_ok _ _ _ _ _ Hq').
      + rewrite (ptr_eq_ok E O w q' p _ _ _ _ _ _ HI HO Hs' Hsp Hms Hms). do 2 f_equal. by apply bool_decide_ext.
      + by eapply ptr_eq_ok.
    - by eapply ptr_eq_ok. }
  split; [done|]. unfold cmp_ne. destruct cpp20; [by rewrite (bind_ok _ _ _ _ _ Heq)|]. unfold cmp_eq in Heq. rewrite Hkp, Hkq, Hmp, Hmq, list_same_refl in *.
  destruct kp, kq; try done.
  - by rewrite (bind_ok _ _ _ _ _ Heq).
  - apply bind_inv in Heq as (p' & w1 & H1 & H2). destruct (to_const_ok O w p ms dp Hsp) as (p2 & Hp2 & _). rewrite Hp2 in H1. injection H1 as <- <-.
    rewrite (bind_ok _ _ _ _ _ Hp2). by rewrite (bind_ok _ _ _ _ _ H2).
  - apply bind_inv in Heq as (q' & w1 & H1 & H2). destruct (to_const_ok O w q ms dq Hsq) as (q2 & Hq2 & _). rewrite Hq2 in H1. injection H1 as <- <-.
    rewrite (bind_ok _ _ _ _ _ Hq2). by rewrite (bind_ok _ _ _ _ _ H2).
  - by rewrite (bind_ok _ _ _ _ _ Heq).
Qed.
Lemma program_compare E O w0 l G s x y kx ky ms dx dy fx fy cpp20 :
  env_wf E -> obs_wf O -> reachable E w0 -> program w0 l G -> run_stmts O l (PState w0 ∅) = POk s ->
  G !! x = Some (VInfo (VView kx ms) dx fx) -> G !! y = Some (VInfo (VView ky ms) dy fy) -> is_ptr kx = true -> is_ptr ky = true -> reports_type ms ->
  exists p q b, read_var s x = Some (CView p) /\ read_var s y = Some (CView q) /\
    cmp_eq O cpp20 p q (ps_w s) = Ok b (ps_w s) /\ cmp_ne O cpp20 p q (ps_w s) = Ok (negb b) (ps_w s) /\ (b = true <-> dx = dy).
Proof.
  intros HE HO Hr Hp Hrun Hx Hy Hkx Hky Hms. destruct (program_good E O w0 l G Hr HE Hp) as (s' & Hs & Hg & HI). rewrite Hrun in Hs. injection Hs as <-.
  destruct (g_var _ _ _ _ Hg x _ Hx) as (cx & Hcx & Hsx & _). destruct (g_var _ _ _ _ Hg y _ Hy) as (cy & Hcy & Hsy & _). cbn [vi_ty vi_target] in *.
  unfold read_var. rewrite Hcx, Hcy. cbn [option_map]. destruct cx as [p|]; [|done]. destruct cy as [q|]; [|done]. cbn [refresh] in *.
  destruct (cmp_ok E O (ps_w s) cpp20 _ _ kx ky ms dx dy HI HO Hms Hkx Hky Hsx Hsy) as (H1 & H2).
  eexists _, _, _. split; [reflexivity|]. split; [reflexivity|]. split; [exact H1|]. split; [exact H2|]. apply bool_decide_eq_true.
Qed.

(** ** Which assignments compile *)
Lemma same_type_iff w a b s t : type_of w a = Some s -> type_of w b = Some t -> same_type w a b = true <-> s = t.
Proof.
  destruct a as [p|ba ra], b as [q|bb rb]; cbn [type_of same_type].
  - intros [= <-] [= <-]. rewrite andb_true_iff, (list_same_spec meqb meqb_ok). split; [intros (H & ->); f_equal; by destruct (pv_k p), (pv_k q)|].
    intros [= -> ->]. split; [by destruct (pv_k q)|done].
  - intros [= <-]. destruct (w_sref w !! rb); [|done]. by intros [= <-].
  - intros H [= <-]. destruct (w_sref w !! ra); [|done]. by injection H as <-.
  - destruct (w_sref w !! ra) as [sa|]; [|done]. destruct (w_sref w !! rb) as [sb|]; [|done]. intros [= <-] [= <-].
    rewrite andb_true_iff, (list_same_spec meqb meqb_ok), Bool.eqb_true_iff. split; [by intros (-> & ->)|by intros [= -> ->]].
Qed.
Lemma ref_assignable_iff a : ref_assignable a = true <-> ar_same a = true /\ ar_const a = ar_lvalue a.
Proof. destruct a as [[] [] []]; vm_compute; intuition congruence. Qed.
Lemma ptr_assignable_iff a : ptr_assignable a = true <-> ar_same a = true.
Proof. destruct a as [[] [] []]; vm_compute; intuition congruence. Qed.

Lemma assign_compiles O s x y old c t u const lvalue : ps_vars s !! x = Some old -> read_var s y = Some c -> type_of (ps_w s) old = Some t ->
  type_of (ps_w s) c = Some u ->
  let ok := t = u /\ (is_ref t = true -> const = true /\ lvalue = true \/ const = false /\ lvalue = false) in
  (ok -> exists s', run_stmt O (SAssignVar x y (Named const lvalue)) s = POk s') /\
  (~ ok -> run_stmt O (SAssignVar x y (Named const lvalue)) s = PBad UbIllFormed).
Proof.
  intros Hx Hy Ht Hu ok. subst ok. cbn [run_stmt]. rewrite Hx, Hy. pose proof (same_type_iff _ _ _ _ _ Ht Hu) as Hsame.
  assert (Ha : assignable old (Arg (same_type (ps_w s) old c) const lvalue) = true <-> t = u /\ (is_ref t = true -> const = lvalue)).
  { rewrite <- Hsame. destruct old as [p|b r]; cbn [assignable].
    - cbn in Ht. injection Ht as <-. cbn [is_ref]. rewrite is_ptr_kind. destruct (is_ptr (pv_k p)).
      + rewrite ptr_assignable_iff. cbn [ar_same negb]. intuition congruence.
      + rewrite ref_assignable_iff. cbn [ar_same ar_const ar_lvalue negb is_ref]. intuition.
    - cbn in Ht. destruct (w_sref (ps_w s) !! r); [|done]. injection Ht as <-. rewrite ref_assignable_iff. cbn [ar_same ar_const ar_lvalue negb is_ref]. intuition. }
  assert (Hcl : const = lvalue <-> const = true /\ lvalue = true \/ const = false /\ lvalue = false) by (destruct const, lvalue; intuition congruence).
  split; intros Hd.
  - rewrite (proj2 Ha) by (destruct Hd as (H1 & H2); split; [done|]; intros H; by apply Hcl, H2). destruct Hd as (<- & _).
    destruct old as [p|b r], c as [q|b' r']; cbn [store]; [by eauto| | |].
    + cbn in Ht, Hu. destruct (w_sref (ps_w s) !! r'); congruence.
    + cbn in Ht, Hu. destruct (w_sref (ps_w s) !! r); congruence.
    + cbn in Hu. destruct (w_sref (ps_w s) !! r'); [|done]. eauto.
  - destruct (assignable _ _); [|done]. exfalso. apply Hd. destruct (proj1 Ha eq_refl) as (H1 & H2). split; [done|]. intros H. by apply Hcl, H2.
Qed.
