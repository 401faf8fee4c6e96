(** The observers over reachable states and over everything obtainable by conversions. *)
From stdpp Require Import gmap list.
From Verif Require Import TypeListModel TypeListSpec TypeListProofs AnyModel AnyInv AnySteps AnyOps AnyMove AnyLife AnyAssign
  AnyRefs AnyHistory AnyFacts DescModel DescSpec DescProofs PolyModel PolySpec PolyProofs PolyFacts.

Lemma target_iff w i T q : any_target w i (Some (T, q)) <-> address w i = Some q /\ exists x, content w i = Some (Some (T, x)).
Proof. done. Qed.
Lemma target_unique w i d d' : any_target w i d -> any_target w i d' -> d = d'.
Proof.
  destruct d as [[T q]|], d' as [[T' q']|]; cbn; try done.
  - intros (H1 & x & H2) (H3 & x' & H4). congruence.
  - intros (H1 & x & H2) H. congruence.
  - intros H (H1 & x & H2). congruence.
Qed.

(** ** any_cast *)
Lemma cast_any_fact E O w i a U : env_wf E -> obs_wf O -> reachable E w -> w_any w !! i = Some a -> reports_type (a_ms a) ->
  exists r, cast_any O (Some i) U w = Ok r w /\
    (forall q, r = Some q <-> address w i = Some q /\ exists x, content w i = Some (Some (U, x))) /\
    (forall q, r = Some q -> exists o, obj_at w q = Some o /\ o_ty o = U) /\
    cast_any_ref O i U w = (match r with Some q => Ok q w | None => Exn w end) /\ cast_any O None U w = Ok None w.
Proof.
  intros Hwf HO Hr Ha Hm. pose proof (reachable_inv _ _ Hwf Hr) as HI. destruct (target_exists w i a E HI Ha) as (d & Hd & Hp & _).
  exists (cast_of d U). split; [by eapply cast_any_ok|].
  assert (forall q, cast_of d U = Some q <-> d = Some (U, q)) as Hc.
  { intros q. destruct d as [[T p]|]; cbn; [|done]. destruct (decide (T = U)) as [->|Hne]; split; try done; [by intros [= ->]|by intros [= ->]|by intros [= -> ->]]. }
  split; [|split; [|split; [by eapply cast_any_ref_ok|done]]].
  - intros q. rewrite Hc. split; [by intros ->|]. intros H. by eapply target_unique.
  - intros q H. apply Hc in H. subst d. done.
Qed.

Lemma cast_view_fact E O w o l s s' d U c w' : env_wf E -> obs_wf O -> reachable E w -> begins w o s d -> chain s l s' ->
  (d = None -> null_safe l) -> fresh_names w (all_names o l) -> reports_type (sty_methods s') -> obtained O w o l c w' ->
  exists r, cast_gives O c U w' r /\ (forall q, r = Some q <-> d = Some (U, q)) /\
    (forall q, r = Some q -> exists ob, obj_at w' q = Some ob /\ o_ty ob = U).
Proof.
  intros Hwf HO Hr Hb Hch Hn Hf Hm Ho. pose proof (reachable_inv _ _ Hwf Hr) as HI.
  destruct (obtained_stands _ _ _ _ _ _ _ _ _ _ HI Hb Hch Hn Hf Ho) as [Hx Hs]. pose proof (ext_inv _ _ _ _ Hx HI) as HI'.
  exists (cast_of d U). assert (forall q, cast_of d U = Some q <-> d = Some (U, q)) as Hc.
  { intros q. destruct d as [[T p]|]; cbn; [|done]. destruct (decide (T = U)) as [->|Hne]; split; try done; [by intros [= ->]|by intros [= ->]|by intros [= -> ->]]. }
  split; [|split; [done|]].
  - unfold cast_gives. destruct c as [p|b n], s' as [k ms|b' ms]; try done.
    + pose proof Hs as (Hk & _). destruct (pv_k p) eqn:Hpk; subst k; try (by eapply cast_ptr_ok).
      all: destruct d as [[T q]|]; [by eapply cast_ref_ok|]; by destruct Hs as (_ & _ & _ & ? & _).
    + pose proof Hs as (-> & T & q & _ & -> & _). by eapply cast_state_ok.
  - intros q H. apply Hc in H. subst d. rewrite (ext_obj _ _ _ _ Hx). by apply (begins_placed E w o s _ HI Hb).
Qed.

(** ** == *)
Lemma eq_any_fact E O w i j a b : env_wf E -> obs_wf O -> reachable E w -> w_any w !! i = Some a -> w_any w !! j = Some b ->
  In MEqualTo (a_ms a) -> ~ In MSpaceship (a_ms a) -> In MEqualTo (a_ms b) ->
  exists r ci cj, eq_op O (OpAny i) (OpAny j) w = Ok r w /\ content w i = Some ci /\ content w j = Some cj /\ (r = true <-> same_value O ci cj).
Proof.
  intros Hwf HO Hr Ha Hb Hma Hna Hmb. pose proof (reachable_inv _ _ Hwf Hr) as HI.
  destruct (target_exists w i a E HI Ha) as (d & Hd & Hp & Hv), (target_exists w j b E HI Hb) as (d' & Hd' & Hp' & Hv').
  assert (Hl : opd w (OpAny i) (a_ms a) d) by by exists a. rewrite (eq_op_equal_to O w _ (OpAny j) _ _ Hl Hma Hna).
  destruct (eq_ok E O w (OpAny i) (OpAny j) (a_ms a) (a_ms b) d d' HI HO) as (r & Hr' & Hiff); [by exists a|by exists b|done..|].
  exists r. assert (exists ci, content w i = Some ci) as (ci & Hci) by (unfold content, view; rewrite Ha; eauto).
  assert (exists cj, content w j = Some cj) as (cj & Hcj) by (unfold content, view; rewrite Hb; eauto).
  rewrite Hci in Hv. rewrite Hcj in Hv'. rewrite Hv, Hv' in Hiff. eauto 10.
Qed.

Lemma same_value_refl O : (forall T x, ob_eq O T x x = true) -> forall a, same_value O a a.
Proof. intros H [[T x]|]; cbn; auto. Qed.
Lemma same_value_sym O : (forall T x y, ob_eq O T x y = true -> ob_eq O T y x = true) -> forall a b, same_value O a b -> same_value O b a.
Proof. intros H [[T x]|] [[U y]|]; cbn; auto. intros [-> He]. auto. Qed.
Lemma same_value_trans O : (forall T x y z, ob_eq O T x y = true -> ob_eq O T y z = true -> ob_eq O T x z = true) ->
  forall a b c, same_value O a b -> same_value O b c -> same_value O a c.
Proof. intros H [[T x]|] [[U y]|] [[V z]|]; cbn; try done. intros [-> H1] [-> H2]. eauto. Qed.

Lemma anys_equal_iff E O w i j : env_wf E -> obs_wf O -> reachable E w -> comparable w i -> comparable w j ->
  exists ci cj, content w i = Some ci /\ content w j = Some cj /\ (anys_equal O w i j <-> same_value O ci cj).
Proof.
  intros Hwf HO Hr (a & Ha & Hma & Hna) (b & Hb & Hmb & _). destruct (eq_any_fact E O w i j a b Hwf HO Hr Ha Hb Hma Hna Hmb) as (r & ci & cj & H1 & H2 & H3 & H4).
  exists ci, cj. split; [done|]. split; [done|]. unfold anys_equal. rewrite H1, <- H4. split; [by intros [= ->]|by intros ->].
Qed.
Lemma eq_laws E O w : env_wf E -> obs_wf O -> reachable E w ->
  ((forall T x, ob_eq O T x x = true) -> forall i, comparable w i -> anys_equal O w i i) /\
  ((forall T x y, ob_eq O T x y = true -> ob_eq O T y x = true) ->
     forall i j, comparable w i -> comparable w j -> anys_equal O w i j -> anys_equal O w j i) /\
  ((forall T x y z, ob_eq O T x y = true -> ob_eq O T y z = true -> ob_eq O T x z = true) ->
     forall i j k, comparable w i -> comparable w j -> comparable w k -> anys_equal O w i j -> anys_equal O w j k -> anys_equal O w i k).
Proof.
  intros Hwf HO Hr. split; [|split].
  - intros Hl i Hi. destruct (anys_equal_iff E O w i i Hwf HO Hr Hi Hi) as (ci & cj & H1 & H2 & H3). rewrite H1 in H2. injection H2 as <-.
    apply H3. by apply same_value_refl.
  - intros Hl i j Hi Hj. destruct (anys_equal_iff E O w i j Hwf HO Hr Hi Hj) as (ci & cj & H1 & H2 & H3), (anys_equal_iff E O w j i Hwf HO Hr Hj Hi) as (cj' & ci' & H1' & H2' & H3').
    rewrite H3, H3'. replace cj' with cj by congruence. replace ci' with ci by congruence. by apply same_value_sym.
  - intros Hl i j k Hi Hj Hk. destruct (anys_equal_iff E O w i j Hwf HO Hr Hi Hj) as (ci & cj & H1 & H2 & H3), (anys_equal_iff E O w j k Hwf HO Hr Hj Hk) as (cj' & ck & H1' & H2' & H3'),
      (anys_equal_iff E O w i k Hwf HO Hr Hi Hk) as (ci' & ck' & H1'' & H2'' & H3'').
    rewrite H3, H3', H3''. replace cj' with cj by congruence. replace ci' with ci by congruence. replace ck' with ck by congruence. by apply same_value_trans.
Qed.

(** operands that are references: obtained by two chains, the second started after the first *)
Section TwoViews.
  Context (E : env) (O : obs) (w w1 w2 : world) (o1 o2 : origin) (l1 l2 : list step) (s1 s2 s1' s2' : sty) (d1 d2 : target) (c1 c2 : cur).
  Context (Hwf : env_wf E) (Hr : reachable E w).
  Context (Hb1 : begins w o1 s1 d1) (Hch1 : chain s1 l1 s1') (Hn1 : d1 = None -> null_safe l1) (Hf1 : fresh_names w (all_names o1 l1)) (Ho1 : obtained O w o1 l1 c1 w1).
  Context (Hb2 : begins w1 o2 s2 d2) (Hch2 : chain s2 l2 s2') (Hn2 : d2 = None -> null_safe l2) (Hf2 : fresh_names w1 (all_names o2 l2)) (Ho2 : obtained O w1 o2 l2 c2 w2).

  Lemma two_views : Inv E w2 /\ stands w2 c1 s1' d1 /\ stands w2 c2 s2' d2 /\ well_placed w2 d1 /\ well_placed w2 d2 /\
    (forall q, obj_at w2 q = obj_at w q).
  Proof.
    pose proof (reachable_inv _ _ Hwf Hr) as HI. destruct (obtained_stands _ _ _ _ _ _ _ _ _ _ HI Hb1 Hch1 Hn1 Hf1 Ho1) as [Hx1 Hs1].
    pose proof (ext_inv _ _ _ _ Hx1 HI) as HI1. destruct (obtained_stands _ _ _ _ _ _ _ _ _ _ HI1 Hb2 Hch2 Hn2 Hf2 Ho2) as [Hx2 Hs2].
    split; [by eapply ext_inv|]. split; [by eapply stands_ext|]. split; [done|].
    assert (Hq : forall q, obj_at w2 q = obj_at w1 q) by (intros; by eapply ext_obj).
    assert (Hq' : forall q, obj_at w1 q = obj_at w q) by (intros; by eapply ext_obj).
    split; [|split; [|intros; by rewrite Hq]].
    - pose proof (begins_placed E _ _ _ _ HI Hb1) as H. destruct d1 as [[T q]|]; [|done]. cbn in *. by rewrite Hq, Hq'.
    - pose proof (begins_placed E _ _ _ _ HI1 Hb2) as H. destruct d2 as [[T q]|]; [|done]. cbn in *. by rewrite Hq.
  Qed.
End TwoViews.

Lemma ref_some w c s d : stands w c s d -> is_ref s = true -> d <> None.
Proof.
  destruct c as [p|b r], s as [k ms|b' ms]; try done.
  - intros (_ & _ & _ & H). destruct d; [done|]. destruct H as (H & _). cbn. by rewrite H.
  - intros (_ & T & q & s & -> & _). done.
Qed.

Lemma value_at_ext w w' d : (forall q, obj_at w' q = obj_at w q) -> value_at w' d = value_at w d.
Proof. intros H. unfold value_at. destruct d as [[T q]|]; [|done]. by rewrite H. Qed.

Lemma eq_ref_fact E O w w1 w2 o1 o2 l1 l2 s1 s2 s1' s2' d1 d2 c1 c2 : env_wf E -> obs_wf O -> reachable E w ->
  begins w o1 s1 d1 -> chain s1 l1 s1' -> (d1 = None -> null_safe l1) -> fresh_names w (all_names o1 l1) -> obtained O w o1 l1 c1 w1 ->
  begins w1 o2 s2 d2 -> chain s2 l2 s2' -> (d2 = None -> null_safe l2) -> fresh_names w1 (all_names o2 l2) -> obtained O w1 o2 l2 c2 w2 ->
  is_ref s1' = true -> is_ref s2' = true -> In MEqualTo (sty_methods s1') -> ~ In MSpaceship (sty_methods s1') -> In MEqualTo (sty_methods s2') ->
  exists b, eq_op O (OpCur c1) (OpCur c2) w2 = Ok b w2 /\ (b = true <-> same_value O (value_at w d1) (value_at w d2)).
Proof.
  intros Hwf HO Hr Hb1 Hc1 Hn1 Hf1 Ho1 Hb2 Hc2 Hn2 Hf2 Ho2 R1 R2 M1 N1 M2.
  destruct (two_views E O w w1 w2 o1 o2 l1 l2 s1 s2 s1' s2' d1 d2 c1 c2 Hwf Hr Hb1 Hc1 Hn1 Hf1 Ho1 Hb2 Hc2 Hn2 Hf2 Ho2) as (HI & S1 & S2 & P1 & P2 & Hq).
  rewrite <- (value_at_ext w w2 d1), <- (value_at_ext w w2 d2) by done.
  assert (opd w2 (OpCur c1) (sty_methods s1') d1) by (exists s1'; eauto using ref_some).
  assert (opd w2 (OpCur c2) (sty_methods s2') d2) by (exists s2'; eauto using ref_some).
  erewrite eq_op_equal_to by done. by eapply eq_ok.
Qed.

(** ** <=> *)
Lemma cmp_any_fact E O w i j a b : env_wf E -> obs_wf O -> reachable E w -> w_any w !! i = Some a -> w_any w !! j = Some b ->
  In MSpaceship (a_ms a) -> In MSpaceship (a_ms b) -> (content w i = Some None \/ content w j <> Some None) ->
  exists ci cj r e, content w i = Some ci /\ content w j = Some cj /\ cmp_spaceship O (OpAny i) (OpAny j) w = Ok r w /\
    r = order_of O ci cj /\ eq_op O (OpAny i) (OpAny j) w = Ok e w /\ (e = true <-> r = Some Eq).
Proof.
  intros Hwf HO Hr Ha Hb Hma Hmb Hne. pose proof (reachable_inv _ _ Hwf Hr) as HI.
  destruct (target_exists w i a E HI Ha) as (d & Hd & Hp & Hv), (target_exists w j b E HI Hb) as (d' & Hd' & Hp' & Hv').
  assert (Hor : d = None \/ d' <> None).
  { destruct Hne as [Hne|Hne]; [left|right].
    - eapply target_unique; [done|]. done.
    - intros ->. done. }
  assert (exists ci, content w i = Some ci) as (ci & Hci) by (unfold content, view; rewrite Ha; eauto).
  assert (exists cj, content w j = Some cj) as (cj & Hcj) by (unfold content, view; rewrite Hb; eauto).
  rewrite Hci in Hv. rewrite Hcj in Hv'. assert (Hl : opd w (OpAny i) (a_ms a) d) by by exists a. assert (Hrr : opd w (OpAny j) (a_ms b) d') by by exists b.
  pose proof (cmp_ok E O w _ _ _ _ _ _ HI HO Hl Hrr Hma Hmb Hp Hp' Hor) as Hcmp.
  destruct (eq_spaceship_ok E O w _ _ _ _ _ _ HI HO Hl Hrr Hma Hmb Hp Hp' Hor) as (e & He & Hiff). rewrite Hcmp in Hiff. rewrite <- (eq_op_spaceship O w _ (OpAny j) _ _ Hl Hma) in He.
  exists ci, cj, (order_of O (value_at w d) (value_at w d')), e. split; [done|]. split; [done|]. split; [done|]. split; [by rewrite Hv, Hv'|]. split; [done|].
  rewrite Hiff. split; [by intros [= ->]|by intros ->].
Qed.
Lemma cmp_ref_fact E O w w1 w2 o1 o2 l1 l2 s1 s2 s1' s2' d1 d2 c1 c2 : env_wf E -> obs_wf O -> reachable E w ->
  begins w o1 s1 d1 -> chain s1 l1 s1' -> (d1 = None -> null_safe l1) -> fresh_names w (all_names o1 l1) -> obtained O w o1 l1 c1 w1 ->
  begins w1 o2 s2 d2 -> chain s2 l2 s2' -> (d2 = None -> null_safe l2) -> fresh_names w1 (all_names o2 l2) -> obtained O w1 o2 l2 c2 w2 ->
  is_ref s1' = true -> is_ref s2' = true -> In MSpaceship (sty_methods s1') -> In MSpaceship (sty_methods s2') ->
  exists r e, cmp_spaceship O (OpCur c1) (OpCur c2) w2 = Ok r w2 /\ r = order_of O (value_at w d1) (value_at w d2) /\
    eq_op O (OpCur c1) (OpCur c2) w2 = Ok e w2 /\ (e = true <-> r = Some Eq).
Proof.
  intros Hwf HO Hr Hb1 Hc1 Hn1 Hf1 Ho1 Hb2 Hc2 Hn2 Hf2 Ho2 R1 R2 M1 M2.
  destruct (two_views E O w w1 w2 o1 o2 l1 l2 s1 s2 s1' s2' d1 d2 c1 c2 Hwf Hr Hb1 Hc1 Hn1 Hf1 Ho1 Hb2 Hc2 Hn2 Hf2 Ho2) as (HI & S1 & S2 & P1 & P2 & Hq).
  rewrite <- (value_at_ext w w2 d1), <- (value_at_ext w w2 d2) by done.
  assert (opd w2 (OpCur c1) (sty_methods s1') d1) by (exists s1'; eauto using ref_some).
  assert (opd w2 (OpCur c2) (sty_methods s2') d2) by (exists s2'; eauto using ref_some).
  assert (Hne : d1 = None \/ d2 <> None) by (right; by eapply ref_some).
  pose proof (cmp_ok E O w2 (OpCur c1) (OpCur c2) _ _ d1 d2 HI HO ltac:(done) ltac:(done) M1 M2 P1 P2 Hne) as Hc.
  destruct (eq_spaceship_ok E O w2 (OpCur c1) (OpCur c2) _ _ d1 d2 HI HO ltac:(done) ltac:(done) M1 M2 P1 P2 Hne) as (e & He & Hiff).
  eexists _, e. split; [exact Hc|]. split; [done|]. erewrite eq_op_spaceship by done. split; [done|]. rewrite Hiff, Hc. split; [by intros [= ->]|by intros ->].
Qed.
Lemma cmp_undefined E O w i j a b T x : env_wf E -> reachable E w -> w_any w !! i = Some a -> w_any w !! j = Some b -> In MSpaceship (a_ms a) ->
  content w i = Some (Some (T, x)) -> content w j = Some None ->
  cmp_spaceship O (OpAny i) (OpAny j) w = UB UbNullVtable /\ eq_op O (OpAny i) (OpAny j) w = UB UbNullVtable.
Proof.
  intros Hwf Hr Ha Hb Hm Hc Hc'. pose proof (reachable_inv _ _ Hwf Hr) as HI. destruct (target_exists w i a E HI Ha) as (d & Hd & _).
  assert (Hl : opd w (OpAny i) (a_ms a) d) by by exists a. rewrite (eq_op_spaceship O w _ (OpAny j) _ _ Hl Hm). by eapply cmp_value_empty.
Qed.

(** ** hash *)
Lemma hash_any_fact E O w i a : env_wf E -> reachable E w -> w_any w !! i = Some a -> In MHash (a_ms a) ->
  exists c, content w i = Some c /\ hash_op O (OpAny i) w = Ok (hash_of O c) w.
Proof.
  intros Hwf Hr Ha Hm. pose proof (reachable_inv _ _ Hwf Hr) as HI. destruct (target_exists w i a E HI Ha) as (d & Hd & Hp & Hv).
  assert (exists ci, content w i = Some ci) as (ci & Hci) by (unfold content, view; rewrite Ha; eauto). rewrite Hci in Hv.
  exists ci. split; [done|]. erewrite hash_ok; [by rewrite Hv|done|by exists a|done|done].
Qed.
Lemma hash_ref_fact E O w o l s s' d c w' : env_wf E -> reachable E w -> begins w o s d -> chain s l s' ->
  (d = None -> null_safe l) -> fresh_names w (all_names o l) -> is_ref s' = true -> In MHash (sty_methods s') -> obtained O w o l c w' ->
  hash_op O (OpCur c) w' = Ok (hash_of O (value_at w d)) w'.
Proof.
  intros Hwf Hr Hb Hch Hn Hf Hm HI' Ho. pose proof (reachable_inv _ _ Hwf Hr) as HI.
  destruct (obtained_stands _ _ _ _ _ _ _ _ _ _ HI Hb Hch Hn Hf Ho) as [Hx Hs]. pose proof (ext_inv _ _ _ _ Hx HI) as HIw.
  pose proof (begins_placed E _ _ _ _ HI Hb) as Hp.
  rewrite <- (value_at_ext w w' d) by (intros; by eapply ext_obj).
  assert (opd w' (OpCur c) (sty_methods s') d) by (exists s'; eauto using ref_some).
  eapply hash_ok; try done.
  - destruct d as [[T q]|]; [|done]. cbn in *. by rewrite (ext_obj _ _ _ _ Hx).
Qed.
Lemma hash_respects E O w i j a b : env_wf E -> obs_wf O -> reachable E w ->
  (forall T x y, ob_eq O T x y = true -> ob_hash O T x = ob_hash O T y) ->
  w_any w !! i = Some a -> w_any w !! j = Some b -> In MEqualTo (a_ms a) -> ~ In MSpaceship (a_ms a) -> In MEqualTo (a_ms b) -> In MHash (a_ms a) -> In MHash (a_ms b) ->
  eq_op O (OpAny i) (OpAny j) w = Ok true w -> exists h, hash_op O (OpAny i) w = Ok h w /\ hash_op O (OpAny j) w = Ok h w.
Proof.
  intros Hwf HO Hr Hl Ha Hb E1 N1 E2 H1 H2 Heq. destruct (eq_any_fact E O w i j a b Hwf HO Hr Ha Hb E1 N1 E2) as (r & ci & cj & He & Hci & Hcj & Hiff).
  rewrite Heq in He. injection He as <-. destruct (hash_any_fact E O w i a Hwf Hr Ha H1) as (c & Hc & Hh), (hash_any_fact E O w j b Hwf Hr Hb H2) as (c' & Hc' & Hh').
  replace c with ci in * by congruence. replace c' with cj in * by congruence. exists (hash_of O ci). split; [done|]. rewrite Hh'. f_equal.
  assert (same_value O ci cj) as Hs by by apply Hiff. destruct ci as [[T x]|], cj as [[U y]|]; cbn in Hs; try done. destruct Hs as [-> Hs]. cbn. symmetry. auto.
Qed.

Lemma hash_respects_cmp E O w i j a b : env_wf E -> obs_wf O -> reachable E w ->
  (forall T x y, ob_cmp O T x y = Some Eq -> ob_hash O T x = ob_hash O T y) ->
  w_any w !! i = Some a -> w_any w !! j = Some b -> In MSpaceship (a_ms a) -> In MSpaceship (a_ms b) -> In MHash (a_ms a) -> In MHash (a_ms b) ->
  eq_op O (OpAny i) (OpAny j) w = Ok true w -> exists h, hash_op O (OpAny i) w = Ok h w /\ hash_op O (OpAny j) w = Ok h w.
Proof.
  intros Hwf HO Hr Hl Ha Hb E1 E2 H1 H2 Heq.
  assert (exists ci, content w i = Some ci) as (ci & Hci) by (unfold content, view; rewrite Ha; eauto).
  assert (exists cj, content w j = Some cj) as (cj & Hcj) by (unfold content, view; rewrite Hb; eauto).
  assert (Hne : content w i = Some None \/ content w j <> Some None).
  { destruct ci as [[T x]|]; [|by left]. right. intros Hn. destruct (cmp_undefined E O w i j a b T x Hwf Hr Ha Hb E1 Hci Hn) as [_ H]. congruence. }
  destruct (cmp_any_fact E O w i j a b Hwf HO Hr Ha Hb E1 E2 Hne) as (ci' & cj' & r & e & Hci' & Hcj' & _ & Hro & He & Hiff).
  rewrite Heq in He. injection He as <-. assert (order_of O ci cj = Some Eq) as Ho by (rewrite Hci in Hci'; rewrite Hcj in Hcj'; injection Hci' as <-; injection Hcj' as <-; rewrite <- Hro; by apply Hiff).
  destruct (hash_any_fact E O w i a Hwf Hr Ha H1) as (c & Hc & Hh), (hash_any_fact E O w j b Hwf Hr Hb H2) as (c' & Hc' & Hh').
  replace c with ci in * by congruence. replace c' with cj in * by congruence. exists (hash_of O ci). split; [done|]. rewrite Hh'. f_equal.
  destruct ci as [[T x]|], cj as [[U y]|]; cbn in Ho |- *; try done. destruct (decide (T = U)) as [->|]; [|done]. symmetry. auto.
Qed.

(** ** type_descriptor *)
Lemma desc_any_fact E O w i a : env_wf E -> reachable E w -> w_any w !! i = Some a -> reports_type (a_ms a) ->
  exists c, content w i = Some c /\ op_desc O (OpAny i) w = Ok (ob_desc O (option_map fst c)) w.
Proof.
  intros Hwf Hr Ha Hm. pose proof (reachable_inv _ _ Hwf Hr) as HI. destruct (target_exists w i a E HI Ha) as (d & Hd & Hp & Hv).
  assert (exists ci, content w i = Some ci) as (ci & Hci) by (unfold content, view; rewrite Ha; eauto). rewrite Hci in Hv.
  exists ci. split; [done|]. erewrite opd_desc; [|done|by exists a|done]. f_equal. f_equal. rewrite <- Hv.
  destruct d as [[T q]|]; [|done]. destruct Hp as (o & Ho & _). cbn. by rewrite Ho.
Qed.
Lemma desc_view_fact E O w o l s s' d c w' : env_wf E -> reachable E w -> begins w o s d -> chain s l s' ->
  (d = None -> null_safe l) -> fresh_names w (all_names o l) -> reports_type (sty_methods s') -> obtained O w o l c w' ->
  view_desc O c w' = Ok (ob_desc O (option_map fst d)) w'.
Proof.
  intros Hwf Hr Hb Hch Hn Hf Hm Ho. pose proof (reachable_inv _ _ Hwf Hr) as HI.
  destruct (obtained_stands _ _ _ _ _ _ _ _ _ _ HI Hb Hch Hn Hf Ho) as [Hx Hs]. pose proof (ext_inv _ _ _ _ Hx HI) as HIw.
  assert (Href : is_ref s' = true -> op_desc O (OpCur c) w' = Ok (ob_desc O (option_map fst d)) w').
  { intros Hi. eapply (opd_desc E O w' (OpCur c) (sty_methods s')); [done| |done]. exists s'. eauto using ref_some. }
  unfold view_desc. destruct c as [p|b n], s' as [k ms|b' ms]; try done.
  - pose proof Hs as (Hk & _). destruct (pv_k p) eqn:Hpk; subst k; try (by eapply ptr_desc_ok); by apply Href.
  - by apply Href.
Qed.

(** ** pointers to anys *)
Lemma addr_fact E O w i a : env_wf E -> reachable E w -> w_any w !! i = Some a ->
  exists p, start O (OAddr i) w = Ok (CView p) w /\ pv_k p = KPtr /\ pv_p p = address w i /\
    (pv_p p = None <-> content w i = Some None).
Proof.
  intros Hwf Hr Ha. pose proof (reachable_inv _ _ Hwf Hr) as HI. destruct (target_exists w i a E HI Ha) as (d & Hd & _).
  destruct (ptr_any_ok E O w i a (a_ms a) d HI Ha (contiguous_refl _) Hd) as (p & Hp & Hk & _ & Hpp & Hs).
  exists p. split; [cbn; rewrite (bind_get_any _ _ _ _ Ha); by rewrite (bind_ok _ _ _ _ _ Hp)|]. split; [done|]. rewrite Hpp. destruct d as [[T q]|]; cbn.
  - destruct Hd as (Hq & x & Hc). rewrite Hq, Hc. done.
  - split; [|done]. pose proof (any_target_none w i a Ha Hd E HI) as Hv. unfold address. by rewrite Ha, Hv.
Qed.
Lemma caddr_fact E O w i a : env_wf E -> reachable E w -> w_any w !! i = Some a ->
  exists p, start O (OCAddr i) w = Ok (CView p) w /\ pv_k p = KCPtr /\ pv_p p = address w i /\
    (pv_p p = None <-> content w i = Some None).
Proof.
  intros Hwf Hr Ha. pose proof (reachable_inv _ _ Hwf Hr) as HI. destruct (target_exists w i a E HI Ha) as (d & Hd & _).
  destruct (cptr_any_ok E O w i a d HI Ha Hd) as (p & Hp & Hk & _ & Hpp & Hs).
  exists p. split; [cbn; rewrite (bind_get_any _ _ _ _ Ha); by rewrite (bind_ok _ _ _ _ _ Hp)|]. split; [done|]. rewrite Hpp. destruct d as [[T q]|]; cbn.
  - destruct Hd as (Hq & x & Hc). rewrite Hq, Hc. done.
  - split; [|done]. pose proof (any_target_none w i a Ha Hd E HI) as Hv. unfold address. by rewrite Ha, Hv.
Qed.

Lemma ptr_eq_fact E O w w1 w2 o1 o2 l1 l2 s1 s2 k1 k2 m1 m2 d1 d2 p1 p2 : env_wf E -> obs_wf O -> reachable E w ->
  begins w o1 s1 d1 -> chain s1 l1 (VView k1 m1) -> (d1 = None -> null_safe l1) -> fresh_names w (all_names o1 l1) -> obtained O w o1 l1 (CView p1) w1 ->
  begins w1 o2 s2 d2 -> chain s2 l2 (VView k2 m2) -> (d2 = None -> null_safe l2) -> fresh_names w1 (all_names o2 l2) -> obtained O w1 o2 l2 (CView p2) w2 ->
  is_ptr k1 = true -> is_ptr k2 = true -> reports_type m1 -> reports_type m2 ->
  exists b, compare_ptrs O p1 p2 w2 = Ok b w2 /\ (b = true <-> d1 = d2) /\ (b = true -> k1 = KPtr -> k2 = KPtr -> exists h, hash_ptr O p1 = Some h /\ hash_ptr O p2 = Some h).
Proof.
  intros Hwf HO Hr Hb1 Hc1 Hn1 Hf1 Ho1 Hb2 Hc2 Hn2 Hf2 Ho2 R1 R2 M1 M2.
  destruct (two_views E O w w1 w2 o1 o2 l1 l2 s1 s2 _ _ d1 d2 _ _ Hwf Hr Hb1 Hc1 Hn1 Hf1 Ho1 Hb2 Hc2 Hn2 Hf2 Ho2) as (HI & S1 & S2 & P1 & P2 & Hq).
  exists (bool_decide (d1 = d2)). pose proof S1 as (K1 & _ & Hp1 & _). pose proof S2 as (K2 & _ & Hp2 & _). split; [|split; [by rewrite bool_decide_eq_true|]].
  - unfold compare_ptrs. rewrite K1, K2. destruct k1, k2; try done; try (by eapply ptr_eq_ok). by eapply ptr_eq_mixed_ok.
  - intros H%bool_decide_eq_true -> ->. unfold hash_ptr. rewrite K1, K2, Hp1, Hp2, H. by eexists.
Qed.

(** ** dispatch *)
Lemma dispatch_fact E O w o l s s' T q : env_wf E -> reachable E w -> begins w o s (Some (T, q)) -> chain s l s' ->
  fresh_names w (all_names o l) ->
  exists c w', obtained O w o l c w' /\ only_new_refs (all_names o l) w w' /\
    (forall m, In m (sty_methods s') -> cur_slot c m w' = Ok T w') /\
    (forall n y, In (MUser n) (sty_methods s') -> exists x id w'', obj_at w q = Some (Obj T x id) /\
       cur_invoke E c n y w' = (match snd (e_meth E T n x y) with Some r => Ok r w'' | None => Exn w'' end) /\
       obj_at w'' q = Some (Obj T (fst (e_meth E T n x y)) id) /\ forall p, p <> q -> obj_at w'' p = obj_at w p).
Proof.
  intros Hwf Hr Hb Hch Hf. pose proof (reachable_inv _ _ Hwf Hr) as HI.
  destruct (chain_ok E O w o l s s' _ HI Hb Hch (ltac:(done)) Hf) as (c & w' & Ho & Hx & Hs). exists c, w'. split; [done|]. split; [done|]. split.
  - intros m Hm. by eapply stands_slot.
  - intros n y Hn. destruct (begins_placed E _ _ _ _ HI Hb) as ([T' x id] & Hobj & HT). cbn in HT. subst T'. exists x, id.
    destruct (stands_invoke E w' c s' T q n y x id Hs Hn) as (w'' & H1 & H2 & H3); [by rewrite (ext_obj _ _ _ _ Hx)|].
    exists w''. split; [done|]. split; [done|]. split; [done|]. intros p Hp. rewrite H3 by done. by apply (ext_obj _ _ _ _ Hx).
Qed.
Lemma dispatch_any_fact E O w i a l s s' o T q n y : env_wf E -> reachable E w -> w_any w !! i = Some a -> begins w o s (Some (T, q)) ->
  (o = OAddr i \/ o = OCAddr i \/ exists ms, o = OPtrAny (Some i) ms) -> chain s l s' -> fresh_names w (all_names o l) -> In (MUser n) (sty_methods s') ->
  exists c w' x, obtained O w o l c w' /\ content w i = Some (Some (T, x)) /\
    match cur_invoke E c n y w' with
    | Ok r w'' => snd (e_meth E T n x y) = Some r /\ content w'' i = Some (Some (T, fst (e_meth E T n x y))) /\
                  forall k, k <> i -> content w'' k = content w k
    | Exn w'' => snd (e_meth E T n x y) = None /\ content w'' i = Some (Some (T, fst (e_meth E T n x y))) /\
                  forall k, k <> i -> content w'' k = content w k
    | _ => False
    end.
Proof.
  intros Hwf Hr Ha Hb Hor Hch Hf Hn. pose proof (reachable_inv _ _ Hwf Hr) as HI.
  destruct (chain_ok E O w o l s s' _ HI Hb Hch (ltac:(done)) Hf) as (c & w' & Ho & Hx & Hs).
  assert (any_target w i (Some (T, q)) /\ incl (sty_methods s) (a_ms a)) as [[Hq (x & Hc)] Hi].
  { destruct Hor as [->|[->|(ms & ->)]]; inversion Hb; subst; match goal with H : w_any w !! i = Some ?b |- _ => lazymatch b with a => fail | _ => assert (b = a) as -> by congruence end | _ => idtac end.
    - split; [done|apply incl_refl].
    - split; [done|apply incl_refl].
    - split; [done|]. match goal with H : contiguous _ _ |- _ => destruct H as (? & pre & post & Heq & _) end.
      intros m Hm. cbn in Hm. rewrite Heq, !in_app_iff. auto. }
  exists c, w', x. split; [done|]. split; [done|]. pose proof (ext_inv _ _ _ _ Hx HI) as HI'. destruct (ext_content _ _ _ i Hx) as [Hc' Hq'].
  pose proof Hx as (m & Hw' & _). assert (Ha' : w_any w' !! i = Some a) by by rewrite Hw'.
  assert (Hna : In (MUser n) (a_ms a)). { apply Hi. by apply (chain_incl _ _ _ Hch). }
  erewrite stands_invoke_any; [|done|done|done|exact Ha'|done|by rewrite Hq'|by rewrite Hc'].
  pose proof (invoke_spec E w' i a n y T x HI' Ha' Hna (ltac:(by rewrite Hc'))) as H. unfold wp in H. destruct (invoke E i n y w') as [r w''|w''| |]; try done.
  all: destruct H as (H1 & H2 & H3 & _ & H4 & _); split; [done|]; split; [done|]; intros k Hk; transitivity (content w' k); [|by destruct (ext_content _ _ _ k Hx)].
  all: unfold content; rewrite (eff_view _ _ _ H3); [done|]; set_solver.
Qed.

(** ** stateful references *)
Lemma make_state O w c s (cst : bool) r ms T q c2 w2 : converts s (if cst then ToScref r ms else ToSref r ms) (VState cst ms) -> stands w c s (Some (T, q)) ->
  incl ms (sty_methods s) -> w_sref w !! r = None -> run_step O (if cst then ToScref r ms else ToSref r ms) c w = Ok c2 w2 ->
  c2 = CState cst r /\ w_sref w2 !! r = Some (SRefObj (map (fun m => (T, m)) ms) ms q).
Proof.
  intros Hcv Hs Hi Hr H2. destruct s as [k ms0|b0 ms0], c as [[k' v p ms0']|b1 r1]; try (by destruct Hs).
  - pose proof Hs as (Hk & Hm & Hp & _). cbn in Hk, Hm, Hp. subst k' ms0' p. pose proof (from_view_ok w r ms ms0 k v q T Hi Hr Hs) as Hfv.
    destruct cst; inversion Hcv; subst; [destruct k; try done|]; cbn [run_step] in H2; rewrite (bind_ok _ _ _ _ _ Hfv) in H2; injection H2 as <- <-; cbn; by rewrite lookup_insert.
  - pose proof Hs as (-> & _). pose proof (from_state_ok w r ms ms0 b0 r1 q T Hi Hr Hs) as Hfv.
    destruct cst; inversion Hcv; subst; try destruct b0; cbn [run_step] in H2; rewrite (bind_ok _ _ _ _ _ Hfv) in H2; injection H2 as <- <-; cbn; by rewrite lookup_insert.
Qed.
Lemma stateful_fact E O w o l s s' T q r ms (cst : bool) : env_wf E -> reachable E w -> begins w o s (Some (T, q)) -> chain s l s' ->
  fresh_names w (all_names o l ++ [r]) -> is_ref s' = true -> incl ms (sty_methods s') ->
  (cst = false -> s' = VState false (sty_methods s') \/ s' = VView KRef (sty_methods s')) ->
  let st := if cst then ToScref r ms else ToSref r ms in
  exists w', obtained O w o (l ++ [st]) (CState cst r) w' /\
    (forall m, In m ms -> cur_slot (CState cst r) m w' = Ok T w') /\ self_of (CState cst r) w' = Ok q w' /\
    (exists v, obtained O w o (l ++ [st; GetView]) v w' /\ forall m, In m ms -> cur_slot v m w' = Ok T w') /\
    (forall w2 x, obtained O w (OState cst r T q ms) [] x w2 -> w_sref w2 !! r = w_sref w' !! r).
Proof.
  intros Hwf Hr Hb Hch Hf Href Hi Hc st. pose proof (reachable_inv _ _ Hwf Hr) as HI.
  destruct (chain_ok E O w o l s s' _ HI Hb Hch (ltac:(done))) as (c & w1 & Ho & Hx & Hs).
  { destruct Hf as [Hd Hf]. apply NoDup_app in Hd as (Hd & _). split; [done|]. intros k Hk. apply Hf. rewrite in_app_iff. by left. }
  assert (Hcv : converts s' st (VState cst ms)).
  { subst st. destruct cst.
    - destruct s' as [k ms'|b ms']; [|by constructor]. constructor; [by destruct k|done].
    - destruct (Hc eq_refl) as [->| ->]; by constructor. }
  assert (Hnames : step_names st = [r]) by by destruct cst.
  assert (Hf1 : fresh_names w1 [r]) by by eapply ext_fresh.
  destruct (step_ok O w1 st c s' _ _ Hcv Hs (ltac:(done)) (ltac:(by rewrite Hnames))) as (c2 & w2 & H2 & Hx2 & Hs2).
  assert (Hr1 : w_sref w1 !! r = None) by (apply Hf1; by left).
  destruct (make_state O w1 c s' cst r ms T q c2 w2 Hcv Hs Hi Hr1 H2) as [-> Hsr].
  exists w2. assert (Happ : forall l1 l2 c0 w0, run_steps O (l1 ++ l2) c0 w0 = bindM (run_steps O l1 c0) (run_steps O l2) w0).
  { induction l1 as [|st1 tl IH]; intros l2 c0 w0; [done|]. cbn [run_steps app]. unfold bindM. destruct (run_step O st1 c0 w0) as [c9 w9| | |]; [|done..].
    by rewrite IH. }
  assert (Hob : forall l2 c3 w3, run_steps O l2 c w1 = Ok c3 w3 -> obtained O w o (l ++ l2) c3 w3).
  { intros l2 c3 w3 H3. unfold obtained in *. unfold bindM in *. destruct (start O o w) as [c0 w0| | |]; try done. rewrite Happ. unfold bindM. by rewrite Ho. }
  split; [apply Hob; cbn; by rewrite (bind_ok _ _ _ _ _ H2)|]. split; [intros m Hm; by eapply stands_slot|]. split; [by eapply stands_self|]. split.
  - destruct (step_ok O w2 GetView (CState cst r) (VState cst ms) (VView (if cst then KCRef else KRef) ms) (Some (T, q))) as (v & w3 & H3 & Hx3 & Hs3);
      [destruct cst; constructor|done|done|split; [constructor|done]|].
    assert (w3 = w2) as ->.
    { destruct (mk_view_some O w2 (if cst then KCRef else KRef) ms (VPtr (Some r) (map (fun m => (T, m)) ms) 0) q T) as (p & Hp & _).
      - by eexists.
      - destruct Hs2 as (_ & T' & q' & s2 & [= <- <-] & Hr2 & _ & _ & He). rewrite Hsr in Hr2. injection Hr2 as <-. done.
      - destruct cst; cbn [run_step] in H3; rewrite (bind_ok _ _ _ _ _ (get_sref_ok _ _ _ Hsr)) in H3; cbn [sr_ms sr_ptr sr_tab] in H3;
          rewrite (bind_ok _ _ _ _ _ Hp) in H3; by injection H3 as _ <-. }
    exists v. split; [apply Hob; cbn; rewrite (bind_ok _ _ _ _ _ H2); by rewrite (bind_ok _ _ _ _ _ H3)|]. intros m Hm. by eapply stands_slot.
  - intros w3 x H3. unfold obtained in H3. cbn in H3. assert (Hr0 : w_sref w !! r = None). { apply Hf. rewrite in_app_iff. right. by left. }
    unfold bindM in H3. rewrite (put_sref_ok _ _ _ Hr0) in H3. injection H3 as _ <-. cbn. by rewrite lookup_insert, Hsr.
Qed.

(** ** const_poly_ptr from a pointer to a const any *)
Lemma cptr_same E O w i a : env_wf E -> reachable E w -> w_any w !! i = Some a -> exists p, cptr_any O i (a_ms a) w = Ok p w /\ pv_p p = address w i.
Proof.
  intros Hwf Hr Ha. destruct (caddr_fact E O w i a Hwf Hr Ha) as (p & Hp & _ & Hq & _). cbn in Hp. rewrite (bind_get_any _ _ _ _ Ha) in Hp.
  unfold bindM in Hp. destruct (cptr_any O i (a_ms a) w) as [p' w'| | |] eqn:H; try done. unfold retM in Hp. injection Hp as -> ->. by exists p.
Qed.
Lemma cptr_fewer O w i a ms : w_any w !! i = Some a -> contiguous ms (a_ms a) -> ms <> a_ms a -> cptr_any O i ms w = UB UbIllFormed.
Proof.
  intros Ha Hc Hne. unfold cptr_any. rewrite (bind_get_any _ _ _ _ Ha).
  destruct (has_subsequence_spec meqb meqb_ok (a_ms a) ms) as [[-> H]|[-> _]]; [|done]. exfalso. apply Hne.
  by apply contiguous_antisym.
Qed.
