(** Proofs about type_switch. *)
From stdpp Require Import gmap list.
From Verif Require Import TypeListModel TypeListProofs AnyModel AnyInv AnySteps AnyOps AnyHistory AnyFacts DescModel DescSpec DescProofs
  PolyModel PolySpec PolyProofs PolyFacts PolyFacts2 VisitModel VisitSpec VisitProofs SwitchModel SwitchSpec.

Lemma uniqueb_ok Ts : NoDup Ts -> uniqueb Ts = true.
Proof.
  induction 1 as [|T Ts HT H IH]; [done|]. cbn. rewrite IH, andb_true_r. apply negb_true_iff, not_true_iff_false. intros He. apply HT.
  apply existsb_exists in He as (U & HU & He). apply Nat.eqb_eq in He as ->. by apply elem_of_list_In.
Qed.

Lemma switch_on_ok E O w s a d : env_wf E -> between E w -> subject_arg s a -> arg_denotes E O w a d ->
  match d with
  | None => switch_on O s w = UB UbAssert
  | Some (T, q) => exists p k ms, switch_on O s w = Ok p w /\ stands w (CView p) (VView k ms) (Some (T, q)) /\ is_ptr k = true /\ reports_type ms
  end.
Proof.
  intros Hwf Hw Hs H. pose proof (between_inv _ _ Hwf Hw) as HI.
  destruct H as [i c a d Ha Hm Hd|w0 w1 o l sv k ms p d ns Hr Hb Hch Hn Hf Ho Hx Hm|T q c o Ho HT|T q c o Ho HT]; destruct s as [j c'|p'|p']; cbn in Hs; try done; try (by destruct Hs).
  - injection Hs as <- <-. assert (exists p k, start O (if c then OCAddr i else OAddr i) w = Ok (CView p) w /\ stands w (CView p) (VView k (a_ms a)) d /\ is_ptr k = true) as (p & k & Hst & Hsd & Hk).
    { destruct c.
      - destruct (cptr_any_ok E O w i a d HI Ha Hd) as (p & Hp & Hsd). exists p, KCPtr. cbn [start]. by rewrite (bind_get_any _ _ _ _ Ha), (bind_ok _ _ _ _ _ Hp).
      - destruct (ptr_any_ok E O w i a (a_ms a) d HI Ha (contiguous_refl _) Hd) as (p & Hp & Hsd). exists p, KPtr. cbn [start]. by rewrite (bind_get_any _ _ _ _ Ha), (bind_ok _ _ _ _ _ Hp). }
    unfold switch_on. rewrite (bind_ok _ _ _ _ _ Hst). pose proof Hsd as (_ & _ & Hp & _). rewrite Hp. destruct d as [[T q]|]; [|done]. exists p, k, (a_ms a). done.
  - destruct Hs as [[= <-] Hk]. pose proof (reachable_inv _ _ Hwf Hr) as HI0. destruct (obtained_stands _ _ _ _ _ _ _ _ _ _ HI0 Hb Hch Hn Hf Ho) as [Hx1 Hs'].
    pose proof (stands_ext _ _ _ _ _ _ Hx Hs') as Hsd. pose proof Hsd as (Hkk & Hms & Hp & _).
    assert (Hik : is_ptr k = false) by (rewrite <- Hkk; by destruct Hk as [-> | ->]).
    assert (Hd : d <> None) by (eapply ref_some; [exact Hsd|]; cbn; by rewrite Hik). destruct d as [[T q]|]; [|done].
    destruct p as [k' v pp ms']. cbn in Hkk, Hms, Hp. subst k' ms' pp.
    destruct k; try done; unfold switch_on; cbn [pv_k run_step].
    + destruct (mk_view_ref O w KPtr _ v q ms T Hsd) as (p' & Hmk & Hst). rewrite (bind_ok _ _ w (CView p') w) by by rewrite (bind_ok _ _ _ _ _ Hmk).
      pose proof Hst as (_ & _ & Hp & _). rewrite Hp. exists p', KPtr, ms. done.
    + destruct (mk_view_ref O w KCPtr _ v q ms T Hsd) as (p' & Hmk & Hst). rewrite (bind_ok _ _ w (CView p') w) by by rewrite (bind_ok _ _ _ _ _ Hmk).
      pose proof Hst as (_ & _ & Hp & _). rewrite Hp. exists p', KCPtr, ms. done.
Qed.

Section Chain.
  Context (E : env) (O : obs) (B : sbodies) (void : bool) (HO : obs_wf O).
  Context (w : world) (HI : Inv E w) (p : pval) (k : kind) (ms : list method) (T : nat) (q : ptr).
  Hypothesis (Hst : stands w (CView p) (VView k ms) (Some (T, q))) (Hm : reports_type ms).

  Lemma cast_here U : cast_ptr O p U w = Ok (if decide (U = T) then Some q else None) w.
  Proof.
    unfold cast_ptr. pose proof Hst as (_ & _ & Hp & _). rewrite Hp. cbn [option_map snd].
    rewrite (bind_ok _ _ _ _ _ (ptr_desc_ok _ O _ _ _ _ _ HI Hst Hm)). cbn [option_map fst].
    rewrite (bind_ok _ _ _ _ _ (desc_eqM_ok O w (Some T) (Some U) HO)). destruct (decide (U = T)) as [->|Hne].
    - by rewrite bool_decide_true.
    - rewrite bool_decide_false; [done|congruence].
  Qed.
  Lemma case1_done U f r w' : case1 O B void p U f (Some r) w' = Ok (Some r) w'.
  Proof. done. Qed.
  Lemma cases_done Ts f r w' : cases_fold O B void p Ts f (Some r) w' = Ok (Some r) w'.
  Proof. induction Ts as [|U Ts IH]; [done|]. cbn. exact IH. Qed.
  Lemma run_done l r w' : distinct_cases l -> run_cases O B void p l (Some r) w' = Ok (Some r) w'.
  Proof.
    induction l as [|c l IH]; intros Hd; [done|]. cbn [run_cases].
    assert (run_case O B void p c (Some r) w' = Ok (Some r) w') as Hc.
    { destruct c as [U f|Ts f]; [done|]. cbn [run_case]. rewrite uniqueb_ok by (eapply Hd; by left). cbn [ensure].
      rewrite (bind_ok (retM tt) _ w' tt w' eq_refl). apply cases_done. }
    rewrite (bind_ok _ _ _ _ _ Hc). apply IH. intros Ts f H. eapply Hd. by right.
  Qed.
  Lemma kept_bind f : (let! r := sb_case B f T q in retM (Some (if void then 0 else r))) w = kept void (sb_case B f T q w).
  Proof. unfold bindM, kept. by destruct (sb_case B f T q w). Qed.

  (** one case group *)
  Lemma cases_fold_ok Ts f : cases_fold O B void p Ts f None w = if decide (T ∈ Ts) then kept void (sb_case B f T q w) else Ok None w.
  Proof.
    induction Ts as [|U Ts IH]; [done|]. cbn [cases_fold]. unfold bindM at 1. unfold case1 at 1. rewrite (bind_ok _ _ _ _ _ (cast_here U)).
    destruct (decide (U = T)) as [->|Hne].
    - rewrite decide_True by by left. rewrite kept_bind. unfold kept at 1. destruct (sb_case B f T q w); try done. by rewrite cases_done.
    - change (retM None w) with (@Ok (option nat) None w). cbv iota. rewrite IH. destruct (decide (T ∈ Ts)); [by rewrite decide_True by by right|].
      rewrite decide_False; [done|]. intros [H|H]%elem_of_cons; [by subst|done].
  Qed.
  Lemma run_case_ok c : (forall Ts f, c = SCases Ts f -> NoDup Ts) ->
    (exists f, first_for T f (arms c) /\ run_case O B void p c None w = kept void (sb_case B f T q w)) \/
    (~ In T (map fst (arms c)) /\ run_case O B void p c None w = Ok None w).
  Proof.
    intros Hd. destruct c as [U f|Ts f]; cbn [run_case arms].
    - unfold case1. rewrite (bind_ok _ _ _ _ _ (cast_here U)). destruct (decide (U = T)) as [->|Hne].
      + left. exists f. split; [exists [], []; split; [done|by cbn; tauto]|apply kept_bind].
      + right. split; [cbn; tauto|done].
    - rewrite uniqueb_ok by (by eapply Hd). cbn [ensure]. rewrite (bind_ok (retM tt) _ w tt w eq_refl). rewrite cases_fold_ok. destruct (decide (T ∈ Ts)) as [HT|HT].
      + left. exists f. split; [|done]. specialize (Hd Ts f eq_refl). apply elem_of_list_split in HT as (a & b & ->).
        exists (map (fun U => (U, f)) a), (map (fun U => (U, f)) b). split; [by rewrite map_app|]. rewrite map_map. cbn. rewrite map_id.
        apply NoDup_app in Hd as (_ & Hd & _). intros Ha. apply elem_of_list_In in Ha. by apply (Hd T Ha); left.
      + right. split; [|done]. rewrite map_map. cbn. rewrite map_id. by rewrite <- elem_of_list_In.
  Qed.
  Lemma run_cases_ok l : distinct_cases l ->
    (exists f, first_for T f (all_arms l) /\ run_cases O B void p l None w = kept void (sb_case B f T q w)) \/
    (~ In T (map fst (all_arms l)) /\ run_cases O B void p l None w = Ok None w).
  Proof.
    induction l as [|c l IH]; intros Hd; [right; split; [intros []|done]|]. cbn [run_cases].
    assert (Hd' : distinct_cases l) by (intros Ts f H; eapply Hd; by right).
    destruct (run_case_ok c) as [(f & (a & b & Hab & Ha) & Hr)|(Hno & Hr)]; [intros Ts f ->; eapply Hd; by left|..].
    - left. exists f. split.
      + exists a, (b ++ all_arms l). split; [|done]. unfold all_arms. cbn. rewrite Hab. by rewrite <- app_assoc.
      + unfold bindM. rewrite Hr. unfold kept. destruct (sb_case B f T q w); try done. by apply run_done.
    - rewrite (bind_ok _ _ _ _ _ Hr). destruct (IH Hd') as [(f & (a & b & Hab & Ha) & Hr')|(Hno' & Hr')].
      + left. exists f. split; [|done]. exists (arms c ++ a), b. split; [unfold all_arms in *; cbn; rewrite Hab; by rewrite <- app_assoc|].
        rewrite map_app, in_app_iff. tauto.
      + right. split; [|done]. unfold all_arms in *. cbn. rewrite map_app, in_app_iff. tauto.
  Qed.
End Chain.

Lemma first_for_unique T f g l : first_for T f l -> first_for T g l -> f = g.
Proof.
  intros (a & b & -> & Ha) (a' & b' & He & Ha'). revert a' He Ha'. induction a as [|x a IH]; intros [|y a'] He Ha'; cbn in He.
  - by injection He as ->.
  - injection He as <- _. exfalso. apply Ha'. by left.
  - injection He as -> _. exfalso. apply Ha. by left.
  - injection He as -> He. eapply IH; [|exact He|]; [intros H; apply Ha; by right|intros H; apply Ha'; by right].
Qed.

Lemma switch_matching : forall E O B void w s a T q l f e, env_wf E -> obs_wf O -> between E w -> subject_arg s a ->
  arg_denotes E O w a (Some (T, q)) -> distinct_cases l -> first_for T f (all_arms l) -> (void = true -> e = SNoDefault) ->
  type_switch O B void s l e w = kept void (sb_case B f T q w).
Proof.
  intros E O B void w s a T q l f e Hwf HO Hw Hs Ha Hd Hf He. pose proof (between_inv _ _ Hwf Hw) as HI.
  destruct (switch_on_ok _ _ _ _ _ _ Hwf Hw Hs Ha) as (p & k & ms & Hon & Hst & Hk & Hm).
  unfold type_switch. rewrite (bind_ok _ _ _ _ _ Hon).
  destruct (run_cases_ok E O B void HO w HI p k ms T q Hst Hm l Hd) as [(g & Hg & Hr)|(Hno & Hr)].
  - rewrite (first_for_unique _ _ _ _ Hf Hg). unfold bindM. rewrite Hr. unfold kept. destruct (sb_case B g T q w); try done.
    destruct e; try done; destruct void; try done; by specialize (He eq_refl).
  - exfalso. apply Hno. destruct Hf as (x & y & -> & _). rewrite map_app, in_app_iff. right. by left.
Qed.
Lemma switch_default : forall E O B w s a T q l e, env_wf E -> obs_wf O -> between E w -> subject_arg s a ->
  arg_denotes E O w a (Some (T, q)) -> distinct_cases l -> ~ In T (map fst (all_arms l)) ->
  match e with
  | SNoDefault => forall void, type_switch O B void s l e w = Ok None w
  | SDefaultV v => type_switch O B false s l e w = Ok (Some v) w
  | SDefaultF f => exists r, pv_p r = Some q /\ is_ptr (pv_k r) = false /\ type_switch O B false s l e w = kept false (sb_default B f r w)
  end.
Proof.
  intros E O B w s a T q l e Hwf HO Hw Hs Ha Hd Hno. pose proof (between_inv _ _ Hwf Hw) as HI.
  destruct (switch_on_ok _ _ _ _ _ _ Hwf Hw Hs Ha) as (p & k & ms & Hon & Hst & Hk & Hm).
  assert (Hr : forall void, run_cases O B void p l None w = Ok None w).
  { intros void. destruct (run_cases_ok E O B void HO w HI p k ms T q Hst Hm l Hd) as [(g & (x & y & Hxy & _) & Hr)|(_ & Hr)]; [|done].
    exfalso. apply Hno. rewrite Hxy, map_app, in_app_iff. right. by left. }
  unfold type_switch. destruct e as [f|v|].
  - rewrite (bind_ok _ _ _ _ _ Hon), (bind_ok _ _ _ _ _ (Hr false)). cbn [run_end]. destruct p as [k' v pp ms']. pose proof Hst as (Hkk & _ & Hp & _). cbn in Hkk, Hp. subst k' pp.
    destruct k; try done; cbn [run_step].
    + exists (PV KRef v (Some q) ms'). rewrite (bind_ok (retM _) _ w _ w eq_refl). unfold bindM, kept. by destruct (sb_default _ _ _ _).
    + exists (PV KCRef v (Some q) ms'). rewrite (bind_ok (retM _) _ w _ w eq_refl). unfold bindM, kept. by destruct (sb_default _ _ _ _).
  - by rewrite (bind_ok _ _ _ _ _ Hon), (bind_ok _ _ _ _ _ (Hr false)).
  - intros void. by rewrite (bind_ok _ _ _ _ _ Hon), (bind_ok _ _ _ _ _ (Hr void)).
Qed.
Lemma switch_empty : forall E O B void w s a l e, env_wf E -> between E w -> subject_arg s a ->
  arg_denotes E O w a None -> type_switch O B void s l e w = UB UbAssert.
Proof.
  intros E O B void w s a l e Hwf Hw Hs Ha. unfold type_switch, bindM. pose proof (switch_on_ok _ _ _ _ _ _ Hwf Hw Hs Ha) as H. cbn in H. by rewrite H.
Qed.
