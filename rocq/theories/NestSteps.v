(** Every operation on anys that contain anys does what the machine of trees does (C96). *)
From stdpp Require Import gmap list.
From Verif Require Import NestModel NestSpec NestProofs NestFocus.

(** ** Trees *)
Lemma tget_height p : forall l t, tget l p = Some t -> oht t <= lht l.
Proof.
  induction p as [|k p IH]; intros l t H; [done|]. rewrite tget_cons in H. destruct (l !! k) as [u|] eqn:Hk; [|done].
  apply lht_lookup in Hk. destruct p as [|j p]; [by injection H as <-|]. destruct u as [[T v cs]|]; [|done]. cbn [tsub] in H. apply IH in H.
  cbn [oht] in Hk. rewrite ht_node in Hk. lia.
Qed.
Lemma tgets_height qs : forall l ts, tgets l qs = Some ts -> lht ts <= lht l.
Proof.
  induction qs as [|q qs IH]; intros l ts H; cbn in H; [injection H as <-; cbn; lia|].
  destruct (tget l q) as [t|] eqn:Hq; [|done]. destruct (tgets l qs) as [us|] eqn:Hqs; [|done]. injection H as <-.
  apply tget_height in Hq. apply IH in Hqs. rewrite lht_cons. lia.
Qed.
Lemma lht_insert l k o : lht (<[k := o]> l) <= Nat.max (lht l) (oht o).
Proof.
  revert k. induction l as [|x l IH]; intros [|k]; cbn [insert list_insert]; rewrite ?lht_cons; try (cbn; lia). specialize (IH k). fold (insert k o l) in *. unfold insert in *. lia.
Qed.
Lemma tput_none_height p : forall l, lht (tput l p None) <= lht l.
Proof.
  induction p as [|k p IH]; intros l; [done|]. cbn [tput]. destruct p as [|j p]; [pose proof (lht_insert l k None); cbn [oht] in *; lia|].
  destruct (l !! k) as [[[T v cs]|]|] eqn:Hk; try done. etransitivity; [apply lht_insert|]. apply lht_lookup in Hk. cbn [oht] in *. rewrite ht_node in *.
  specialize (IH cs). lia.
Qed.
Lemma tget_tput p x : forall l u, tget l p = Some u -> tget (tput l p x) p = Some x.
Proof.
  induction p as [|k p IH]; intros l u H; [done|]. rewrite tget_cons in H. destruct (l !! k) as [t|] eqn:Hk; [|done].
  destruct p as [|j p].
  - rewrite tget_cons. cbn [tput]. by rewrite list_lookup_insert by (by eapply lookup_lt_Some).
  - destruct t as [[T v cs]|]; [|done]. rewrite tget_cons. erewrite tput_cons; [|done|done].
    rewrite list_lookup_insert by (by eapply lookup_lt_Some). cbn [tsub]. by eapply IH.
Qed.
Lemma tput_tput p x y : forall l u, tget l p = Some u -> tput (tput l p x) p y = tput l p y.
Proof.
  induction p as [|k p IH]; intros l u H; [done|]. rewrite tget_cons in H. destruct (l !! k) as [t|] eqn:Hk; [|done].
  destruct p as [|j p]; [cbn [tput]; apply list_insert_insert|]. destruct t as [[T v cs]|]; [|done]. cbn [tsub] in H.
  cbn [tput]. rewrite Hk. rewrite list_lookup_insert by (by eapply lookup_lt_Some).
  rewrite list_insert_insert. f_equal. do 2 f_equal. by eapply (IH cs).
Qed.
Lemma tget_tput_ne p : forall q l x u, tget l p = Some u -> ~ above p q -> ~ above q p -> tget (tput l p x) q = tget l q.
Proof.
  induction p as [|k p IH]; intros q l x u H Hpq Hqp; [done|]. destruct q as [|j q]; [done|]. rewrite tget_cons in H. destruct (l !! k) as [t|] eqn:Hk; [|done].
  destruct (decide (k = j)) as [->|Hne].
  - destruct p as [|k' p]; [destruct Hpq; by exists q|]. destruct q as [|j' q]; [destruct Hqp; by eexists|].
    destruct t as [[T v cs]|]; [|done]. cbn [tsub] in H. rewrite !tget_cons. erewrite tput_cons; [|done|done].
    rewrite list_lookup_insert by (by eapply lookup_lt_Some). rewrite Hk. cbn [tsub]. eapply IH; [done| |].
    + intros [r Hr]. apply Hpq. exists r. by rewrite Hr.
    + intros [r Hr]. apply Hqp. exists r. by rewrite Hr.
  - rewrite !tget_cons. destruct p as [|k' p].
    + cbn [tput]. by rewrite list_lookup_insert_ne.
    + destruct t as [[T v cs]|]; [|done]. erewrite tput_cons; [|done|done]. by rewrite list_lookup_insert_ne.
Qed.

Section Env.
  Context (E : env).
  Notation shows := (shows E). Notation all_show := (all_show E).

  (** as [only], but the variables may change *)
  Definition onlyh (R : gset nat) (w w' : world) : Prop :=
    w_next w' = w_next w /\ dom (w_heap w') = dom (w_heap w) /\ (forall b, b ∉ R -> w_heap w' !! b = w_heap w !! b) /\ w_tick w' = w_tick w.
  Definition inv (w : world) (f : list (option tree)) : Prop := holds E w f /\ fresh w.

  Lemma place w f B p u : all_show (w_heap w) (w_vars w) f B -> tget f p = Some u ->
    exists c C R, C ## R /\ B = C ∪ R /\ shows (w_heap w) c u C /\
      (forall w1, w_vars w1 = w_vars w -> agree R (w_heap w) (w_heap w1) -> get p w1 = Ok c w1) /\
      forall w1 c' u' C', w_vars w1 = w_vars w -> agree R (w_heap w) (w_heap w1) -> shows (w_heap w1) c' u' C' -> C' ## R ->
        exists w2, put p c' w1 = Ok tt w2 /\ onlyh R w1 w2 /\ all_show (w_heap w2) (w_vars w2) (tput f p u') (C' ∪ R) /\ get p w2 = Ok c' w2.
  Proof.
    intros H Hu. destruct (focus_in E p _ _ _ _ _ H Hu) as (c & C & R & Hd & -> & Hs & Hg & Hp). exists c, C, R.
    split; [done|]. split; [done|]. split; [done|]. split.
    - intros w1 Hv Ha. unfold get. rewrite Hv. by apply Hg.
    - intros w1 c' u' C' Hv Ha Hs' Hd'. destruct (Hp w1 c' u' C' Ha Hs' Hd') as (l' & w' & Hput & Ho & Hl & Hg').
      exists (set_vars w' l'). unfold put, bindM. rewrite Hv, Hput. split; [done|]. split; [by destruct Ho as (_ & ? & ? & ? & ?)|]. split; [done|].
      unfold get. cbn. by rewrite Hg'.
  Qed.
  Lemma shows_none h c C D : shows h c None C -> shows h c None D -> C = D.
  Proof. intros H1 H2. inversion H1; subst; inversion H2; subst; done. Qed.
  (** the any at [p] is emptied *)
  Lemma clear_place n w f B p u : all_show (w_heap w) (w_vars w) f B -> tget f p = Some u -> oht u < n ->
    exists a w1 w2 A R, get p w = Ok a w /\ destroy_any n a w = Ok tt w1 /\ put p nothing w1 = Ok tt w2 /\ get p w2 = Ok nothing w2 /\
      B = A ∪ R /\ A ## R /\ dom (w_heap w2) = dom (w_heap w) ∖ A /\ w_next w2 = w_next w /\ w_tick w2 = w_tick w /\
      all_show (w_heap w2) (w_vars w2) (tput f p None) R /\ forall b, b ∉ B -> w_heap w2 !! b = w_heap w !! b.
  Proof.
    intros H Hu Hn. destruct (place _ _ _ _ _ H Hu) as (a & A & R & Hd & -> & Hs & Hg & Hp).
    destruct (Hp (without w A) nothing None ∅) as (w2 & Hput & (Ho1 & Ho2 & Ho3 & Ho4) & Hl & Hg2); [done|by apply without_agree|constructor|sets|].
    exists a, (without w A), w2, A, R. split; [by apply Hg|]. split; [by eapply destroy_any_spec|]. split; [done|]. split; [done|].
    split; [done|]. split; [done|]. split.
    { rewrite Ho2. clear. apply set_eq. intros b. rewrite elem_of_difference, !elem_of_dom, without_lookup. case_bool_decide; [|naive_solver].
      split; [intros [? ?]; done|naive_solver]. }
    split; [done|]. split; [done|]. split; [by replace (∅ ∪ R) with R in Hl by sets|].
    intros b Hb. rewrite Ho3 by sets. rewrite without_lookup, bool_decide_false; [done|sets].
  Qed.
  (** an any that is empty is filled; its memory [C] may be used *)
  Lemma fill_place w w1 f B p c C x t X : all_show (w_heap w) (w_vars w) f B -> tget f p = Some None -> get p w = Ok c w -> shows (w_heap w) c None C ->
    w_vars w1 = w_vars w -> agree (B ∖ C) (w_heap w) (w_heap w1) -> shows (w_heap w1) x t X -> X ## B ∖ C ->
    exists w2, put p x w1 = Ok tt w2 /\ onlyh (B ∖ C) w1 w2 /\ all_show (w_heap w2) (w_vars w2) (tput f p t) (X ∪ B ∖ C) /\ get p w2 = Ok x w2.
  Proof.
    intros H Hu Hc Hs Hv Ha Hx Hd. destruct (place _ _ _ _ _ H Hu) as (c' & C' & R & Hdc & -> & Hsc & Hg & Hp).
    rewrite (Hg w eq_refl (fun b _ => eq_refl)) in Hc. injection Hc as ->. assert (C' = C) as -> by (by eapply shows_none).
    assert ((C ∪ R) ∖ C = R) as HR by sets. rewrite HR in *. by apply Hp.
  Qed.
  Lemma move_value_spec h o t C : shows h o t C ->
    exists x o' X O, move_value o = (x, o') /\ shows h x t X /\ shows h o' None O /\ X ## O /\ C = X ∪ O.
  Proof.
    intros H. inversion H as [|b n Hb|T v cs ts B' Hf Hl|T v cs ts B' b n Hb Hn Hl Hnb]; subst; cbn [move_value nothing].
    - exists nothing, nothing, ∅, ∅. repeat split; try constructor; sets.
    - exists nothing, (Any None (PHeap b n) None), ∅, {[b]}. split; [done|]. split; [constructor|]. split; [by constructor|]. split; sets.
    - eexists _, _, C, ∅. split; [done|]. split; [done|]. split; [constructor|]. split; sets.
    - eexists _, _, _, ∅. split; [done|]. split; [exact H|]. split; [constructor|]. split; sets.
  Qed.

  Lemma dom_without w A : dom (w_heap (without w A)) = dom (w_heap w) ∖ A.
  Proof.
    apply set_eq. intros b. rewrite elem_of_difference, !elem_of_dom, without_lookup. case_bool_decide; [|naive_solver].
    split; [intros [? ?]; done|naive_solver].
  Qed.
  Lemma fresh_sub w w' : fresh w -> dom (w_heap w') ⊆ dom (w_heap w) -> w_next w <= w_next w' -> fresh w'.
  Proof. intros H Hd Hn b Hb. pose proof (H b (Hd _ Hb)). lia. Qed.
  Lemma inv_unchanged w w' f : inv w f -> unchanged w w' -> inv w' f.
  Proof. intros [H Hf] Hu. split; [|by eapply unchanged_fresh]. destruct Hu as (Hv & Hh & _). unfold holds. by rewrite Hv, Hh. Qed.

  Lemma wp_eq {A} (m : M A) w a w' (Q : A -> world -> Prop) (X : world -> Prop) : m w = Ok a w' -> Q a w' -> wp m w Q X.
  Proof. unfold wp. by intros ->. Qed.
  Lemma wp_step {A B} (m : M A) (k : A -> M B) w a w' (Q : B -> world -> Prop) (X : world -> Prop) : m w = Ok a w' -> wp (k a) w' Q X -> wp (bindM m k) w Q X.
  Proof. unfold wp, bindM. by intros ->. Qed.

  (** a new variable *)
  Lemma declare_inv w w1 f x t X (Q : unit -> world -> Prop) (Y : world -> Prop) : inv w f -> grown w w1 X -> shows (w_heap w1) x t X ->
    (forall w', inv w' (f ++ [t]) -> Q tt w') -> wp (declare x) w1 Q Y.
  Proof.
    intros [H Hf] Hg Hx HQ. eapply wp_eq; [done|]. apply HQ. unfold holds in H. pose proof (grown_agree _ _ _ (dom (w_heap w)) Hg ltac:(done)) as Ha.
    destruct Hg as (Hv & Hd & Hu & _ & Hfr & _). split; [|exact Hfr]. unfold holds. cbn. rewrite Hv, Hu. apply all_show_app; [by eapply all_show_frame|by apply all_show_one|set_solver].
  Qed.

  Lemma copies_of_grown n qs : forall w w0 f ts, inv w0 f -> (exists D, grown w0 w D) -> tgets f qs = Some ts -> lht f < n ->
      wp (copies_of E n qs) w (fun cs w' => exists C, all_show (w_heap w') cs ts C /\ grown w w' C) (unchanged w).
  Proof.
    induction qs as [|q qs IH]; intros w w0 f ts Hi (D & Hg0) Hts Hn; cbn [copies_of].
    { injection Hts as <-. apply wp_ret. exists ∅. split; [constructor|apply grown_same, Hg0]. }
    cbn in Hts. destruct (tget f q) as [t|] eqn:Hq; [|done]. destruct (tgets f qs) as [us|] eqn:Hqs; [|done]. injection Hts as <-.
    destruct Hi as [Hh Hf]. destruct (place _ _ _ _ _ Hh Hq) as (c & C & R & Hd & Hdom & Hs & Hget & _).
    assert (agree (dom (w_heap w0)) (w_heap w0) (w_heap w)) as Ha by (by eapply grown_agree).
    assert (get q w = Ok c w) as Hgq. { apply Hget; [apply Hg0|]. eapply agree_mono; [exact Ha|]. rewrite Hdom. set_solver. }
    eapply wp_step; [exact Hgq|]. pose proof (tget_height _ _ _ Hq) as Hht.
    apply wp_bind. eapply wp_mono; [apply (copy_any_spec E n c t C); [|apply Hg0|lia]| |done].
    { eapply shows_frame; [exact Hs|]. eapply agree_mono; [exact Ha|]. rewrite Hdom. set_solver. }
    intros y w1 (B2 & Hy & Hg). apply wp_bind, wp_on_exn.
    eapply wp_mono; [eapply (IH w1 w0 f us)| |].
    - by split.
    - exists (D ∪ B2). by eapply grown_trans.
    - done.
    - done.
    - intros ys w2 (C2 & Hys & Hg2). apply wp_ret. exists (B2 ∪ C2). split; [|by eapply grown_trans].
      constructor; [|done|].
      + eapply shows_frame; [done|]. eapply grown_agree; [done|]. by eapply shows_dom.
      + destruct Hg2 as (_ & Hd2 & _). apply shows_dom in Hy. set_solver.
    - intros w2 Hu. eapply destroy_new; [done|done|lia|done|done].
  Qed.
  Lemma copies_of_spec n qs w f ts : inv w f -> tgets f qs = Some ts -> lht f < n ->
    wp (copies_of E n qs) w (fun cs w' => exists C, all_show (w_heap w') cs ts C /\ grown w w' C) (unchanged w).
  Proof. intros Hi. eapply copies_of_grown; [done|]. exists ∅. apply grown_same, Hi. Qed.
  Lemma grown_unchanged w w1 w2 B : grown w w1 B -> unchanged w1 w2 -> grown w w2 B.
  Proof.
    intros (V1 & D1 & U1 & A1 & F1 & N1) Hu. pose proof (unchanged_fresh _ _ Hu F1) as F2. destruct Hu as (V2 & H2 & N2).
    repeat split; rewrite ?H2; [congruence|done|done|done|done|lia].
  Qed.
  Lemma construct_spec n T v qs w f ts : inv w f -> tgets f qs = Some ts -> lht f < n ->
    wp (construct E n T v qs) w (fun o w' => exists cs C, o = Obj T v cs /\ all_show (w_heap w') cs ts C /\ grown w w' C) (unchanged w).
  Proof.
    intros Hi Hts Hn. unfold construct. apply wp_bind, may_throw_spec; [|done]. intros w1 Hu. apply wp_bind.
    eapply wp_mono; [eapply copies_of_spec; [by eapply inv_unchanged|done|done]| |].
    - intros cs w2 (C & Hc & Hg). apply wp_ret. exists cs, C. split; [done|]. split; [done|]. by eapply unchanged_grown.
    - intros w2 Hu2. by eapply unchanged_trans.
  Qed.

  Lemma emplace_in_empty_spec n T v qs w f ts : inv w f -> tgets f qs = Some ts -> lht f < n ->
    wp (emplace_in_empty E n T v qs) w (copies E w (Some (Node T v ts))) (unchanged w).
  Proof.
    intros Hi Hts Hn. unfold emplace_in_empty. destruct (fits E T) eqn:Hfit.
    - apply wp_bind. eapply wp_mono; [by eapply construct_spec| |done]. intros o w1 (cs & C & -> & Hc & Hg). apply wp_ret.
      exists C. split; [by constructor|done].
    - apply wp_bind. apply allocate_spec; [apply Hi| |done]. intros b w1 Hg1 Hb. apply wp_bind, wp_on_exn.
      (* the construction in memory that has one more block *)
      assert (forall w1, grown w w1 {[b]} -> wp (construct E n T v qs) w1
        (fun o w' => exists cs C, o = Obj T v cs /\ all_show (w_heap w') cs ts C /\ grown w1 w' C) (unchanged w1)) as Hcon.
      { clear w1 Hg1 Hb. intros w1 Hg1. unfold construct. apply wp_bind, may_throw_spec; [|done]. intros w2 Hu. apply wp_bind.
        eapply wp_mono; [eapply copies_of_grown; [exact Hi| |exact Hts|exact Hn]| |].
        - exists {[b]}. by eapply grown_unchanged.
        - intros cs w3 (C & Hc & Hg). apply wp_ret. exists cs, C. split; [done|]. split; [done|]. by eapply unchanged_grown.
        - intros w3 Hu3. by eapply unchanged_trans. }
      eapply wp_mono; [by apply Hcon| |].
      + intros o w2 (cs & C & -> & Hc & Hg2). apply wp_bind. eapply put_new; [exact Hg1|exact Hb|exact Hg2|].
        intros w3 Hg3 Hb3 Ha3. apply wp_ret. exists ({[b]} ∪ C). split; [|done]. econstructor; [done|done|by eapply all_show_frame|].
        destruct Hg2 as (_ & Hd2 & _). apply elem_of_dom_2 in Hb. set_solver.
      + intros w2 Hu. eapply free_new; [exact Hg1|exact Hb|exact Hu|done].
  Qed.

  Lemma inv_fill w w1 f p c C x t X : inv w f -> tget f p = Some None -> get p w = Ok c w -> shows (w_heap w) c None C ->
    w_vars w1 = w_vars w -> agree (dom (w_heap w) ∖ C) (w_heap w) (w_heap w1) -> shows (w_heap w1) x t X -> X ## dom (w_heap w) ∖ C ->
    dom (w_heap w1) = X ∪ dom (w_heap w) ∖ C -> fresh w1 ->
    exists w2, put p x w1 = Ok tt w2 /\ inv w2 (tput f p t) /\ get p w2 = Ok x w2.
  Proof.
    intros [Hh Hf] Hu Hc Hs Hv Ha Hx Hd Hdom Hf1.
    destruct (fill_place _ _ _ _ _ _ _ _ _ _ Hh Hu Hc Hs Hv Ha Hx Hd) as (w2 & Hp & (Ho1 & Ho2 & _) & Hl & Hg).
    exists w2. split; [done|]. split; [|done]. split.
    - unfold holds. by rewrite Ho2, Hdom.
    - eapply fresh_sub; [exact Hf1|by rewrite Ho2|lia].
  Qed.
  Lemma in_empty_spec n p T v qs w f ts : inv w f -> tget f p = Some None -> get p w = Ok nothing w -> tgets f qs = Some ts -> lht f < n ->
    wp (let! x := emplace_in_empty E n T v qs in put p x) w (fun _ w' => inv w' (tput f p (Some (Node T v ts)))) (fun w' => inv w' f).
  Proof.
    intros Hi Hp Hg Hts Hn. apply wp_bind. eapply wp_mono; [by eapply emplace_in_empty_spec| |].
    - intros x w1 (X & Hx & Hgr).
      destruct (inv_fill w w1 f p nothing ∅ x (Some (Node T v ts)) X) as (w2 & Hput & Hi2 & _); try done.
      + constructor.
      + apply Hgr.
      + eapply grown_agree; [done|set_solver].
      + destruct Hgr as (_ & ? & _). set_solver.
      + destruct Hgr as (_ & _ & -> & _). set_solver.
      + apply Hgr.
      + by eapply wp_eq.
    - intros w1. by apply inv_unchanged.
  Qed.

  Lemma emplace_ok n p T v qs w f u ts : inv w f -> tget f p = Some u -> tgets (tput f p None) qs = Some ts -> lht f < n ->
    wp (emplace E n p T v qs) w (fun _ w' => inv w' (tput f p (Some (Node T v ts)))) (fun w' => inv w' (tput f p None)).
  Proof.
    intros [Hh Hf] Hu Hts Hn. unfold holds in Hh. pose proof (tget_height _ _ _ Hu) as Hht. pose proof (tput_none_height p f) as Hht2.
    pose proof (tget_tput p None f u Hu) as Hu1. pose proof (fun y => tput_tput p None y f u Hu) as Htt.
    destruct (place _ _ _ _ _ Hh Hu) as (a & A & R & Hd & Hdom & Hs & Hget & Hput).
    unfold emplace. eapply wp_step; [by apply Hget|].
    destruct (destroy_value_spec E (destroy_any n) a u A w Hs) as (a' & w1 & Hdv & Hv1 & Hx1 & Ht1 & Hc).
    { intros T' v' ts' -> b t C w' Hin Hsb. eapply destroy_any_spec; [done|]. apply elem_of_list_lookup in Hin as [k Hk]. apply lht_lookup in Hk.
      cbn [oht] in Hht. rewrite ht_node in Hht. lia. }
    eapply wp_step; [exact Hdv|].
    assert (exists A', shows (w_heap w1) a' None A' /\ A' ⊆ A /\ dom (w_heap w1) = A' ∪ R /\ agree R (w_heap w) (w_heap w1)) as (A' & Hs1 & HA & Hd1 & Ha1).
    { destruct Hc as [[-> ->]|(b & m & -> & Hb & Hl)].
      - exists ∅. split; [constructor|]. split; [set_solver|]. split; [rewrite dom_without; set_solver|by apply without_agree].
      - exists {[b]}. split; [constructor; by rewrite Hl, bool_decide_true|]. split; [set_solver|]. split.
        + apply set_eq. intros c. rewrite elem_of_dom, Hl, elem_of_union, elem_of_singleton. case_bool_decide; [naive_solver|].
          assert (c ∈ dom (w_heap w) <-> c ∈ A ∪ R) as Hcd by (by rewrite Hdom). rewrite elem_of_dom in Hcd.
          case_bool_decide; [split; [intros [? ?]; done|set_solver]|set_solver].
        + intros c Hc. rewrite Hl, !bool_decide_false; [done|set_solver|set_solver]. }
    destruct (Hput w1 a' None A') as (w2 & Hput2 & (Ho1 & Ho2 & Ho3 & Ho4) & Hl2 & Hget2); [done|done|done|set_solver|].
    eapply wp_step; [exact Hput2|].
    assert (inv w2 (tput f p None)) as Hi2.
    { split; [unfold holds; by rewrite Ho2, Hd1|]. eapply fresh_sub; [exact Hf|rewrite Ho2, Hd1, Hdom; set_solver|lia]. }
    assert (forall w f', f' = tput f p None -> inv w f' -> get p w = Ok nothing w ->
      wp (let! x := emplace_in_empty E n T v qs in put p x) w (fun _ w' => inv w' (tput f p (Some (Node T v ts)))) (fun w' => inv w' (tput f p None))) as Hempty.
    { intros w3 f' -> Hi3 Hg3. rewrite <- (Htt (Some (Node T v ts))). eapply in_empty_spec; try done. lia. }
    destruct Hc as [[-> _]|(b & m & -> & Hb & _)].
    { cbn [nothing]. by eapply Hempty. }
    assert (A' = {[b]}) as ->. { inversion Hs1; subst; done. }
    assert (w_heap w2 !! b = Some (Block m None)) as Hb2. { rewrite Ho3 by set_solver. inversion Hs1; subst; done. }
    assert (shows (w_heap w2) (Any None (PHeap b m) None) None {[b]}) as Hs2 by (by constructor).
    assert (b ∈ dom (w_heap w2)) as Hbd by (by apply elem_of_dom_2 in Hb2).
    cbn match. destruct (m <? e_size E T) eqn:Hm.
    - unfold deallocate_memory.
      destruct (inv_fill w2 (set_heap w2 (delete b (w_heap w2))) (tput f p None) p (Any None (PHeap b m) None) {[b]} nothing None ∅) as (w3 & Hput3 & Hi3 & Hg3); try done.
      + intros c Hc. cbn. rewrite lookup_delete_ne; [done|set_solver].
      + constructor.
      + cbn. rewrite dom_delete_L. set_solver.
      + eapply fresh_sub; [apply Hi2|cbn; rewrite dom_delete_L; set_solver|done].
      + eapply wp_step; [|eapply (Hempty w3); [|exact Hi3|exact Hg3]; apply Htt].
        unfold bindM, deallocate. rewrite Hb2, Nat.eqb_refl. cbn [retM]. exact Hput3.
    - apply Nat.ltb_ge in Hm. apply wp_bind. eapply wp_mono; [eapply construct_spec; [exact Hi2|exact Hts|lia]| |].
      2:{ intros w3. by apply inv_unchanged. }
      intros o w3 (cs & C & -> & Hcs & Hg3). assert (Hg3' := Hg3). destruct Hg3' as (Hv3 & Hd3 & Hu3 & Hl3 & Hf3 & Hn3).
      assert (b ∉ C) as HbC by set_solver.
      eapply wp_step. { unfold put_block. rewrite Hl3, Hb2 by done. cbn. done. }
      set (w4 := set_heap w3 _).
      assert (forall c, c ∈ dom (w_heap w3) -> c <> b -> w_heap w4 !! c = w_heap w3 !! c) as H4.
      { intros c _ Hc. cbn. by rewrite lookup_insert_ne. }
      assert (dom (w_heap w4) = dom (w_heap w3)) as Hd4. { cbn. rewrite dom_insert_L. set_solver. }
      destruct (inv_fill w2 w4 (tput f p None) p (Any None (PHeap b m) None) {[b]} (Any (Some T) (PHeap b m) None) (Some (Node T v ts)) ({[b]} ∪ C))
        as (w5 & Hput5 & Hi5 & _); try done.
      + intros c Hc. rewrite H4; [|set_solver|set_solver]. symmetry. apply Hl3. set_solver.
      + econstructor; [cbn; by rewrite lookup_insert|done| |done]. eapply all_show_frame; [done|]. intros c Hc.
        symmetry. apply H4; [rewrite Hu3; set_solver|set_solver].
      + set_solver.
      + rewrite Hd4, Hu3. apply set_eq. intros c. rewrite !elem_of_union, elem_of_difference, elem_of_singleton. destruct (decide (c = b)); naive_solver.
      + eapply fresh_sub; [exact Hf3|by rewrite Hd4|done].
      + rewrite <- (Htt (Some (Node T v ts))). by eapply wp_eq.
  Qed.

  Lemma copy_at n q w f t : inv w f -> tget f q = Some t -> lht f < n ->
    exists c, get q w = Ok c w /\ wp (copy_any E n c) w (copies E w t) (unchanged w).
  Proof.
    intros [Hh Hf] Hq Hn. destruct (place _ _ _ _ _ Hh Hq) as (c & C & R & Hd & Hdom & Hs & Hget & _). exists c. split; [by apply Hget|].
    eapply copy_any_spec; [done|done|]. apply tget_height in Hq. lia.
  Qed.
  Lemma grown_shows w w' f B : inv w f -> grown w w' B -> all_show (w_heap w') (w_vars w') f (dom (w_heap w)).
  Proof. intros [Hh _] Hg. assert (w_vars w' = w_vars w) as -> by apply Hg. eapply all_show_frame; [exact Hh|]. by eapply grown_agree. Qed.

  Lemma copy_assign_ok n p q w f u t : inv w f -> tget f p = Some u -> tget f q = Some t -> lht f < n ->
    wp (copy_assign E n p q) w (fun _ w' => inv w' (tput f p t)) (fun w' => inv w' f).
  Proof.
    intros Hi Hu Hq Hn. unfold copy_assign. destruct (copy_at n q w f t Hi Hq Hn) as (c & Hg & Hc). eapply wp_step; [exact Hg|].
    apply wp_bind. eapply wp_mono; [exact Hc| |]. 2:{ intros w1. by apply inv_unchanged. }
    intros y w1 (Y & Hy & Hgr). pose proof (grown_shows _ _ _ _ Hi Hgr) as Hl1. pose proof (tget_height _ _ _ Hu) as Hht. pose proof (tget_height _ _ _ Hq) as Hhq.
    destruct (clear_place n w1 f _ p u Hl1 Hu ltac:(lia)) as (a & w2 & w3 & A & R & Hg1 & Hd1 & Hp1 & Hg3 & HAR & HdAR & Hd3 & Hn3 & Ht3 & Hl3 & Ho3).
    unfold assign_temporary. eapply wp_step; [exact Hg1|]. eapply wp_step; [exact Hd1|]. eapply wp_step; [exact Hp1|].
    destruct Hgr as (Hv & Hd & Hdom & Ha & Hf1 & Hnx).
    assert (Y ## A ∪ R) as HY by set_solver.
    assert (shows (w_heap w3) y t Y) as Hy3. { eapply shows_frame; [exact Hy|]. intros b Hb. symmetry. apply Ho3. set_solver. }
    destruct (move_value_spec _ _ _ _ Hy3) as (x & y' & X & O & Hmv & Hx & Hy' & HXO & ->). rewrite Hmv.
    pose proof (tget_tput p None f u Hu) as Hu3.
    destruct (fill_place w3 w3 (tput f p None) R p nothing ∅ x t X) as (w4 & Hp4 & (Ho41 & Ho42 & Ho43 & _) & Hl4 & _); try done.
    { constructor. } { set_solver. }
    assert (R ∖ ∅ = R) as HR by set_solver. rewrite HR in *. rewrite (tput_tput p None t f u Hu) in Hl4.
    eapply wp_step; [exact Hp4|]. eapply wp_eq.
    { eapply (destroy_any_spec E n y' None O); [|cbn; lia]. eapply shows_frame; [exact Hy'|]. intros b Hb. symmetry. apply Ho43. set_solver. }
    assert (dom (w_heap (without w4 O)) = X ∪ R) as Hdom4. { rewrite dom_without, Ho42, Hd3, Hdom, HAR. clear -HY HXO HdAR. set_solver. }
    split.
    - unfold holds. rewrite Hdom4. eapply all_show_frame; [exact Hl4|]. apply without_agree. set_solver.
    - eapply fresh_sub; [exact Hf1| |cbn; lia]. rewrite Hdom4, Hdom, HAR. set_solver.
  Qed.

  Lemma move_assign_ok n p q w f u t (Y : world -> Prop) : inv w f -> tget f p = Some u -> tget f q = Some t -> lht f < n -> p <> q -> ~ above p q -> ~ above q p ->
    wp (move_assign n p q) w (fun _ w' => inv w' (tput (tput f p t) q None) /\ w_next w' = w_next w /\ w_tick w' = w_tick w) Y.
  Proof.
    intros [Hh Hf] Hu Hq Hn Hne Hpq Hqp. unfold holds in Hh. unfold move_assign. rewrite bool_decide_false by done.
    pose proof (tget_height _ _ _ Hu) as Hht.
    destruct (clear_place n w f _ p u Hh Hu ltac:(lia)) as (a & w2 & w3 & A & R & Hg1 & Hd1 & Hp1 & Hg3 & HAR & HdAR & Hd3 & Hn3 & Ht3 & Hl3 & Ho3).
    eapply wp_step; [exact Hg1|]. eapply wp_step; [exact Hd1|]. eapply wp_step; [exact Hp1|].
    pose proof (tget_tput p None f u Hu) as Hu3. assert (tget (tput f p None) q = Some t) as Hq3 by (by rewrite (tget_tput_ne p q f None u)).
    destruct (focus_two E p q _ _ _ _ _ _ Hl3 Hu3 Hq3 Hpq Hqp) as (a0 & A0 & c & C & S & Hsa & Hsc & D1 & D2 & D3 & HR & Hgp & Hgq & Hput).
    assert (a0 = nothing) as ->. { unfold get in Hg3. rewrite Hgp in Hg3 by done. by injection Hg3. }
    apply shows_nothing in Hsa as [_ ->].
    eapply wp_step; [unfold get; by apply Hgq|].
    destruct (move_value_spec _ _ _ _ Hsc) as (x & o' & X & O & Hmv & Hx & Ho' & HXO & ->). rewrite Hmv.
    destruct (Hput w3 x t X) as (l4 & w4 & Hp4 & Ho4 & Hput4); [done|done|set_solver|].
    eapply wp_step. { unfold put, bindM. rewrite Hp4. done. }
    set (w5 := set_vars w4 l4).
    destruct (Hput4 w5 o' None O) as (l6 & w6 & Hp6 & Ho6 & Hl6); [done| |done|set_solver|].
    { eapply shows_frame; [exact Ho'|]. change (w_heap w5) with (w_heap w4). eapply only_agree; [exact Ho4|set_solver]. }
    eapply wp_eq. { unfold put, bindM. change (w_vars w5) with l4. rewrite Hp6. done. }
    destruct Ho4 as (_ & Hn4 & Ht4 & Hd4 & _). destruct Ho6 as (_ & Hn6 & Ht6 & Hd6 & _). cbn in Hn6, Hd6, Ht6.
    split; [|cbn; lia]. rewrite (tput_tput p None t f u Hu) in Hl6. split.
    - unfold holds. cbn. rewrite Hd6, Hd4, Hd3, HAR. replace ((A ∪ R) ∖ A) with (X ∪ O ∪ S); [exact Hl6|]. clear -HR HdAR. set_solver.
    - eapply fresh_sub; [exact Hf| |cbn; lia]. cbn. rewrite Hd6, Hd4, Hd3. set_solver.
  Qed.

  Lemma move_ctor_ok q w f t (Y : world -> Prop) : inv w f -> tget f q = Some t ->
    wp (move_ctor q) w (fun _ w' => inv w' (tput f q None ++ [t]) /\ w_next w' = w_next w /\ w_tick w' = w_tick w) Y.
  Proof.
    intros [Hh Hf] Hq. unfold holds in Hh. destruct (place _ _ _ _ _ Hh Hq) as (c & C & R & Hd & Hdom & Hs & Hget & Hput).
    unfold move_ctor. eapply wp_step; [by apply Hget|].
    destruct (move_value_spec _ _ _ _ Hs) as (x & o' & X & O & Hmv & Hx & Ho' & HXO & ->). rewrite Hmv.
    destruct (Hput w o' None O) as (w2 & Hp & (Ho1 & Ho2 & Ho3 & Ho4) & Hl & _); [done|done|done|set_solver|].
    eapply wp_step; [exact Hp|]. eapply wp_eq; [done|]. split; [|cbn; lia]. split.
    - unfold holds. cbn. rewrite Ho2, Hdom. replace (X ∪ O ∪ R) with ((O ∪ R) ∪ X) by set_solver. apply all_show_app; [done| |set_solver].
      apply all_show_one. eapply shows_frame; [exact Hx|]. intros b Hb. symmetry. apply Ho3. set_solver.
    - eapply fresh_sub; [exact Hf|cbn; by rewrite Ho2|cbn; lia].
  Qed.

  Lemma reset_ok n p w f u (Y : world -> Prop) : inv w f -> tget f p = Some u -> lht f < n ->
    wp (let! a := get p in destroy_any n a ;;; put p nothing) w (fun _ w' => inv w' (tput f p None) /\ w_next w' = w_next w /\ w_tick w' = w_tick w) Y.
  Proof.
    intros [Hh Hf] Hu Hn. unfold holds in Hh. pose proof (tget_height _ _ _ Hu) as Hht.
    destruct (clear_place n w f _ p u Hh Hu ltac:(lia)) as (a & w2 & w3 & A & R & Hg1 & Hd1 & Hp1 & Hg3 & HAR & HdAR & Hd3 & Hn3 & Ht3 & Hl3 & Ho3).
    eapply wp_step; [exact Hg1|]. eapply wp_step; [exact Hd1|]. eapply wp_eq; [exact Hp1|]. split; [|done]. split.
    - unfold holds. rewrite Hd3, HAR. replace ((A ∪ R) ∖ A) with R by set_solver. done.
    - eapply fresh_sub; [exact Hf|rewrite Hd3; set_solver|lia].
  Qed.

  (** the user's code changes the value of the any at [p]; [X]: memory that nobody owns yet *)
  Lemma change_ok p w f T v ts (gv : nat -> nat) (g : list any -> list any) ts' X (Y : world -> Prop) : all_show (w_heap w) (w_vars w) f (dom (w_heap w) ∖ X) -> X ⊆ dom (w_heap w) -> fresh w ->
    tget f p = Some (Some (Node T v ts)) ->
    (forall h cs C, agree X (w_heap w) h -> all_show h cs ts C -> C ## X -> all_show h (g cs) ts' (C ∪ X)) ->
    wp (let! a := get p in let! o := value a in match o with Obj T v cs => let! a' := set_value a (Obj T (gv v) (g cs)) in put p a' end) w
      (fun _ w' => inv w' (tput f p (Some (Node T (gv v) ts'))) /\ w_next w' = w_next w /\ w_tick w' = w_tick w) Y.
  Proof.
    intros Hl HX Hf Hp Hg. destruct (place _ _ _ _ _ Hl Hp) as (c & C & R & Hd & Hdom & Hs & Hget & Hput).
    eapply wp_step; [by apply Hget|]. destruct (shows_node _ _ _ _ _ _ _ Hs) as (cs & D & S & Hcs & HdS & -> & Hslot & Hv).
    eapply wp_step; [by apply Hv|].
    destruct (set_slot E w c T S (gv v) (g cs) Hslot) as (a' & w1 & Hset & Ho & _ & _ & Hsh). eapply wp_step; [exact Hset|].
    assert (X ## D ∪ S ∪ R) as HXd by set_solver.
    destruct (Hput w1 a' (Some (Node T (gv v) ts')) (D ∪ X ∪ S)) as (w2 & Hp2 & (Ho1 & Ho2 & _ & Ho4) & Hl2 & _).
    - apply Ho.
    - eapply only_agree; [exact Ho|set_solver].
    - apply Hsh; [done| |set_solver]. apply Hg; [eapply only_agree; [exact Ho|set_solver]| |set_solver].
      eapply all_show_frame; [exact Hcs|]. eapply only_agree; [exact Ho|set_solver].
    - set_solver.
    - eapply wp_eq; [exact Hp2|]. destruct Ho as (_ & Hn1 & Ht1 & Hd1 & _). split; [|lia]. split.
      + unfold holds. rewrite Ho2, Hd1. replace (dom (w_heap w)) with (D ∪ X ∪ S ∪ R); [done|].
        apply set_eq. intros b. assert (b ∈ dom (w_heap w) ∖ X <-> b ∈ D ∪ S ∪ R) as Hb by (by rewrite Hdom). clear -Hb HX. destruct (decide (b ∈ X)); set_solver.
      + eapply fresh_sub; [exact Hf|by rewrite Ho2, Hd1|lia].
  Qed.

  Lemma all_show_snoc h l f B t : all_show h l (f ++ [t]) B -> exists l0 a B0 A, l = l0 ++ [a] /\ B = B0 ∪ A /\ B0 ## A /\ all_show h l0 f B0 /\ shows h a t A.
  Proof.
    revert l B. induction f as [|u f IH]; intros l B H; cbn [app] in H; inversion H as [|a t' B1 cs ts C Hs Hl Hd]; subst.
    - inversion Hl; subst. exists [], a, ∅, B1. split; [done|]. split; [set_solver|]. split; [set_solver|]. split; [constructor|done].
    - destruct (IH _ _ Hl) as (l0 & b & B0 & A & -> & -> & Hd0 & Hl0 & Hb). exists (a :: l0), b, (B1 ∪ B0), A.
      split; [done|]. split; [set_solver|]. split; [set_solver|]. split; [constructor; [done|done|set_solver]|done].
  Qed.
  Lemma end_ok n w f t (Y : world -> Prop) : inv w (f ++ [t]) -> lht (f ++ [t]) < n ->
    wp (run E n OEnd) w (fun _ w' => inv w' f /\ w_next w' = w_next w /\ w_tick w' = w_tick w) Y.
  Proof.
    intros [Hh Hf] Hn. unfold holds in Hh. destruct (all_show_snoc _ _ _ _ _ Hh) as (l0 & a & B0 & A & Hl & Hdom & Hd & Hl0 & Ha).
    assert (oht t <= lht (f ++ [t])) as Hht. { eapply (lht_lookup _ (length f)). rewrite lookup_app_r, Nat.sub_diag by lia. done. }
    unfold wp, run. rewrite Hl, last_snoc. unfold bindM. rewrite (destroy_any_spec E n a t A w Ha) by lia. split; [|done]. split.
    - unfold holds. change (w_heap (set_vars ?x _)) with (w_heap x). change (w_vars (set_vars _ ?x)) with x. change (w_vars (without w A)) with (w_vars w).
      rewrite Hl, removelast_last, dom_without, Hdom. replace ((B0 ∪ A) ∖ A) with B0 by set_solver. eapply all_show_frame; [exact Hl0|]. apply without_agree. set_solver.
    - eapply fresh_sub; [exact Hf| |done]. change (w_heap (set_vars ?x _)) with (w_heap x). rewrite dom_without. set_solver.
  Qed.

  Theorem step_ok n o w f : inv w f -> legal f o -> lht f < n ->
    wp (run E n o) w (fun _ w' => exists f', tstep false o f = Some f' /\ inv w' f') (fun w' => exists f', tstep true o f = Some f' /\ inv w' f').
  Proof.
    intros Hi [Hl Hside] Hn. destruct o as [|T v qs|q|q|p q|p q|p T v qs|p|p q|p v|]; cbn [tstep] in *.
    - cbn [run]. eapply (declare_inv w w f nothing None ∅); [done|apply grown_same, Hi|constructor|]. intros w' Hi'. by eexists.
    - cbn [run]. destruct (tgets f qs) as [ts|] eqn:Hts; [|done]. apply wp_bind. eapply wp_mono; [by eapply emplace_in_empty_spec| |].
      + intros x w1 (X & Hx & Hg). eapply declare_inv; [done|done|done|]. intros w' Hi'. by eexists.
      + intros w1 Hu. eexists. split; [done|]. by eapply inv_unchanged.
    - cbn [run]. destruct (tget f q) as [t|] eqn:Hq; [|done]. destruct (copy_at n q w f t Hi Hq Hn) as (c & Hg & Hc). eapply wp_step; [exact Hg|].
      apply wp_bind. eapply wp_mono; [exact Hc| |].
      + intros x w1 (X & Hx & Hgr). eapply declare_inv; [done|done|done|]. intros w' Hi'. by eexists.
      + intros w1 Hu. eexists. split; [done|]. by eapply inv_unchanged.
    - cbn [run]. destruct (tget f q) as [t|] eqn:Hq; [|done]. eapply wp_mono; [by eapply move_ctor_ok| |].
      + intros _ w' [Hi' _]. by eexists.
      + intros w' HF. exact HF.
    - cbn [run]. destruct (tget f p) as [u|] eqn:Hp; [|done]. destruct (tget f q) as [t|] eqn:Hq; [|done].
      eapply wp_mono; [by eapply copy_assign_ok| |]; intros; by eexists.
    - cbn [run]. destruct (tget f p) as [u|] eqn:Hp; [|done]. destruct (tget f q) as [t|] eqn:Hq; [|done]. destruct (decide (p = q)) as [->|Hne].
      + unfold move_assign. rewrite !bool_decide_true by done. apply wp_ret. by eexists.
      + rewrite bool_decide_false by done. destruct Hside as [?|[Hpq Hqp]]; [done|]. eapply wp_mono; [by eapply move_assign_ok| |].
        * intros _ w' [Hi' _]. by eexists.
        * intros w' HF. exact HF.
    - cbn [run]. destruct (tget f p) as [u|] eqn:Hp; [|done]. destruct (tgets (tput f p None) qs) as [ts|] eqn:Hts; [|done].
      eapply wp_mono; [by eapply emplace_ok| |]; intros; by eexists.
    - cbn [run]. destruct (tget f p) as [u|] eqn:Hp; [|done]. eapply wp_mono; [by eapply reset_ok| |].
      + intros _ w' [Hi' _]. by eexists.
      + intros w' HF. exact HF.
    - cbn [run]. destruct (tget f p) as [[[T v cs]|]|] eqn:Hp; try done. destruct (tget f q) as [t|] eqn:Hq; [|done].
      apply wp_bind, may_throw_spec. 2:{ intros w1 Hu. eexists. split; [done|]. by eapply inv_unchanged. }
      intros w1 Hu1. assert (inv w1 f) as Hi1 by (by eapply inv_unchanged). destruct (copy_at n q w1 f t Hi1 Hq Hn) as (c & Hg & Hc).
      eapply wp_step; [exact Hg|]. apply wp_bind. eapply wp_mono; [exact Hc| |].
      2:{ intros w2 Hu. eexists. split; [done|]. by eapply inv_unchanged. }
      intros x w2 (X & Hx & Hgr). pose proof (grown_shows _ _ _ _ Hi1 Hgr) as Hl2. destruct Hgr as (_ & Hd2 & Hdom2 & _ & Hf2 & _).
      eapply wp_mono; [eapply (change_ok p w2 f T v cs (fun v => v) (fun cs => cs ++ [x]) (cs ++ [t]) X)| |].
      + replace (dom (w_heap w2) ∖ X) with (dom (w_heap w1)) by set_solver. done.
      + set_solver.
      + done.
      + done.
      + intros h l C Ha Hcs Hdc. apply all_show_app; [done| |done]. apply all_show_one. by eapply shows_frame.
      + intros _ w' [Hi' _]. by eexists.
      + intros w' HF. exact HF.
    - cbn [run]. destruct (tget f p) as [[[T v' cs]|]|] eqn:Hp; try done. destruct Hi as [Hh Hf].
      eapply wp_mono; [eapply (change_ok p w f T v' cs (fun _ => v) (fun cs => cs) cs ∅)| |].
      + replace (dom (w_heap w) ∖ ∅) with (dom (w_heap w)) by set_solver. done.
      + set_solver.
      + done.
      + done.
      + intros h l C _ Hcs _. by replace (C ∪ ∅) with C by set_solver.
      + intros _ w' [Hi' _]. by eexists.
      + intros w' HF. exact HF.
    - destruct f as [|t0 f0] using rev_ind; [done|]. eapply wp_mono; [by eapply end_ok| |].
      + intros _ w' [Hi' _]. exists f0. split; [|done]. rewrite removelast_last. by destruct f0.
      + intros w' HF. exact HF.
  Qed.


  (** ** Fuel: a run that ends with some fuel ends the same with more *)
  Definition more {A} (m m' : M A) : Prop := forall w, m w = OutOfFuel \/ m' w = m w.
  Lemma more_same {A} (m : M A) : more m m. Proof. by right. Qed.
  Lemma more_bind {A B} (m m' : M A) (k k' : A -> M B) : more m m' -> (forall a, more (k a) (k' a)) -> more (bindM m k) (bindM m' k').
  Proof. intros H Hk w. unfold bindM. destruct (H w) as [->| ->]; [by left|]. destruct (m w); try (by right). apply Hk. Qed.
  Lemma more_on_exn {A} (m m' : M A) (d d' : M unit) : more m m' -> more d d' -> more (on_exn m d) (on_exn m' d').
  Proof. intros H Hd w. unfold on_exn. destruct (H w) as [->| ->]; [by left|]. destruct (m w); try (by right). destruct (Hd w0) as [->| ->]; [by left|by right]. Qed.
  Lemma more_each (d d' : any -> M unit) cs : (forall a, more (d a) (d' a)) -> more (each d cs) (each d' cs).
  Proof. intros H. induction cs as [|c cs IH]; [apply more_same|]. cbn [each]. by apply more_bind. Qed.
  Lemma more_destroy_value (d d' : any -> M unit) a : (forall a, more (d a) (d' a)) -> more (destroy_value_with d a) (destroy_value_with d' a).
  Proof.
    intros H. destruct a as [[T|] p buf]; [|apply more_same]. cbn [destroy_value_with]. apply more_bind; [apply more_same|]. intros [T' v cs].
    apply more_bind; [by apply more_each|]. intros _. apply more_same.
  Qed.
  Lemma more_destroy n : forall m a, n <= m -> more (destroy_any n a) (destroy_any m a).
  Proof.
    induction n as [|n IH]; intros m a Hm; [by left|]. destruct m as [|m]; [lia|]. cbn [destroy_any]. apply more_bind; [|intros; apply more_same].
    apply more_destroy_value. intros b. apply IH. lia.
  Qed.
  Lemma more_copy_each (c c' : any -> M any) (d d' : any -> M unit) l : (forall a, more (c a) (c' a)) -> (forall a, more (d a) (d' a)) -> more (copy_each c d l) (copy_each c' d' l).
  Proof.
    intros Hc Hd. induction l as [|x l IH]; [apply more_same|]. cbn [copy_each]. apply more_bind; [done|]. intros y.
    apply more_bind; [by apply more_on_exn|]. intros ys. apply more_same.
  Qed.
  Lemma more_copy n : forall m a, n <= m -> more (copy_any E n a) (copy_any E m a).
  Proof.
    induction n as [|n IH]; intros m a Hm; [by left|]. destruct m as [|m]; [lia|]. cbn [copy_any]. destruct a as [[T|] p buf]; [|apply more_same].
    apply more_bind; [apply more_same|]. intros [T' v cs].
    assert (more (may_throw E ;;; let! cs' := copy_each (copy_any E n) (destroy_any n) cs in retM (Obj T v cs'))
      (may_throw E ;;; let! cs' := copy_each (copy_any E m) (destroy_any m) cs in retM (Obj T v cs'))) as H.
    { apply more_bind; [apply more_same|]. intros _. apply more_bind; [|intros; apply more_same].
      apply more_copy_each; intros b; [apply IH|apply more_destroy]; lia. }
    destruct (fits E T).
    - apply more_bind; [exact H|]. intros; apply more_same.
    - apply more_bind; [apply more_same|]. intros b. apply more_bind; [apply more_on_exn; [exact H|apply more_same]|]. intros; apply more_same.
  Qed.
  Lemma more_copies_of n m qs : n <= m -> more (copies_of E n qs) (copies_of E m qs).
  Proof.
    intros Hm. induction qs as [|q qs IH]; [apply more_same|]. cbn [copies_of]. apply more_bind; [apply more_same|]. intros a.
    apply more_bind; [by apply more_copy|]. intros y. apply more_bind; [apply more_on_exn; [done|by apply more_destroy]|]. intros; apply more_same.
  Qed.
  Lemma more_construct n m T v qs : n <= m -> more (construct E n T v qs) (construct E m T v qs).
  Proof. intros Hm. apply more_bind; [apply more_same|]. intros _. apply more_bind; [by apply more_copies_of|]. intros; apply more_same. Qed.
  Lemma more_in_empty n m T v qs : n <= m -> more (emplace_in_empty E n T v qs) (emplace_in_empty E m T v qs).
  Proof.
    intros Hm. unfold emplace_in_empty. destruct (fits E T).
    - apply more_bind; [by apply more_construct|]. intros; apply more_same.
    - apply more_bind; [apply more_same|]. intros b. apply more_bind; [apply more_on_exn; [by apply more_construct|apply more_same]|]. intros; apply more_same.
  Qed.
  Ltac more_tac Hm := repeat (apply more_bind; [first [apply more_same|by apply more_copy|by apply more_destroy|by apply more_in_empty|by apply more_construct]|]; intros);
    try first [apply more_same|by apply more_copy|by apply more_destroy].
  Lemma more_run n m o : n <= m -> more (run E n o) (run E m o).
  Proof.
    intros Hm. destruct o as [|T v qs|q|q|p q|p q|p T v qs|p|p q|p v|]; cbn [run]; try (by more_tac Hm).
    - unfold copy_assign. more_tac Hm. unfold assign_temporary. more_tac Hm. destruct (move_value _). more_tac Hm.
    - unfold move_assign. case_bool_decide; more_tac Hm.
    - unfold emplace. apply more_bind; [apply more_same|]. intros a. apply more_bind.
      { apply more_destroy_value. intros b. by apply more_destroy. }
      intros a'. apply more_bind; [apply more_same|]. intros _.
      assert (more (let! x := emplace_in_empty E n T v qs in put p x) (let! x := emplace_in_empty E m T v qs in put p x)) as H by more_tac Hm.
      destruct a' as [vt [|b k] buf]; [exact H|]. destruct (k <? e_size E T).
      + apply more_bind; [apply more_same|]. intros _. exact H.
      + more_tac Hm.
    - intros w. destruct (last (w_vars w)); [|by right]. apply more_bind; [by apply more_destroy|]. intros _. apply more_same.
  Qed.

  Theorem history_inv w f : history E w f -> inv w f.
  Proof.
    induction 1 as [|w f o n w' f' Hh IH Hl Hr Ht|w f o n w' f' Hh IH Hl Hr Ht].
    - split; [|by intros b]. unfold holds. cbn. rewrite dom_empty_L. constructor.
    - pose proof (step_ok (Nat.max n (S (lht f))) o w f IH Hl ltac:(lia)) as Hs. unfold wp in Hs.
      destruct (more_run n (Nat.max n (S (lht f))) o ltac:(lia) w) as [Hw|Hw]; [congruence|]. rewrite Hw, Hr in Hs. destruct Hs as (g & Hg & Hi). congruence.
    - pose proof (step_ok (Nat.max n (S (lht f))) o w f IH Hl ltac:(lia)) as Hs. unfold wp in Hs.
      destruct (more_run n (Nat.max n (S (lht f))) o ltac:(lia) w) as [Hw|Hw]; [congruence|]. rewrite Hw, Hr in Hs. destruct Hs as (g & Hg & Hi). congruence.
  Qed.

  Theorem history_step w f o : history E w f -> legal f o ->
    exists N, forall n, N <= n ->
      match run E n o w with
      | Ok _ w' => exists f', tstep false o f = Some f' /\ history E w' f' /\ holds E w' f'
      | Exn w' => exists f', tstep true o f = Some f' /\ history E w' f' /\ holds E w' f'
      | UB _ | OutOfFuel => False
      end.
  Proof.
    intros Hh Hl. exists (S (lht f)). intros n Hn. pose proof (step_ok n o w f (history_inv _ _ Hh) Hl Hn) as Hs. unfold wp in Hs.
    destruct (run E n o w) as [[] w'|w'| |] eqn:Hr; [| |done|done]; destruct Hs as (f' & Hf' & Hi); exists f'; (split; [done|]); (split; [|apply Hi]).
    - by eapply h_ok.
    - by eapply h_exn.
  Qed.
  Theorem history_no_leak w : history E w [] -> w_heap w = ∅.
  Proof. intros Hh. destruct (history_inv _ _ Hh) as [H _]. unfold holds in H. inversion H as [Hv Hd Hb|]. by apply dom_empty_inv_L. Qed.
  Theorem history_cheap w f o : history E w f -> legal f o ->
    match o with OMove _ | OMoveAssign _ _ | OReset _ | OEnd => True | _ => False end ->
    exists N, forall n, N <= n -> exists w', run E n o w = Ok tt w' /\ w_next w' = w_next w /\ w_tick w' = w_tick w.
  Proof.
    intros Hh [Hl Hside] Ho. exists (S (lht f)). intros n Hn. pose proof (history_inv _ _ Hh) as Hi.
    assert (wp (run E n o) w (fun _ w' => w_next w' = w_next w /\ w_tick w' = w_tick w) (fun _ => False)) as Hw.
    2:{ unfold wp in Hw. destruct (run E n o w) as [[] w'| | |]; try done. by exists w'. }
    destruct o; try done; cbn [tstep] in *.
    - destruct (tget f q) as [t|] eqn:Hq; [|done]. eapply wp_mono; [by eapply (move_ctor_ok q w f t (fun _ => False))| |done]. by intros _ w' [_ ?].
    - destruct (tget f p) as [u|] eqn:Hp; [|done]. destruct (tget f q) as [t|] eqn:Hq; [|done]. destruct (decide (p = q)) as [->|Hne].
      + cbn [run]. unfold move_assign. rewrite bool_decide_true by done. by apply wp_ret.
      + destruct Hside as [?|[Hpq Hqp]]; [done|]. eapply wp_mono; [by eapply (move_assign_ok n p q w f u t (fun _ => False))| |done]. by intros _ w' [_ ?].
    - destruct (tget f p) as [u|] eqn:Hp; [|done]. eapply wp_mono; [by eapply (reset_ok n p w f u (fun _ => False))| |done]. by intros _ w' [_ ?].
    - destruct f as [|t0 f0] using rev_ind; [done|]. eapply wp_mono; [by eapply (end_ok n w f0 t0 (fun _ => False))| |done]. by intros _ w' [_ ?].
  Qed.
End Env.
