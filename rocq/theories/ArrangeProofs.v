(** Algorithms that rearrange anys (C104). *)
From stdpp Require Import gmap list sorting.
From Verif Require Import TypeListModel TypeListSpec TypeListProofs AnyModel AnyInv AnySteps AnyLife AnyMove AnyAssign AnyHistory AnyExec AnyFacts AnyFacts2 PolyModel PolySpec PolyFacts PolyFacts2 VectorSpec VectorProofs KeyModel KeySpec ArrangeModel ArrangeSpec.

(** ** Anys as cells *)
Section Proofs.
  Context (E : env) (O : obs) (ms : list method) (Hwf : env_wf E) (HO : obs_wf O) (Hmv : movable_alloc E = true) (HK : arrangeable E ms).

  Lemma home_view w w' k : view w' k = view w k -> cell_of w' k = cell_of w k.
  Proof. intros H. unfold cell_of, home. by rewrite (view_content _ _ _ H), (view_address _ _ _ H). Qed.
  Lemma empty_home w k : Inv E w -> content w k = Some None -> cell_of w k = Some empty_cell.
  Proof.
    intros HI Hc. unfold cell_of. rewrite Hc. unfold empty_cell. do 2 f_equal. unfold home. destruct (address w k) as [p|] eqn:Ha; [|done].
    destruct (address_content E _ _ _ HI Ha) as (T & x & Hx). rewrite Hc in Hx. done.
  Qed.
  (** [i] took the value of [j] *)
  Lemma taken_cell w w' i j o a' : Inv E w -> Inv E w' -> w_any w !! j = Some o -> w_any w' !! i = Some a' -> content w' i = content w j ->
    (forall b, a_vp o = PHeap b -> a_vt o <> None -> a_vp a' = PHeap b) -> (a_vp o = PData j -> a_vt o <> None -> a_vp a' = PData i) ->
    cell_of w' i = cell_of w j.
  Proof.
    intros HI HI' Ho Ha Hc H1 H2. destruct (content w j) as [[[T x]|]|] eqn:Hcj.
    - unfold cell_of. rewrite Hc, Hcj. do 2 f_equal. destruct (content_vt _ _ _ _ _ Ho Hcj) as [v Hv]. destruct (content_vt _ _ _ _ _ Ha Hc) as [v' Hv'].
      unfold home, address. rewrite Ha, Ho, Hv, Hv'. destruct (a_vp o) as [d|b] eqn:Hp; [|by rewrite (H1 b eq_refl) by congruence].
      pose proof (inv_ok _ _ HI _ _ Ho) as [_ Hok]. rewrite Hp in Hok. destruct Hok as [-> _]. by rewrite H2 by congruence.
    - rewrite (empty_home w j HI Hcj). by apply empty_home.
    - exfalso. unfold content, view in Hcj. by rewrite Ho in Hcj.
  Qed.
  Lemma cell_any w k c : cell_of w k = Some c -> exists a, w_any w !! k = Some a /\ content w k = Some c.1.
  Proof.
    unfold cell_of. destruct (content w k) as [v|] eqn:Hc; [|done]. intros [= <-]. unfold content, view in Hc. destruct (w_any w !! k) as [a|]; [by exists a|done].
  Qed.
  Lemma cell_none w k : cell_of w k = None -> w_any w !! k = None.
  Proof. unfold cell_of, content, view. by destruct (w_any w !! k). Qed.
  Lemma none_cell w k : w_any w !! k = None -> cell_of w k = None.
  Proof. unfold cell_of, content, view. by intros ->. Qed.

  Lemma less_cells w i j c d : reachable E w -> has_any w i (fun a => a_ms a = ms) -> has_any w j (fun a => a_ms a = ms) ->
    content w i = Some c -> content w j = Some d -> comparable c d = true -> less O i j w = Ok (before O c d) w.
  Proof.
    intros Hr (a & Ha & Hm) (b & Hb & Hm') Hc Hd Hcd.
    destruct (cmp_any_fact E O w i j a b Hwf HO Hr Ha Hb) as (ci & cj & r & e & H1 & H2 & H3 & H4 & _); [rewrite Hm; apply HK|rewrite Hm'; apply HK| |].
    { destruct c as [c|]; [|by left]. right. destruct d as [d|]; [|done]. rewrite Hd. done. }
    unfold less. rewrite (bind_ok _ _ _ _ _ H3). unfold retM, before. rewrite H4. by replace ci with c by congruence; replace cj with d by congruence.
  Qed.

  Definition tracks (D : list nat) (w : world) (v : cells) : Prop := forall k, In k D -> cell_of w k = v k.

  Theorem arun_spec {A} (D : list nat) (p : aprog A) : forall w v x v', reachable E w -> one_class ms w D -> within D p -> tracks D w v ->
    vrun O p v = Some (x, v') ->
    exists w', arun E O p w = Ok x w' /\ reachable E w' /\ one_class ms w' D /\ tracks D w' v' /\ Quiet w w' /\ (forall k, ~ In k D -> view w' k = view w k).
  Proof.
    induction p as [y|i j k IH|i j k IH|i j k IH|i k IH]; intros w v x v' Hr Hcl Hin Htr Hv; cbn [arun vrun within] in *.
    - injection Hv as <- <-. by exists w.
    - destruct Hin as (Hi & Hj & Hin). destruct (v i) as [c|] eqn:Hvi; [|done]. destruct (v j) as [d|] eqn:Hvj; [|done].
      destruct (comparable c.1 d.1) eqn:Hcd; [|done]. rewrite <- (Htr i Hi) in Hvi. rewrite <- (Htr j Hj) in Hvj.
      destruct (cell_any _ _ _ Hvi) as (a & Ha & Hci). destruct (cell_any _ _ _ Hvj) as (b & Hb & Hcj).
      rewrite (bind_ok _ _ _ _ _ (less_cells w i j _ _ Hr (ex_intro _ a (conj Ha (Hcl _ _ Hi Ha))) (ex_intro _ b (conj Hb (Hcl _ _ Hj Hb))) Hci Hcj Hcd)).
      by apply (IH _ w v x v').
    - destruct Hin as (Hi & Hj & Hin). destruct (v i) as [c|] eqn:Hvi; [done|]. destruct (v j) as [d|] eqn:Hvj; [|done].
      rewrite <- (Htr i Hi) in Hvi. rewrite <- (Htr j Hj) in Hvj. apply cell_none in Hvi. destruct (cell_any _ _ _ Hvj) as (o & Ho & Hcj).
      pose proof (reachable_inv _ _ Hwf Hr) as HI. pose proof (Hcl _ _ Hj Ho) as Hms.
      assert (has_move E (a_ms o) = true) as Hm. { rewrite Hms. apply has_move_assign_has, HK. }
      pose proof (move_ctor_spec E w i j o Hwf HI Hvi Ho Hm) as H. unfold wp in H. unfold bindM at 1.
      destruct (move_ctor E i j w) as [[] w1|w1| |] eqn:Hrun; [|done..].
      destruct H as (I1 & F & Hc & Hc0 & Q & a' & o' & Ha' & Ho' & Hal & Hm1 & _ & Hm2 & Hhp & Hdt).
      assert (reachable E w1) as Hr1. { apply (reachable_outcome E w (OMove i j)); [done| | |by left]; [|done]. split; [done|]. by exists o. }
      assert (forall n, n <> i -> n <> j -> view w1 n = view w n) as V by (intros n N1 N2; apply (eff_view _ _ _ F); set_solver).
      assert (i <> j) as Hij by congruence.
      edestruct (IH w1) as (w' & Hw & Hr' & Hcl' & Htr' & Q' & V'); [exact Hr1| | | |exact Hv|].
      + intros n a Hn Ha. destruct (decide (n = i)) as [->|]; [congruence|]. destruct (decide (n = j)) as [->|]; [congruence|].
        apply (Hcl n a Hn). apply (view_any w1 w n a); [|done]. symmetry. by apply V.
      + done.
      + intros n Hn. unfold put. destruct (Nat.eqb_spec n i) as [->|]; [|destruct (Nat.eqb_spec n j) as [->|]].
        * rewrite <- Hvj. apply (taken_cell w w1 i j o a'); auto. intros b Hb1 Hb2. by apply Hhp.
        * by apply empty_home.
        * rewrite <- (Htr n Hn). by apply home_view, V.
      + exists w'. split; [done|]. split; [done|]. split; [done|]. split; [done|]. split; [by eapply quiet_trans|].
        intros n Hn. rewrite V' by done. apply V; intros ->; done.
    - destruct Hin as (Hi & Hj & Hin). destruct (v i) as [c|] eqn:Hvi; [|done]. destruct (v j) as [d|] eqn:Hvj; [|done].
      destruct (Nat.eqb_spec i j) as [->|Hij].
      { rewrite (bind_ok _ _ _ _ _ (move_assign_self E w j)). by apply (IH w v x v'). }
      rewrite <- (Htr i Hi) in Hvi. rewrite <- (Htr j Hj) in Hvj. destruct (cell_any _ _ _ Hvi) as (a & Ha & _). destruct (cell_any _ _ _ Hvj) as (o & Ho & Hcj).
      pose proof (reachable_inv _ _ Hwf Hr) as HI. pose proof (Hcl _ _ Hi Ha) as Hma. pose proof (Hcl _ _ Hj Ho) as Hms. destruct HK as [Hm _].
      assert (e_always_eq E = true \/ e_pocma E = true) as Hae by by apply orb_prop.
      assert (compat E a o = true) as Hcm. { unfold compat. destruct Hae as [->| ->]; [done|]. by rewrite orb_true_r. }
      pose proof (move_assign_spec E w i j a o Hwf HI Hij Ha Ho) as H. rewrite Hma, Hms in H. specialize (H eq_refl Hm ltac:(congruence)).
      unfold wp in H. unfold bindM at 1.
      destruct (move_assign E i j w) as [[] w1|w1| |] eqn:Hrun; [|destruct H; congruence|done|destruct H; congruence].
      destruct H as (I1 & F & Hc & Hc0 & a' & o' & Ha' & Ho' & _ & Hm1 & _ & Hm2 & Hq & Hb). destruct (Hq Hcm) as [Q Hhp].
      assert (reachable E w1) as Hr1.
      { apply (reachable_outcome E w (OMoveAssign i j)); [done| | |by left].
        - exists a. split; [done|]. exists o. by rewrite Hma, Hms.
        - exists a. split; [done|]. exists o. split; [done|]. by right; right; left. }
      assert (forall n, n <> i -> n <> j -> view w1 n = view w n) as V by (intros n N1 N2; apply (eff_view _ _ _ F); set_solver).
      edestruct (IH w1) as (w' & Hw & Hr' & Hcl' & Htr' & Q' & V'); [exact Hr1| | | |exact Hv|].
      + intros n b Hn Hb'. destruct (decide (n = i)) as [->|]; [congruence|]. destruct (decide (n = j)) as [->|]; [congruence|].
        apply (Hcl n b Hn). apply (view_any w1 w n b); [|done]. symmetry. by apply V.
      + done.
      + intros n Hn. unfold put. destruct (Nat.eqb_spec n i) as [->|]; [|destruct (Nat.eqb_spec n j) as [->|]].
        * rewrite <- Hvj. apply (taken_cell w w1 i j o a'); auto; [intros b Hb1 Hb2; by apply Hhp|intros H1 H2; by apply Hb].
        * by apply empty_home.
        * rewrite <- (Htr n Hn). by apply home_view, V.
      + exists w'. split; [done|]. split; [done|]. split; [done|]. split; [done|]. split; [by eapply quiet_trans|].
        intros n Hn. rewrite V' by done. apply V; intros ->; done.
    - destruct Hin as (Hi & Hin). destruct (v i) as [c|] eqn:Hvi; [|done]. rewrite <- (Htr i Hi) in Hvi. destruct (cell_any _ _ _ Hvi) as (a & Ha & _).
      destruct (dtor_step E ms Hwf w i Hr) as (w1 & H1 & Hr1 & Q & Hn1 & V); [exists a; split; [done|by apply (Hcl i)]|].
      rewrite (bind_ok _ _ _ _ _ H1).
      edestruct (IH w1) as (w' & Hw & Hr' & Hcl' & Htr' & Q' & V'); [exact Hr1| | | |exact Hv|].
      + intros n b Hn Hb. destruct (decide (n = i)) as [->|]; [congruence|]. apply (Hcl n b Hn). apply (view_any w1 w n b); [|done]. symmetry. by apply V.
      + done.
      + intros n Hn. unfold put. destruct (Nat.eqb_spec n i) as [->|]; [by apply none_cell|]. rewrite <- (Htr n Hn). by apply home_view, V.
      + exists w'. split; [done|]. split; [done|]. split; [done|]. split; [done|]. split; [by eapply quiet_trans|].
        intros n Hn. rewrite V' by done. apply V. intros ->; done.
  Qed.
End Proofs.

(** ** Values are not duplicated *)
Lemma put_same v i c : put v i c i = c.
Proof. unfold put. by rewrite Nat.eqb_refl. Qed.
Lemma put_other v i c k : k <> i -> put v i c k = v k.
Proof. unfold put. by destruct (Nat.eqb_spec k i). Qed.
Lemma held_perm v D D' : D ≡ₚ D' -> held v D ≡ₚ held v D'.
Proof. intros H. unfold held. by rewrite H. Qed.
Lemma held_ext v v' D : (forall k, In k D -> v' k = v k) -> held v' D = held v D.
Proof.
  intros H. unfold held. induction D as [|d D IH]; [done|]. cbn. rewrite (H d (or_introl eq_refl)). rewrite IH; [done|]. intros k Hk. apply H. by right.
Qed.
Lemma held_cons v d D : held v (d :: D) = held v [d] ++ held v D.
Proof. unfold held. cbn. destruct (v d) as [[[x|] h]|]; done. Qed.
Lemma split_one (D : list nat) i : NoDup D -> In i D -> exists R, D ≡ₚ i :: R /\ ~ In i R.
Proof.
  intros Hn Hi. rewrite <- elem_of_list_In in Hi. destruct (elem_of_Permutation D i) as [H _]. destruct (H Hi) as [R HR]. exists R. split; [done|].
  rewrite HR in Hn. apply NoDup_cons in Hn as [Hn _]. by rewrite <- elem_of_list_In.
Qed.
Lemma split_two (D : list nat) i j : NoDup D -> In i D -> In j D -> i <> j -> exists R, D ≡ₚ i :: j :: R /\ ~ In i R /\ ~ In j R.
Proof.
  intros Hn Hi Hj Hij. destruct (split_one D i Hn Hi) as (R & HR & Hni). rewrite HR in Hn. apply NoDup_cons in Hn as [_ Hn].
  assert (In j R) as Hj'. { rewrite <- elem_of_list_In in *. rewrite HR in Hj. apply elem_of_cons in Hj as [->|]; done. }
  destruct (split_one R j Hn Hj') as (R' & HR' & Hnj). exists R'. split; [by rewrite HR, HR'|]. split; [|done].
  rewrite <- elem_of_list_In in *. rewrite HR' in Hni. set_solver.
Qed.
Lemma sub_perm (l l' m m' : list cell) : l ≡ₚ l' -> m ≡ₚ m' -> l' ⊆+ m -> l ⊆+ m'.
Proof. intros H1 H2 H. etrans; [by apply Permutation_submseteq|]. etrans; [exact H|]. by apply Permutation_submseteq. Qed.
Lemma held_move v i j c D : NoDup D -> In i D -> In j D -> i <> j -> v j = Some c ->
  held (put (put v j (Some empty_cell)) i (Some c)) D ⊆+ held v D.
Proof.
  intros Hn Hi Hj Hij Hc. destruct (split_two D i j Hn Hi Hj Hij) as (R & HR & Hni & Hnj). set (v' := put (put v j (Some empty_cell)) i (Some c)).
  apply (sub_perm _ (held v' (i :: j :: R)) (held v (i :: j :: R)) _); [by apply held_perm|by symmetry; apply held_perm|].
  rewrite (held_cons v' i), (held_cons v' j), (held_cons v i), (held_cons v j).
  assert (held v' R = held v R) as ->. { apply held_ext. intros k Hk. unfold v'. rewrite put_other by congruence. apply put_other. congruence. }
  assert (held v' [j] = []) as ->. { unfold held, v'. cbn. by rewrite put_other, put_same by congruence. }
  assert (held v' [i] = held v [j]) as ->. { unfold held, v'. cbn. by rewrite put_same, Hc. }
  apply submseteq_inserts_l. done.
Qed.
Theorem held_program {A} O (p : aprog A) : forall D v x v', NoDup D -> within D p -> vrun O p v = Some (x, v') -> held v' D ⊆+ held v D.
Proof.
  induction p as [y|i j k IH|i j k IH|i j k IH|i k IH]; intros D v x v' Hn Hin Hv; cbn [vrun within] in *.
  - by injection Hv as <- <-.
  - destruct (v i) as [c|]; [|done]. destruct (v j) as [d|]; [|done]. destruct (comparable c.1 d.1); [|done]. eapply IH; [done|apply Hin|done].
  - destruct Hin as (Hi & Hj & Hin). destruct (v i) as [c|] eqn:Hvi; [done|]. destruct (v j) as [d|] eqn:Hvj; [|done].
    etrans; [by eapply IH|]. apply held_move; congruence.
  - destruct Hin as (Hi & Hj & Hin). destruct (v i) as [c|] eqn:Hvi; [|done]. destruct (v j) as [d|] eqn:Hvj; [|done].
    destruct (Nat.eqb_spec i j) as [->|Hij]; [by eapply IH|]. etrans; [by eapply IH|]. by apply held_move.
  - destruct Hin as (Hi & Hin). destruct (v i) as [c|] eqn:Hvi; [|done]. etrans; [by eapply IH|].
    destruct (split_one D i Hn Hi) as (R & HR & Hni). apply (sub_perm _ (held (put v i None) (i :: R)) (held v (i :: R)) _); [by apply held_perm|by symmetry; apply held_perm|].
    rewrite (held_cons (put v i None) i), (held_cons v i).
    assert (held (put v i None) R = held v R) as ->. { apply held_ext. intros n Hk. apply put_other. congruence. }
    assert (held (put v i None) [i] = []) as ->. { unfold held. cbn. by rewrite put_same. }
    apply submseteq_inserts_l. done.
Qed.

(** ** Sorting *)
Lemma vrun_bind {A B} O (p : aprog A) : forall (f : A -> aprog B) v x v', vrun O p v = Some (x, v') -> vrun O (abind p f) v = vrun O (f x) v'.
Proof.
  induction p as [y|i j k IH|i j k IH|i j k IH|i k IH]; intros f v x v' Hv; cbn [vrun abind] in *.
  - by injection Hv as <- <-.
  - destruct (v i); [|done]. destruct (v j); [|done]. destruct (comparable _ _); [|done]. by eapply IH.
  - destruct (v i); [done|]. destruct (v j); [|done]. by eapply IH.
  - destruct (v i); [|done]. destruct (v j); [|done]. destruct (i =? j); by eapply IH.
  - destruct (v i); [|done]. by eapply IH.
Qed.
Lemma within_bind {A B} D (p : aprog A) (f : A -> aprog B) : within D p -> (forall x, within D (f x)) -> within D (abind p f).
Proof. intros H Hf. induction p; cbn in *; [apply Hf|..]; destruct_and?; repeat split; eauto. Qed.
Lemma within_mono {A} D D' (p : aprog A) : (forall k, In k D -> In k D') -> within D p -> within D' p.
Proof. intros HD H. induction p; cbn in *; [done|..]; destruct_and?; repeat split; eauto. Qed.
Lemma within_hole prev : forall t x, within (t :: x :: prev) (a_hole t x prev).
Proof.
  induction prev as [|y tl IH]; intros t x; cbn; [tauto|]. split; [tauto|]. split; [tauto|]. intros []; cbn; [|tauto]. split; [tauto|]. split; [tauto|].
  eapply within_mono, IH. intros k. cbn. tauto.
Qed.
Lemma within_sort t l : forall prev, within (t :: prev ++ l) (a_sort t prev l).
Proof.
  induction l as [|x tl IH]; intros prev; cbn [a_sort]; [done|]. apply within_bind.
  - cbn. split; [tauto|]. split; [right; apply in_or_app; right; by left|]. apply within_bind; [|cbn; tauto].
    eapply within_mono, within_hole. intros k. cbn. rewrite in_app_iff. cbn. tauto.
  - intros _. eapply within_mono, IH. intros k. cbn. rewrite !in_app_iff. cbn. tauto.
Qed.

Section Insert.
  Context (O : obs).
  (** [c] goes down a list, the last element first *)
  Fixpoint ins (c : cell) (l : list cell) : list cell :=
    match l with [] => [c] | d :: tl => if before O c.1 d.1 then d :: ins c tl else c :: d :: tl end.
  Definition full (c : cell) : Prop := c.1 <> None.

  Lemma hole_spec prev : forall t x v c C, NoDup (t :: x :: prev) -> v t = Some c -> v x = Some empty_cell -> map v prev = map Some C ->
    full c -> Forall full C ->
    exists v', vrun O (a_hole t x prev) v = Some (tt, v') /\ v' t = Some empty_cell /\ map v' (x :: prev) = map Some (ins c C) /\
      (forall k, ~ In k (t :: x :: prev) -> v' k = v k).
  Proof.
    induction prev as [|y tl IH]; intros t x v c C Hnd Ht Hx Hp Hc HC; cbn [a_hole vrun].
    - destruct C; [|done]. rewrite Hx, Ht. apply NoDup_cons in Hnd as [Htx _]. assert (x <> t) as Hxt by (intros ->; apply Htx; left).
      destruct (Nat.eqb_spec x t); [done|]. eexists. split; [done|]. split; [by rewrite put_other, put_same|]. split; [cbn; by rewrite put_same|].
      intros k Hk. cbn in Hk. rewrite !put_other; [done| |]; intros ->; tauto.
    - destruct C as [|d C]; [done|]. cbn in Hp. injection Hp as Hy Hp. inversion HC as [|? ? Hd HC']; subst.
      assert (x <> t /\ y <> t /\ x <> y /\ ~ In t tl /\ ~ In x tl /\ NoDup (t :: y :: tl)) as (Hxt & Hyt & Hxy & Htl & Hxl & Hnd').
      { rewrite <- !elem_of_list_In. rewrite !NoDup_cons, !not_elem_of_cons in *. destruct_and!. repeat split; try done; by intros ->. }
      rewrite Ht, Hy. assert (comparable c.1 d.1 = true) as ->. { unfold full in *. destruct c as [[] ?], d as [[] ?]; done. }
      cbn [ins]. destruct (before O c.1 d.1); cbn [vrun].
      + rewrite Hx, Hy. destruct (Nat.eqb_spec x y); [done|].
        destruct (IH t y (put (put v y (Some empty_cell)) x (Some d)) c C) as (v' & Hv & Ht' & Hm & Ho); [done|by rewrite !put_other by congruence|by rewrite put_other, put_same by congruence| |done|done|].
        { rewrite <- Hp. apply map_ext_in. intros k Hk. rewrite put_other by congruence. apply put_other. intros ->. apply NoDup_cons in Hnd' as [_ Hnd'].
          apply NoDup_cons in Hnd' as [Hnd' _]. by rewrite elem_of_list_In in Hnd'. }
        exists v'. split; [done|]. split; [done|]. split.
        * cbn [map]. cbn [map] in Hm. rewrite Hm. f_equal. rewrite Ho by (cbn; intuition congruence). by rewrite put_same.
        * intros k Hk. cbn in Hk. rewrite Ho by (cbn; tauto). rewrite !put_other; [done| |]; intros ->; tauto.
      + rewrite Hx, Ht. destruct (Nat.eqb_spec x t); [done|]. eexists. split; [done|]. split; [by rewrite put_other, put_same by congruence|]. split.
        * cbn. rewrite put_same, !put_other, Hy by congruence. do 2 f_equal. rewrite <- Hp. apply map_ext_in. intros k Hk. rewrite !put_other; [done|congruence|congruence].
        * intros k Hk. cbn in Hk. rewrite !put_other; [done| |]; intros ->; tauto.
  Qed.
  Lemma ins_perm c C : ins c C ≡ₚ c :: C.
  Proof. induction C as [|d C IH]; [done|]. cbn. destruct (before O c.1 d.1); [|done]. rewrite IH. apply Permutation_swap. Qed.
  Lemma ins_full c C : full c -> Forall full C -> Forall full (ins c C).
  Proof. intros. rewrite ins_perm. by constructor. Qed.
  Lemma sort_spec l : forall t prev v C K, NoDup (t :: prev ++ l) -> v t = None -> map v prev = map Some C -> map v l = map Some K -> Forall full C -> Forall full K ->
    exists v', vrun O (a_sort t prev l) v = Some (tt, v') /\ v' t = None /\ map v' (rev l ++ prev) = map Some (fold_left (fun D c => ins c D) K C) /\
      (forall k, ~ In k (t :: prev ++ l) -> v' k = v k).
  Proof.
    induction l as [|x tl IH]; intros t prev v C K Hnd Ht Hp Hl HC HK; cbn [a_sort].
    - destruct K; [|done]. by exists v.
    - destruct K as [|c K]; [done|]. cbn in Hl. injection Hl as Hx Hl. inversion HK as [|? ? Hc HK']; subst.
      assert (x ∉ prev /\ x <> t /\ x ∉ tl /\ t ∉ tl /\ NoDup (t :: x :: prev) /\ NoDup (t :: (x :: prev) ++ tl)) as (N1 & N2 & N3 & N4 & N5 & N6).
      { apply NoDup_cons in Hnd as [H1 H2]. apply NoDup_app in H2 as (H2 & H3 & H4). apply NoDup_cons in H4 as [H4 H5].
        rewrite not_elem_of_app, not_elem_of_cons in H1. assert (x ∉ prev) as H6 by (intros Hk; apply (H3 x Hk); left).
        split; [done|]. split; [intros ->; tauto|]. split; [done|]. split; [tauto|].
        split; [constructor; [rewrite not_elem_of_cons; tauto|by constructor]|]. constructor.
        - rewrite elem_of_app, elem_of_cons. tauto.
        - cbn. constructor; [rewrite elem_of_app; tauto|]. apply NoDup_app. split; [done|]. split; [|done]. intros k Hk1 Hk2. apply (H3 k Hk1). by right. }
      rewrite elem_of_list_In in N1, N3, N4.
      destruct (hole_spec prev t x (put (put v x (Some empty_cell)) t (Some c)) c C) as (v1 & Hv1 & Ht1 & Hm1 & Ho1); [done|by rewrite put_same|by rewrite put_other, put_same by congruence| |done|done|].
      { rewrite <- Hp. apply map_ext_in. intros k Hk. rewrite put_other. 2:{ intros ->. apply NoDup_cons in N5 as [N5 _]. apply N5. rewrite elem_of_list_In. by right. } apply put_other. congruence. }
      assert (vrun O (a_insert t x prev) v = Some (tt, put v1 t None)) as Hi.
      { unfold a_insert. cbn [vrun]. rewrite Ht, Hx. rewrite (vrun_bind _ _ _ _ _ _ Hv1). cbn. by rewrite Ht1. }
      rewrite (vrun_bind _ _ _ _ _ _ Hi).
      assert (forall k, k <> t -> put v1 t None k = v1 k) as Hpt by (intros; by apply put_other).
      assert (forall k, In k (x :: prev) -> k <> t) as Hkt. { intros k Hk ->. apply NoDup_cons in N5 as [N5 _]. apply N5. by rewrite elem_of_list_In. }
      destruct (IH t (x :: prev) (put v1 t None) (ins c C) K) as (v' & Hv & Ht' & Hm & Ho); [done|by rewrite put_same| | |by apply ins_full|done|].
      { rewrite <- Hm1. apply map_ext_in. intros k Hk. by apply Hpt, Hkt. }
      { rewrite <- Hl. apply map_ext_in. intros k Hk. assert (k <> t) by congruence. rewrite Hpt by done. rewrite Ho1.
        - rewrite put_other by done. apply put_other. congruence.
        - cbn. intros [?|[?|?]]; [congruence|congruence|]. apply NoDup_cons in N6 as [_ N6]. apply NoDup_app in N6 as (_ & N6 & _). apply (N6 k); rewrite elem_of_list_In; [by right|done]. }
      exists v'. split; [done|]. split; [done|]. split; [cbn; by rewrite <- app_assoc|].
      intros k Hk. cbn in Hk. rewrite in_app_iff in Hk. cbn in Hk. rewrite Ho by (cbn; rewrite in_app_iff; tauto). rewrite Hpt by (intros ->; tauto).
      rewrite Ho1 by (cbn; tauto). rewrite !put_other; [done| |]; intros ->; tauto.
  Qed.

  (** the order *)
  Context (T : nat) (HW : weakly_ordered O T).
  Definition of_type (c : cell) : Prop := exists x h, c = (Some (T, x), h).
  Definition val (c : cell) : nat := match c.1 with Some (_, x) => x | None => 0 end.
  Lemma before_val c d : of_type c -> of_type d -> before O c.1 d.1 = true <-> ob_cmp O T (val c) (val d) = Some Lt.
  Proof.
    intros (x & h & ->) (y & h' & ->). unfold before, val. cbn. rewrite decide_True by done. destruct (ob_cmp O T x y) as [[]|]; done.
  Qed.
  Notation down := (StronglySorted (fun a b => ob_cmp O T a b <> Some Lt)).
  Lemma ins_down c C : of_type c -> Forall of_type C -> down (map val C) -> down (map val (ins c C)).
  Proof.
    intros Hc. induction C as [|d C IH]; intros HC HS; cbn; [by repeat constructor|].
    inversion HC as [|? ? Hd HC']; subst. cbn in HS. apply StronglySorted_inv in HS as [HS Hall].
    destruct (before O c.1 d.1) eqn:Hb; cbn.
    - constructor; [by apply IH|]. apply (before_val c d Hc Hd) in Hb. rewrite Forall_forall in Hall |- *. intros z Hz. apply elem_of_list_fmap in Hz as (e & -> & He).
      rewrite ins_perm in He. apply elem_of_cons in He as [->|He].
      + intros H. apply (o_irrefl O T HW (val c)). by apply (o_trans O T HW _ (val d)).
      + apply Hall. by apply elem_of_list_fmap_1.
    - assert (ob_cmp O T (val c) (val d) <> Some Lt) as Hn. { rewrite <- (before_val c d Hc Hd). by rewrite Hb. }
      constructor; [by constructor|]. constructor; [done|]. rewrite Forall_forall in Hall |- *. intros z Hz. by apply (o_neg_trans O T HW _ (val d)); [|apply Hall].
  Qed.
  Lemma ins_rank z c C : of_type c -> Forall of_type C -> List.filter (same_rank O T z) (map val (ins c C)) = List.filter (same_rank O T z) (map val (c :: C)).
  Proof.
    intros Hc. induction C as [|d C IH]; intros HC; [done|]. inversion HC as [|? ? Hd HC']; subst. cbn [ins]. destruct (before O c.1 d.1) eqn:Hb; [|done].
    apply (before_val c d Hc Hd) in Hb. change (map val (d :: ins c C)) with (val d :: map val (ins c C)).
    change (map val (c :: d :: C)) with (val c :: val d :: map val C).
    assert (same_rank O T z (val c) && same_rank O T z (val d) = false) as Hr.
    { apply not_true_is_false. intros H. apply andb_prop in H as [H1 H2]. unfold same_rank in H1, H2.
      assert (ob_cmp O T z (val d) <> Some Lt) as Hzd by (destruct (ob_cmp O T z (val d)) as [[]|]; done).
      assert (ob_cmp O T (val c) z <> Some Lt) as Hcz by (destruct (ob_cmp O T z (val c)) as [[]|], (ob_cmp O T (val c) z) as [[]|]; done).
      by apply (o_neg_trans O T HW (val c) z (val d)). }
    simpl List.filter. specialize (IH HC'). simpl List.filter in IH. rewrite IH. destruct (same_rank O T z (val c)), (same_rank O T z (val d)); done.
  Qed.
  Lemma fold_spec K : forall C, Forall of_type C -> Forall of_type K -> down (map val C) ->
    let R := fold_left (fun D c => ins c D) K C in
    Forall of_type R /\ down (map val R) /\ R ≡ₚ rev K ++ C /\ forall z, List.filter (same_rank O T z) (map val R) = List.filter (same_rank O T z) (map val (rev K ++ C)).
  Proof.
    induction K as [|c K IH]; intros C HC HK HS; cbn zeta; [done|]. inversion HK as [|? ? Hc HK']; subst. cbn.
    destruct (IH (ins c C)) as (H1 & H2 & H3 & H4); [rewrite ins_perm; by constructor|done|by apply ins_down|].
    split; [done|]. split; [done|]. split; [rewrite H3, ins_perm; by rewrite <- app_assoc|].
    intros z. rewrite H4. rewrite <- app_assoc. cbn. rewrite !map_app, !List.filter_app. f_equal. by apply ins_rank.
  Qed.
End Insert.

(** ** Reversing *)
Lemma swap_cells O i j t v c d : NoDup [i; j; t] -> v t = None -> v i = Some c -> v j = Some d ->
  exists v', vrun O (a_swap i j t) v = Some (tt, v') /\ v' t = None /\ v' i = Some d /\ v' j = Some c /\ (forall k, k <> i -> k <> j -> k <> t -> v' k = v k).
Proof.
  intros Hn Ht Hi Hj. rewrite !NoDup_cons, !not_elem_of_cons in Hn. assert (i <> j /\ i <> t /\ j <> t) as (N1 & N2 & N3) by tauto.
  unfold a_swap. cbn [vrun]. rewrite Ht, Hi.
  rewrite (put_other _ t _ i), put_same, (put_other _ t _ j), (put_other _ i _ j), Hj by congruence.
  destruct (Nat.eqb_spec i j); [done|]. rewrite (put_other _ i _ j), put_same, (put_other _ i _ t), (put_other _ j _ t), put_same by congruence.
  destruct (Nat.eqb_spec j t); [done|]. rewrite (put_other _ j _ t), put_same by congruence.
  eexists. split; [done|]. split; [by rewrite put_same|].
  split; [by rewrite (put_other _ t), (put_other _ j), (put_other _ t), put_same by congruence|].
  split; [by rewrite (put_other _ t), put_same by congruence|].
  intros k H1 H2 H3. by rewrite !put_other by congruence.
Qed.
Lemma ends {A} (y : A) tl : y :: tl = removelast (y :: tl) ++ [List.last (y :: tl) y].
Proof. by apply app_removelast_last. Qed.
Lemma within_reverse n : forall t l, within (t :: l) (a_reverse_n n t l).
Proof.
  induction n as [|n IH]; intros t l; [done|]. destruct l as [|x [|y tl]]; [done|done|]. cbn [a_reverse_n]. apply within_bind.
  - assert (In (List.last (y :: tl) y) (t :: x :: y :: tl)) as H. { rewrite (ends y tl) at 2. right; right. apply in_or_app. right. by left. }
    cbn [a_swap within]. repeat split; cbn in *; tauto.
  - intros _. eapply within_mono, IH. intros k [->|Hk]; [by left|]. right; right. rewrite (ends y tl). apply in_or_app. by left.
Qed.
Lemma reverse_spec O n : forall t l v C, length l <= n -> NoDup (t :: l) -> v t = None -> map v l = map Some C ->
  exists v', vrun O (a_reverse_n n t l) v = Some (tt, v') /\ v' t = None /\ map v' l = map Some (rev C) /\ (forall k, ~ In k (t :: l) -> v' k = v k).
Proof.
  assert (forall (t : nat) (v : cells) C l, length l <= 1 -> v t = None -> map v l = map Some C ->
    exists v', Some (tt, v) = Some (tt, v') /\ v' t = None /\ map v' l = map Some (rev C) /\ (forall k, ~ In k (t :: l) -> v' k = v k)) as Hsmall.
  { intros t v C l Hlen Ht Hl. exists v. split; [done|]. split; [done|]. split; [|done]. rewrite Hl.
    assert (length C <= 1) as Hlc by (apply (f_equal length) in Hl; rewrite !map_length in Hl; lia). destruct C as [|? [|? ?]]; [done|done|cbn in Hlc; lia]. }
  induction n as [|n IH]; intros t l v C Hlen Hnd Ht Hl; [apply Hsmall; [lia|done..]|].
  destruct l as [|x [|y tl]]; [apply Hsmall; [cbn; lia|done..]|apply Hsmall; [cbn; lia|done..]|]. clear Hsmall.
  cbn [a_reverse_n]. pose proof (ends y tl) as He. set (m := removelast (y :: tl)) in *. set (z := List.last (y :: tl) y) in *. clearbody m z.
  destruct C as [|c C]; [done|]. rewrite He in Hl, Hlen, Hnd |- *. cbn [map] in Hl. injection Hl as Hx Hl. rewrite map_app in Hl. cbn in Hl.
  destruct (exists_last (l := C)) as (C' & d & ->); [intros ->; cbn in Hl; symmetry in Hl; by apply app_cons_not_nil in Hl|].
  rewrite map_app in Hl. cbn in Hl. apply app_inj_tail in Hl as [Hm Hz].
  assert (x ∉ m /\ x <> z /\ z ∉ m /\ t ∉ m /\ t <> x /\ t <> z /\ NoDup m) as (N1 & N2 & N3 & N4 & N5 & N6 & N7).
  { rewrite !NoDup_cons, NoDup_app, NoDup_cons, not_elem_of_cons, !not_elem_of_app, !not_elem_of_cons in Hnd. destruct Hnd as (H1 & H2 & H3 & H4 & _).
    assert (z ∉ m) as Hzm by (intros Hk; apply (H4 z Hk); left). destruct_and!. repeat split; try done; by intros ->. }
  rewrite elem_of_list_In in N1, N3, N4.
  destruct (swap_cells O x z t v c d) as (v1 & Hv1 & Ht1 & Hx1 & Hz1 & Ho1); [|done|done|done|].
  { rewrite !NoDup_cons, !not_elem_of_cons. pose proof (not_elem_of_nil x). pose proof (not_elem_of_nil z). pose proof (not_elem_of_nil t). pose proof (NoDup_nil_2 (A := nat)).
    intuition congruence. }
  rewrite (vrun_bind _ _ _ _ _ _ Hv1).
  destruct (IH t m v1 C') as (v' & Hv & Ht' & Hm' & Ho); [rewrite (cons_length x), app_length in Hlen; cbn [length] in Hlen; lia|by constructor; [rewrite elem_of_list_In|]|done| |].
  { rewrite <- Hm. apply map_ext_in. intros k Hk. apply Ho1; congruence. }
  exists v'. split; [done|]. split; [done|]. split.
  - cbn. rewrite rev_app_distr. cbn. rewrite !map_app, Hm'. cbn. rewrite (Ho x), (Ho z), Hx1, Hz1; [done|cbn; intuition congruence|cbn; intuition congruence].
  - intros k Hk. cbn in Hk. rewrite in_app_iff in Hk. cbn in Hk. rewrite Ho by (cbn; tauto). apply Ho1; intros ->; tauto.
Qed.
