(** Proofs for C94: a relational logic over two memories that are alike on some anys. *)
From stdpp Require Import gmap list sets.
From Verif Require Import TypeListModel TypeListSpec AnyModel AnyInv AnyHistory AnyExec AnyFacts AnyLocalSpec.

Definition extends (β β' : addresses) : Prop := forall b b', β b b' -> β' b b'.
Lemma ext_refl β : extends β β. Proof. by intros ??. Qed.
Lemma ext_trans β1 β2 β3 : extends β1 β2 -> extends β2 β3 -> extends β1 β3.
Proof. unfold extends. eauto. Qed.
Lemma ptr_mono S β β' p p' : extends β β' -> same_ptr S β p p' -> same_ptr S β' p p'.
Proof. intros H. destruct p, p'; cbn; eauto. Qed.
Lemma any_mono S R β β' a a' : extends β β' -> same_any S R β a a' -> same_any S R β' a a'.
Proof. intros H (?&?&?). repeat split; try tauto; eauto using ptr_mono; by destruct H0. Qed.
Lemma sref_mono S β β' s s' : extends β β' -> same_sref S β s s' -> same_sref S β' s s'.
Proof. intros H (?&?&?). repeat split; eauto using ptr_mono. Qed.
Lemma opt_mono {A} (P Q : A -> A -> Prop) x y : (forall a b, P a b -> Q a b) -> same_opt P x y -> same_opt Q x y.
Proof. intros H. destruct x, y; cbn; eauto. Qed.

(** which block of one memory is which block of the other: those that may be read, and of these those that may be written *)
Record maps : Type := Maps { rd : addresses; wr : addresses }.
Definition ext (κ κ' : maps) : Prop := extends (rd κ) (rd κ') /\ extends (wr κ) (wr κ').
Lemma ex_refl κ : ext κ κ. Proof. split; apply ext_refl. Qed.
Lemma ex_trans κ1 κ2 κ3 : ext κ1 κ2 -> ext κ2 κ3 -> ext κ1 κ3.
Proof. intros [? ?] [? ?]. split; eauto using ext_trans. Qed.

Section Local.
  Context (S R W X : gset nat) (HW : W ⊆ S) (HX : X ⊆ R) (E : env) (f1 f2 : nat -> bool).
  Notation E1 := (with_throws E f1).
  Notation E2 := (with_throws E f2).
  Lemma in_S i : i ∈ W -> i ∈ S. Proof. by apply HW. Qed.
  Lemma in_R i : i ∈ X -> i ∈ R. Proof. by apply HX. Qed.
  Hint Resolve in_S in_R : core.

  Definition rptr (κ : maps) : ptr -> ptr -> Prop := same_ptr S (rd κ).
  Definition wptr (κ : maps) (p p' : ptr) : Prop := same_ptr W (wr κ) p p' /\ rptr κ p p'.
  Definition rany (κ : maps) : any -> any -> Prop := same_any S R (rd κ).
  Definition wany (κ : maps) (a a' : any) : Prop := same_any S R (rd κ) a a' /\ wptr κ (a_vp a) (a_vp a').
  Record like (κ : maps) (w w' : world) : Prop := Like {
    lk_alike : alike S R (rd κ) w w';
    lk_own : forall i, i ∈ W -> same_opt (fun a a' => wptr κ (a_vp a) (a_vp a')) (w_any w !! i) (w_any w' !! i);
    lk_sub : extends (wr κ) (rd κ)
  }.

  (** the two oracles give the same answers from now on *)
  Definition answers_same (w1 w2 : world) : Prop := forall k, f1 (w_tick w1 + k) = f2 (w_tick w2 + k).

  (** what was there and may not be written is as before *)
  Definition kept (P : nat -> Prop) (w w' : world) : Prop :=
    (forall i, i ∉ W -> w_any w' !! i = w_any w !! i) /\
    (forall r, r ∉ X -> w_sref w' !! r = w_sref w !! r) /\
    (forall b, b < w_next w -> ~ P b -> w_heap w' !! b = w_heap w !! b) /\
    w_next w <= w_next w'.

  Definition grown (β β' : addresses) (w1 w2 : world) : Prop :=
    forall b b', β' b b' -> β b b' \/ (w_next w1 <= b /\ w_next w2 <= b').
  Record post (κ : maps) (w1 w2 : world) (κ' : maps) (w1' w2' : world) : Prop := Post {
    po_ext : ext κ κ';
    po_rd : grown (rd κ) (rd κ') w1 w2;
    po_wr : grown (wr κ) (wr κ') w1 w2;
    po_like : like κ' w1' w2';
    po_answers : answers_same w1' w2';
    po_kept1 : kept (fun b => exists b', wr κ b b') w1 w1';
    po_kept2 : kept (fun b' => exists b, wr κ b b') w2 w2';
    po_log : exists d1 d2, w_log w1' = d1 ++ w_log w1 /\ w_log w2' = d2 ++ w_log w2 /\ map deed_of d1 = map deed_of d2
  }.

  Lemma grown_refl β w1 w2 : grown β β w1 w2. Proof. intros ? ? ?. by left. Qed.
  Lemma post_refl κ w1 w2 : like κ w1 w2 -> answers_same w1 w2 -> post κ w1 w2 κ w1 w2.
  Proof.
    intros Ha Hq. split; [apply ex_refl|apply grown_refl|apply grown_refl|done|done| | |by exists [], []]; by split.
  Qed.
  Lemma kept_trans (P P' : nat -> Prop) w w' w'' : (forall b, P' b -> P b \/ w_next w <= b) ->
    kept P w w' -> kept P' w' w'' -> kept P w w''.
  Proof.
    intros HP (A1&B1&C1&D1) (A2&B2&C2&D2). split; [|split; [|split]].
    - intros i Hi. rewrite (A2 _ Hi). eauto.
    - intros i Hi. rewrite (B2 _ Hi). eauto.
    - intros b Hb Hn. rewrite C2; [eauto|lia|]. intros Hp. destruct (HP _ Hp); [done|lia].
    - lia.
  Qed.
  Lemma grown_trans β β' β'' w1 w2 w1' w2' : w_next w1 <= w_next w1' -> w_next w2 <= w_next w2' ->
    grown β β' w1 w2 -> grown β' β'' w1' w2' -> grown β β'' w1 w2.
  Proof. intros ? ? H1 H2 b b' Hb. destruct (H2 _ _ Hb) as [Hb'|[? ?]]; [eauto|]. right. lia. Qed.
  Lemma post_trans κ w1 w2 κ' w1' w2' κ'' w1'' w2'' :
    post κ w1 w2 κ' w1' w2' -> post κ' w1' w2' κ'' w1'' w2'' -> post κ w1 w2 κ'' w1'' w2''.
  Proof.
    intros [X1 N1 O1 A1 Q1 K1 L1 (d1 & d2 & G1 & G2 & G)] [X2 N2 O2 A2 Q2 K2 L2 (e1 & e2 & H1 & H2 & H)].
    assert (w_next w1 <= w_next w1') by (by destruct K1 as (_&_&_&?)). assert (w_next w2 <= w_next w2') by (by destruct L1 as (_&_&_&?)).
    split; [by eapply ex_trans|by eapply grown_trans|by eapply grown_trans|done|done| | |].
    - eapply kept_trans; [|exact K1|exact K2]. intros b (b' & Hb). destruct (O1 _ _ Hb) as [?|[? _]]; eauto.
    - eapply kept_trans; [|exact L1|exact L2]. intros b (b' & Hb). destruct (O1 _ _ Hb) as [?|[_ ?]]; eauto.
    - exists (e1 ++ d1), (e2 ++ d2). rewrite H1, G1, H2, G2, !app_assoc. split; [done|]. split; [done|]. rewrite !map_app. congruence.
  Qed.

  (** two computations do alike things *)
  Definition rel {A} (Q : maps -> A -> A -> Prop) (κ : maps) (m1 m2 : M A) : Prop :=
    forall w1 w2, like κ w1 w2 -> answers_same w1 w2 ->
    match m1 w1, m2 w2 with
    | Ok a w1', Ok b w2' => exists κ', post κ w1 w2 κ' w1' w2' /\ Q κ' a b
    | Exn w1', Exn w2' => exists κ', post κ w1 w2 κ' w1' w2'
    | UB r, UB r' => r = r'
    | Term, Term => True
    | _, _ => False
    end.
  Definition anything {A} (_ : maps) (_ _ : A) : Prop := True.
  Definition equal {A} (_ : maps) (a b : A) : Prop := a = b.

  Lemma rel_bind {A B} (Q : maps -> A -> A -> Prop) (Q' : maps -> B -> B -> Prop) κ m1 m2 k1 k2 :
    rel Q κ m1 m2 -> (forall κ' a b, ext κ κ' -> Q κ' a b -> rel Q' κ' (k1 a) (k2 b)) ->
    rel Q' κ (bindM m1 k1) (bindM m2 k2).
  Proof.
    intros Hm Hk w1 w2 Ha Hq. specialize (Hm w1 w2 Ha Hq). unfold bindM.
    destruct (m1 w1) as [a w1'|w1'|r|], (m2 w2) as [b w2'|w2'|r'|]; try done.
    destruct Hm as (κ' & Hp & HQ). specialize (Hk κ' a b (po_ext _ _ _ _ _ _ Hp) HQ w1' w2' (po_like _ _ _ _ _ _ Hp) (po_answers _ _ _ _ _ _ Hp)).
    destruct (k1 a w1') as [x w1''|w1''|r|], (k2 b w2') as [y w2''|w2''|r'|]; try done.
    - destruct Hk as (κ'' & Hp' & HQ'). exists κ''. eauto using post_trans.
    - destruct Hk as (κ'' & Hp'). exists κ''. eauto using post_trans.
  Qed.
  Lemma rel_ret {A} (Q : maps -> A -> A -> Prop) κ a b : Q κ a b -> rel Q κ (retM a) (retM b).
  Proof. intros H w1 w2 Ha Hq. exists κ. eauto using post_refl. Qed.
  Lemma rel_ub {A} (Q : maps -> A -> A -> Prop) κ r : rel Q κ (ubM r) (ubM r).
  Proof. by intros w1 w2 Ha Hq. Qed.
  Lemma rel_throw {A} (Q : maps -> A -> A -> Prop) κ : rel Q κ throwM throwM.
  Proof. intros w1 w2 Ha Hq. exists κ. eauto using post_refl. Qed.
  Lemma rel_noexcept {A} (Q : maps -> A -> A -> Prop) κ b m1 m2 : rel Q κ m1 m2 -> rel Q κ (noexcept_if b m1) (noexcept_if b m2).
  Proof.
    intros Hm w1 w2 Ha Hq. specialize (Hm w1 w2 Ha Hq). unfold noexcept_if.
    destruct (m1 w1), (m2 w2); try done. by destruct b.
  Qed.
  Lemma rel_on_exn {A} (Q : maps -> A -> A -> Prop) κ m1 m2 h1 h2 : rel Q κ m1 m2 ->
    (forall κ', ext κ κ' -> rel anything κ' h1 h2) -> rel Q κ (on_exn m1 h1) (on_exn m2 h2).
  Proof.
    intros Hm Hh w1 w2 Ha Hq. specialize (Hm w1 w2 Ha Hq). unfold on_exn.
    destruct (m1 w1) as [a w1'|w1'|r|], (m2 w2) as [b w2'|w2'|r'|]; try done.
    destruct Hm as (κ' & Hp). specialize (Hh κ' (po_ext _ _ _ _ _ _ Hp) w1' w2' (po_like _ _ _ _ _ _ Hp) (po_answers _ _ _ _ _ _ Hp)).
    destruct (h1 w1') as [a w1''|w1''|r|], (h2 w2') as [b w2''|w2''|r'|]; try done.
    destruct Hh as (κ'' & Hp' & _). exists κ''. eauto using post_trans.
  Qed.
  Lemma rel_ensure κ b r : rel anything κ (ensure b r) (ensure b r).
  Proof. destruct b; cbn; [by apply rel_ret|apply rel_ub]. Qed.

  (** *** primitives *)
  Lemma wptr_mono κ κ' p p' : ext κ κ' -> wptr κ p p' -> wptr κ' p p'.
  Proof. intros [? ?] [? ?]. split; by eapply ptr_mono. Qed.
  Lemma rptr_mono κ κ' p p' : ext κ κ' -> rptr κ p p' -> rptr κ' p p'.
  Proof. intros [? ?] ?. by eapply ptr_mono. Qed.
  Lemma rel_ask κ : rel equal κ (ask E1) (ask E2).
  Proof.
    intros w1 w2 Ha Hq. unfold ask. cbn. exists κ. split.
    - split; [apply ex_refl|apply grown_refl|apply grown_refl|by destruct Ha as [[] ? ?]; split; [split|..]| |by split|by split|by exists [], []].
      intros k. specialize (Hq (Datatypes.S k)). cbn. rewrite <- !Nat.add_succ_r. done.
    - unfold equal. specialize (Hq 0). by rewrite !Nat.add_0_r in Hq.
  Qed.
  (** nothing is said yet about what [fresh] hands out *)
  Lemma rel_fresh κ : rel anything κ fresh fresh.
  Proof.
    intros w1 w2 Ha Hq. exists κ. split; [|done].
    split; [apply ex_refl|apply grown_refl|apply grown_refl| |done| | |by exists [], []].
    - destruct Ha as [[A B C D F] G H]. split; [split|..]; try done. cbn. intros b b' Hb. destruct (F _ _ Hb). lia.
    - split; [done|]. split; [done|]. split; [done|]. cbn; lia.
    - split; [done|]. split; [done|]. split; [done|]. cbn; lia.
  Qed.
  Lemma rel_emit κ e e' : deed_of e = deed_of e' -> rel anything κ (emit e) (emit e').
  Proof.
    intros He w1 w2 Ha Hq. exists κ. split; [|done].
    split; [apply ex_refl|apply grown_refl|apply grown_refl|by destruct Ha as [[] ? ?]; split; [split|..]|done|by split|by split|].
    exists [e], [e']. cbn. by rewrite He.
  Qed.
  Lemma rel_get_any κ i : i ∈ S -> rel rany κ (get_any i) (get_any i).
  Proof.
    intros Hi w1 w2 Ha Hq. pose proof (al_any _ _ _ _ _ (lk_alike _ _ _ Ha) i Hi) as H. unfold get_any.
    destruct (w_any w1 !! i), (w_any w2 !! i); try done. cbn in H. exists κ. eauto using post_refl.
  Qed.
  Lemma rel_own_any κ i : i ∈ W -> rel wany κ (get_any i) (get_any i).
  Proof.
    intros Hi w1 w2 Ha Hq. pose proof (al_any _ _ _ _ _ (lk_alike _ _ _ Ha) i (in_S _ Hi)) as H. unfold get_any.
    pose proof (lk_own _ _ _ Ha i Hi) as H'.
    destruct (w_any w1 !! i), (w_any w2 !! i); try done. cbn in H, H'. exists κ. split; [by apply post_refl|]. by split.
  Qed.
  Lemma like_put_any κ w1 w2 i a a' : like κ w1 w2 -> wany κ a a' ->
    like κ (set_any w1 (<[i := a]> (w_any w1))) (set_any w2 (<[i := a']> (w_any w2))).
  Proof.
    intros [[A B C D F] G H] [Hs Hw]. split; [split|..]; cbn; try done.
    - intros k Hk. destruct (decide (k = i)) as [->|Hn]; [by rewrite !lookup_insert|]. rewrite !lookup_insert_ne by done. eauto.
    - intros k Hk. destruct (decide (k = i)) as [->|Hn]; [by rewrite !lookup_insert|]. rewrite !lookup_insert_ne by done. eauto.
  Qed.
  Lemma post_any κ w1 w2 g1 g2 : answers_same w1 w2 -> like κ (set_any w1 g1) (set_any w2 g2) ->
    (forall k, k ∉ W -> g1 !! k = w_any w1 !! k /\ g2 !! k = w_any w2 !! k) -> post κ w1 w2 κ (set_any w1 g1) (set_any w2 g2).
  Proof.
    intros Hq Ha Hk. split; [apply ex_refl|apply grown_refl|apply grown_refl|done|done| | |by exists [], []].
    - split; [|done]. intros i Hi. by apply Hk.
    - split; [|done]. intros i Hi. by apply Hk.
  Qed.
  Lemma rel_put_any κ i a a' : i ∈ W -> wany κ a a' -> rel anything κ (put_any i a) (put_any i a').
  Proof.
    intros Hi Hs w1 w2 Ha Hq. pose proof (al_any _ _ _ _ _ (lk_alike _ _ _ Ha) i (in_S _ Hi)) as H. unfold put_any.
    destruct (w_any w1 !! i), (w_any w2 !! i); try done. exists κ. split; [|done].
    apply post_any; [done|by apply like_put_any|]. intros k Hk.
    split; (rewrite lookup_insert_ne; [done|]); by intros ->.
  Qed.
  Lemma rel_new_any κ i al ms : i ∈ W -> rel anything κ (new_any i al ms) (new_any i al ms).
  Proof.
    intros Hi w1 w2 Ha Hq. pose proof (al_any _ _ _ _ _ (lk_alike _ _ _ Ha) i (in_S _ Hi)) as H. unfold new_any.
    destruct (w_any w1 !! i), (w_any w2 !! i); try done. exists κ. split; [|done].
    apply post_any; [done| |].
    - apply like_put_any; [done|]. split; [|split; cbn; eauto]. by repeat split; cbn; eauto.
    - intros k Hk. split; (rewrite lookup_insert_ne; [done|]); by intros ->.
  Qed.
  Lemma rel_del_any κ i : i ∈ W ->
    rel anything κ (fun w => Ok tt (set_any w (delete i (w_any w)))) (fun w => Ok tt (set_any w (delete i (w_any w)))).
  Proof.
    intros Hi w1 w2 Ha Hq. exists κ. split; [|done]. apply post_any; [done| |].
    - destruct Ha as [[A B C D F] G H]. split; [split|..]; cbn; try done.
      + intros k Hk. destruct (decide (k = i)) as [->|Hn]; [by rewrite !lookup_delete|]. rewrite !lookup_delete_ne by done. eauto.
      + intros k Hk. destruct (decide (k = i)) as [->|Hn]; [by rewrite !lookup_delete|]. rewrite !lookup_delete_ne by done. eauto.
    - intros k Hk. split; (rewrite lookup_delete_ne; [done|]); by intros ->.
  Qed.
  Lemma rel_get_block κ b b' : rd κ b b' -> rel (fun _ => same_block) κ (get_block b) (get_block b').
  Proof.
    intros Hb w1 w2 Ha Hq. pose proof (al_heap _ _ _ _ _ (lk_alike _ _ _ Ha) b b' Hb) as H. unfold get_block.
    destruct (w_heap w1 !! b), (w_heap w2 !! b'); try done. exists κ. eauto using post_refl.
  Qed.
  Lemma post_heap κ w1 w2 g1 g2 : answers_same w1 w2 -> like κ (set_heap w1 g1) (set_heap w2 g2) ->
    (forall b, ~ (exists b', wr κ b b') -> g1 !! b = w_heap w1 !! b) ->
    (forall b', ~ (exists b, wr κ b b') -> g2 !! b' = w_heap w2 !! b') ->
    post κ w1 w2 κ (set_heap w1 g1) (set_heap w2 g2).
  Proof.
    intros Hq Ha H1 H2. split; [apply ex_refl|apply grown_refl|apply grown_refl|done|done| | |by exists [], []].
    - split; [done|]. split; [done|]. split; [|done]. eauto.
    - split; [done|]. split; [done|]. split; [|done]. eauto.
  Qed.
  Lemma rel_put_block κ b b' x x' : wr κ b b' -> same_block x x' -> rel anything κ (put_block b x) (put_block b' x').
  Proof.
    intros Hw Hs w1 w2 Ha Hq. pose proof (lk_sub _ _ _ Ha _ _ Hw) as Hb.
    pose proof (al_heap _ _ _ _ _ (lk_alike _ _ _ Ha) b b' Hb) as H. unfold put_block.
    destruct (w_heap w1 !! b), (w_heap w2 !! b'); try done. exists κ. split; [|done].
    apply post_heap; [done| | |].
    - destruct Ha as [[A B C D F] G I]. split; [split|..]; cbn; try done. intros c c' Hc. pose proof (D _ _ _ _ Hb Hc) as [D1 D2].
      destruct (decide (b = c)) as [->|Hn].
      + rewrite <- (D1 eq_refl), !lookup_insert. done.
      + rewrite !lookup_insert_ne by (try done; intros ->; eauto). eauto.
    - intros c Hn. rewrite lookup_insert_ne; [done|]. intros ->. eauto.
    - intros c Hn. rewrite lookup_insert_ne; [done|]. intros ->. eauto.
  Qed.
  Lemma rel_del_block κ b b' : wr κ b b' ->
    rel anything κ (fun w => Ok tt (set_heap w (delete b (w_heap w)))) (fun w => Ok tt (set_heap w (delete b' (w_heap w)))).
  Proof.
    intros Hw w1 w2 Ha Hq. pose proof (lk_sub _ _ _ Ha _ _ Hw) as Hb. exists κ. split; [|done].
    apply post_heap; [done| | |].
    - destruct Ha as [[A B C D F] G I]. split; [split|..]; cbn; try done. intros c c' Hc. pose proof (D _ _ _ _ Hb Hc) as [D1 D2].
      destruct (decide (b = c)) as [->|Hn].
      + rewrite <- (D1 eq_refl), !lookup_delete. done.
      + rewrite !lookup_delete_ne by (try done; intros ->; eauto). eauto.
    - intros c Hn. rewrite lookup_delete_ne; [done|]. intros ->. eauto.
    - intros c Hn. rewrite lookup_delete_ne; [done|]. intros ->. eauto.
  Qed.
  (** a new block: the correspondence grows *)
  Lemma rel_allocate κ al n : rel (fun κ' b b' => wptr κ' (PHeap b) (PHeap b')) κ (allocate E1 al n) (allocate E2 al n).
  Proof.
    unfold allocate. eapply rel_bind; [apply rel_ask|]. intros κ1 t t' _ <-. destruct t; [apply rel_throw|].
    intros w1 w2 Ha Hq. unfold fresh, emit, retM, bindM. cbn.
    set (add := fun (β : addresses) b b' => β b b' \/ (b = w_next w1 /\ b' = w_next w2)).
    assert (forall β, extends β (add β)) as Hadd by (intros β b b' Hb; by left).
    set (κ' := Maps (add (rd κ1)) (add (wr κ1))).
    assert (ext κ1 κ') as Hx by (split; apply Hadd).
    exists κ'. split; [|by split; right]. destruct Ha as [[A B C D F] G H].
    split; [done| | | |done| | |].
    - intros b b' [?|[-> ->]]; [by left|]. right. lia.
    - intros b b' [?|[-> ->]]; [by left|]. right. lia.
    - split; [split|..]; cbn.
      + intros i Hi. eapply opt_mono; [|by apply A]. intros a a'. apply any_mono. apply Hadd.
      + intros i Hi. eapply opt_mono; [|by apply B]. intros a a'. apply sref_mono. apply Hadd.
      + intros b b' [Hb|[-> ->]].
        * destruct (F _ _ Hb). rewrite !lookup_insert_ne by lia. eauto.
        * by rewrite !lookup_insert.
      + intros b b' c c' [Hb|[-> ->]] [Hc|[-> ->]]; [by apply D| | |done].
        * destruct (F _ _ Hb). lia.
        * destruct (F _ _ Hc). lia.
      + intros b b' [Hb|[-> ->]]; [destruct (F _ _ Hb)|]; lia.
      + intros i Hi. eapply opt_mono; [|by apply G]. intros a a'. by apply wptr_mono.
      + intros b b' [Hb|?]; [left; by apply H|by right].
    - split; [done|]. split; [done|]. split; [|cbn; lia]. cbn. intros b Hb Hn. rewrite lookup_insert_ne; [done|lia].
    - split; [done|]. split; [done|]. split; [|cbn; lia]. cbn. intros b Hb Hn. rewrite lookup_insert_ne; [done|lia].
    - eexists [_], [_]. cbn. split; [done|]. split; [done|]. done.
  Qed.

  Lemma rel_new_sref_cell κ r s s' : r ∈ X -> same_sref S (rd κ) s s' ->
    rel anything κ (fun w => match w_sref w !! r with Some _ => UB UbIllFormed | None => Ok tt (set_sref w (<[r := s]> (w_sref w))) end)
      (fun w => match w_sref w !! r with Some _ => UB UbIllFormed | None => Ok tt (set_sref w (<[r := s']> (w_sref w))) end).
  Proof.
    intros Hr Hs w1 w2 Ha Hq. pose proof (al_sref _ _ _ _ _ (lk_alike _ _ _ Ha) r (in_R _ Hr)) as H.
    destruct (w_sref w1 !! r), (w_sref w2 !! r); try done. exists κ. split; [|done].
    split; [apply ex_refl|apply grown_refl|apply grown_refl| |done| | |by exists [], []].
    - destruct Ha as [[A B C D F] G I]. split; [split|..]; cbn; try done. intros k Hk. destruct (decide (k = r)) as [->|Hn].
      + by rewrite !lookup_insert.
      + rewrite !lookup_insert_ne by done. eauto.
    - split; [done|]. split; [|done]. intros k Hk. cbn. rewrite lookup_insert_ne; [done|]. by intros ->.
    - split; [done|]. split; [|done]. intros k Hk. cbn. rewrite lookup_insert_ne; [done|]. by intros ->.
  Qed.
  Lemma rel_drop_sref κ r : r ∈ X -> rel anything κ (drop_sref r) (drop_sref r).
  Proof.
    intros Hr w1 w2 Ha Hq. exists κ. split; [|done].
    split; [apply ex_refl|apply grown_refl|apply grown_refl| |done| | |by exists [], []].
    - destruct Ha as [[A B C D F] G I]. split; [split|..]; cbn; try done. intros k Hk. destruct (decide (k = r)) as [->|Hn].
      + by rewrite !lookup_delete.
      + rewrite !lookup_delete_ne by done. eauto.
    - split; [done|]. split; [|done]. intros k Hk. cbn. rewrite lookup_delete_ne; [done|]. by intros ->.
    - split; [done|]. split; [|done]. intros k Hk. cbn. rewrite lookup_delete_ne; [done|]. by intros ->.
  Qed.
  Lemma rel_vt_read κ ms v m : home_in R v -> rel equal κ (vt_read ms v m) (vt_read ms v m).
  Proof.
    intros Hv w1 w2 Ha Hq. unfold vt_read.
    assert (match vp_home v with None => true | Some r => bool_decide (is_Some (w_sref w1 !! r)) end =
            match vp_home v with None => true | Some r => bool_decide (is_Some (w_sref w2 !! r)) end) as <-.
    { unfold home_in in Hv. destruct (vp_home v) as [r|]; [|done]. pose proof (al_sref _ _ _ _ _ (lk_alike _ _ _ Ha) r Hv) as H.
      by destruct (w_sref w1 !! r), (w_sref w2 !! r). }
    destruct (match vp_home v with None => true | Some r => _ end); [|done].
    destruct (number_of_first _ _ _); [|done]. destruct (nth_error _ _) as [[T m']|]; [|done]. destruct (meqb m m'); [|done].
    exists κ. split; [by apply post_refl|done].
  Qed.

  (** *** the functions of the model *)
  Definition same_src (κ : maps) (s s' : src) : Prop :=
    match s, s' with SVal v, SVal v' => v = v' | SRef p, SRef p' => rptr κ p p' | _, _ => False end.
  Lemma src_mono κ κ' s s' : ext κ κ' -> same_src κ s s' -> same_src κ' s s'.
  Proof. intros H. destruct s, s'; cbn; eauto using rptr_mono. Qed.
  (** what two related anys have in common *)
  Lemma rany_inv κ a a' : rany κ a a' -> exists vt vp vp' un un' al ms,
    a = Any vt vp un al ms /\ a' = Any vt vp' un' al ms /\ rptr κ vp vp' /\ same_union un un' /\
    (forall v, vt = Some v -> home_in R v).
  Proof.
    destruct a as [vt vp un al ms], a' as [vt' vp' un' al' ms']. intros ((Ea & Hv) & Hp & Hu & Eb & Ec). cbn in *. subst.
    exists vt', vp, vp', un, un', al', ms'. split; [done|]. split; [done|]. split; [done|]. split; [done|]. by intros v ->.
  Qed.
  Lemma wany_inv κ a a' : wany κ a a' -> exists vt vp vp' un un' al ms,
    a = Any vt vp un al ms /\ a' = Any vt vp' un' al ms /\ wptr κ vp vp' /\ same_union un un' /\
    (forall v, vt = Some v -> home_in R v).
  Proof.
    intros [Hr Hw]. destruct (rany_inv _ _ _ Hr) as (vt & vp & vp' & un & un' & al & ms & -> & -> & _ & Hu & Hv).
    by exists vt, vp, vp', un, un', al, ms.
  Qed.
  Lemma wany_intro κ vt vp vp' un un' al ms : wptr κ vp vp' -> same_union un un' -> (forall v, vt = Some v -> home_in R v) ->
    wany κ (Any vt vp un al ms) (Any vt vp' un' al ms).
  Proof. intros Hp ? Hv. split; [|done]. split; [split; [done|cbn; destruct vt; [by apply Hv|done]]|]. split; [apply Hp|done]. Qed.
  Lemma wptr_rptr κ p p' : wptr κ p p' -> rptr κ p p'. Proof. by intros [_ ?]. Qed.
  Hint Resolve wptr_rptr : core.
  Lemma src_ref κ p p' : rptr κ p p' -> same_src κ (SRef p) (SRef p'). Proof. done. Qed.
  Hint Resolve src_ref : core.
  Lemma un_free_same u u' : same_union u u' -> un_free E2 u' = un_free E1 u.
  Proof. destruct u, u'; cbn; try done. unfold nontrivial. cbn. by intros [-> _]. Qed.
  Lemma bo_free_same o o' : same_opt same_obj o o' -> bo_free E2 o' = bo_free E1 o.
  Proof. destruct o, o'; cbn; try done. unfold nontrivial. cbn. by intros [-> _]. Qed.
  Lemma mem_same κ i vt vt' vp vp' un un' al al' ms ms' : rptr κ vp vp' ->
    mem_allocated i (Any vt' vp' un' al' ms') = mem_allocated i (Any vt vp un al ms).
  Proof.
    intros H. unfold mem_allocated. cbn. f_equal. apply bool_decide_ext. destruct vp, vp'; cbn in H; try done. destruct H as [-> _]. done.
  Qed.

  Ltac lift Hx :=
    lazymatch type of Hx with ext ?κ ?κ' =>
      repeat match goal with
      | H : wptr κ _ _ |- _ => apply (wptr_mono _ _ _ _ Hx) in H
      | H : rptr κ _ _ |- _ => apply (rptr_mono _ _ _ _ Hx) in H
      | H : same_src κ _ _ |- _ => apply (src_mono _ _ _ _ Hx) in H
      end; clear Hx; try clear dependent κ
    end.
  (** one step of both programs *)
  Ltac st lem := eapply rel_bind; [eapply lem; eauto; done|]; let b := fresh "κ" in let Hx := fresh "Hx" in
    intros b ?x ?y Hx; lift Hx; unfold equal, anything; try (intros <-).
  Ltac open := let H := fresh "Hsa" in intros H;
    first [destruct (wany_inv _ _ _ H) as (?vt & ?vp & ?vp & ?un & ?un & ?al & ?ms & -> & -> & ?Hp & ?Hu & ?Hv) |
           destruct (rany_inv _ _ _ H) as (?vt & ?vp & ?vp & ?un & ?un & ?al & ?ms & -> & -> & ?Hp & ?Hu & ?Hv)];
    clear H; cbn [a_vt a_vp a_un a_alloc a_ms].
  Ltac rif :=
    match goal with
    | |- rel _ _ (if ?b then _ else _) (if ?c then _ else _) =>
        first [constr_eq b c | let H := fresh in assert (c = b) as H by (first [reflexivity | eauto using un_free_same, bo_free_same, mem_same]); rewrite H; clear H];
        let X := fresh "Hif" in destruct b eqn:X
    end.

  Lemma rel_set_vt κ i v : i ∈ W -> (forall x, v = Some x -> home_in R x) -> rel anything κ (set_vt i v) (set_vt i v).
  Proof. intros Hi Hh. unfold set_vt. st rel_own_any. open. apply rel_put_any; [done|]. by apply wany_intro. Qed.
  Lemma rel_set_vp κ i p p' : i ∈ W -> wptr κ p p' -> rel anything κ (set_vp i p) (set_vp i p').
  Proof. intros Hi Hh. unfold set_vp. st rel_own_any. open. apply rel_put_any; [done|]. by apply wany_intro. Qed.
  Lemma rel_set_alloc κ i al : i ∈ W -> rel anything κ (set_alloc i al) (set_alloc i al).
  Proof. intros Hi. unfold set_alloc. st rel_own_any. open. apply rel_put_any; [done|]. by apply wany_intro. Qed.
  Lemma rel_set_size κ i n : i ∈ W -> rel anything κ (set_size E1 i n) (set_size E2 i n).
  Proof.
    intros Hi. unfold set_size. st rel_own_any. open. rewrite (un_free_same _ _ Hu). st rel_ensure. intros _.
    apply rel_put_any; [done|]. by apply wany_intro.
  Qed.
  Lemma rel_get_size κ i : i ∈ S -> rel equal κ (get_size i) (get_size i).
  Proof.
    intros Hi. unfold get_size. st rel_get_any. open. destruct un, un0; try done; cbn in *; try apply rel_ub. subst. by apply rel_ret.
  Qed.
  Lemma rel_read_obj κ p p' : rptr κ p p' -> rel (fun _ => same_obj) κ (read_obj p) (read_obj p').
  Proof.
    intros Hp. destruct p, p'; try done; cbn in Hp |- *.
    - destruct Hp as [<- Hi]. st rel_get_any. open. destruct un, un0; try done; try apply rel_ub. by apply rel_ret.
    - st rel_get_block. intros (_ & _ & Ho). destruct (b_obj x), (b_obj y); try done. by apply rel_ret.
  Qed.
  Lemma rel_read_as κ T p p' : rptr κ p p' -> rel (fun _ => same_obj) κ (read_as T p) (read_as T p').
  Proof.
    intros Hp. unfold read_as. st rel_read_obj. intros Ho. destruct (id Ho) as [Ht _]. rewrite <- Ht. st rel_ensure. intros _. by apply rel_ret.
  Qed.
  Lemma rel_write_place κ p p' o o' : wptr κ p p' -> same_opt same_obj o o' -> rel anything κ (write_place p o) (write_place p' o').
  Proof.
    intros [Hp Hr] Ho. destruct p, p'; try done; cbn in Hp, Hr |- *.
    - destruct Hp as [<- Hi]. st rel_own_any. open. apply rel_put_any; [done|]. apply wany_intro; [done| |done]. by destruct o, o'.
    - eapply rel_bind; [eapply rel_get_block; done|]. intros κ' x y Hx (? & ? & _). apply rel_put_block; [by apply Hx|]. by split.
  Qed.
  Lemma rel_check_place κ T p p' : rptr κ p p' -> rel anything κ (check_place E1 T p) (check_place E2 T p').
  Proof.
    intros Hp. unfold check_place. cbn. st rel_ensure. intros _. destruct p, p'; try done; cbn in Hp |- *.
    - destruct Hp as [<- Hi]. st rel_get_any. open. st rel_ensure. intros _. rewrite (un_free_same _ _ Hu). apply rel_ensure.
    - st rel_get_block. intros (? & <- & Ho). st rel_ensure. intros _. rewrite (bo_free_same _ _ Ho). apply rel_ensure.
  Qed.
  Lemma rel_read_src κ T s s' : same_src κ s s' -> rel equal κ (read_src T s) (read_src T s').
  Proof.
    intros Hs. destruct s, s'; try done; cbn in *; [subst; by apply rel_ret|]. st rel_read_as. intros [_ Ho]. by apply rel_ret.
  Qed.
  Lemma rel_construct κ T p p' s s' nt : wptr κ p p' -> same_src κ s s' -> rel anything κ (construct E1 T p s nt) (construct E2 T p' s' nt).
  Proof.
    intros Hp Hs. unfold construct. cbn. st rel_check_place. intros _. st rel_read_src.
    eapply (rel_bind equal); [destruct nt; [by apply rel_ret|apply rel_ask]|]. intros κ' t t' Hx <-. lift Hx. destruct t.
    - st rel_write_place. intros _. apply rel_throw.
    - st rel_fresh. intros _. st rel_write_place. intros _. destruct (ty_tdestr _); [by apply rel_ret|by apply rel_emit].
  Qed.
  Lemma rel_destroy_at κ T p p' : wptr κ p p' -> rel anything κ (destroy_at E1 T p) (destroy_at E2 T p').
  Proof.
    intros Hp. unfold destroy_at. cbn. st rel_read_as. intros [_ Ho]. st rel_write_place. intros _.
    destruct (ty_tdestr _); [by apply rel_ret|by apply rel_emit].
  Qed.
  Lemma rel_memcpy κ T s s' d d' : rptr κ s s' -> wptr κ d d' -> rel anything κ (memcpy E1 T s d) (memcpy E2 T s' d').
  Proof.
    intros Hs Hd. unfold memcpy. st rel_check_place. intros _. st rel_read_as. intros [_ Ho]. st rel_fresh. intros _.
    apply rel_write_place; done.
  Qed.
  Lemma rel_deallocate κ al p p' n : wptr κ p p' -> rel anything κ (deallocate E1 al p n) (deallocate E2 al p' n).
  Proof.
    intros [Hp Hr]. destruct p as [?|b], p' as [?|b']; try done; cbn in Hp, Hr |- *. assert (wptr κ (PHeap b) (PHeap b')) as Hw by done. clear Hp Hr.
    eapply rel_bind; [eapply rel_get_block, Hw|]. intros κ' x y Hx. lift Hx. intros (<- & <- & Ho).
    change (alloc_eqb E2) with (alloc_eqb E1). do 2 (st rel_ensure; intros _). rewrite (bo_free_same _ _ Ho). st rel_ensure. intros _.
    eapply rel_bind; [eapply rel_del_block, Hw|]. intros ? ? ? _ _. by apply rel_emit.
  Qed.
  Lemma rel_any_slot κ i m : i ∈ S -> rel equal κ (any_slot i m) (any_slot i m).
  Proof. intros Hi. unfold any_slot. st rel_get_any. open. destruct vt; [apply rel_vt_read; eauto|apply rel_ub]. Qed.
  Lemma rel_relocate κ T s s' d d' : wptr κ s s' -> wptr κ d d' -> rel anything κ (relocate E1 T s d) (relocate E2 T s' d').
  Proof.
    intros Hs Hd. unfold relocate. cbn [e_ty with_throws]. rif; [apply rel_memcpy; by eauto|]. apply rel_noexcept. st rel_construct. intros _. by apply rel_destroy_at.
  Qed.
  Lemma rel_write_size_at κ d d' n : wptr κ d d' -> rel anything κ (write_size_at E1 d n) (write_size_at E2 d' n).
  Proof. intros [Hd _]. destruct d, d'; try done; cbn in Hd |- *. destruct Hd as [<- Hi]. by apply rel_set_size. Qed.
  Lemma rel_copy_fn κ T al s s' d d' : rptr κ s s' -> wptr κ d d' -> rel wptr κ (copy_fn E1 T al s d) (copy_fn E2 T al s' d').
  Proof.
    intros Hs Hd. unfold copy_fn. cbn [e_ty with_throws]. rif; rif.
    - st rel_memcpy. intros _. by apply rel_ret.
    - st rel_allocate. intros Hb. st rel_memcpy. intros _. st rel_write_size_at. intros _. by apply rel_ret.
    - st rel_construct. intros _. by apply rel_ret.
    - st rel_allocate. intros Hb. eapply (rel_bind anything).
      { rif; [apply rel_construct; by eauto|]. apply rel_on_exn; [apply rel_construct; by eauto|]. intros κ' Hx. lift Hx. by apply rel_deallocate. }
      intros κ' ? ? Hx _. lift Hx. st rel_write_size_at. intros _. by apply rel_ret.
  Qed.
  Lemma rel_get_move_fn κ i : i ∈ S -> rel equal κ (get_move_fn i) (get_move_fn i).
  Proof.
    intros Hi. unfold get_move_fn. st rel_get_any. open. rif; [by apply rel_any_slot|].
    destruct (some_copy_method ms); [by apply rel_any_slot|apply rel_ub].
  Qed.

  (** *** basic_any *)
  Lemma own_ptr κ i : i ∈ W -> wptr κ (PData i) (PData i).
  Proof. intros Hi. split; cbn; eauto. Qed.
  Hint Resolve own_ptr : core.
  Lemma table_home T ms v : Some (addr_vtable_for T ms) = Some v -> home_in R v.
  Proof. by intros [= <-]. Qed.
  Hint Resolve table_home : core.
  Lemma none_home v : None = Some v -> home_in R v.
  Proof. done. Qed.
  Hint Resolve none_home : core.
  Lemma some_home v : home_in R v -> forall x, Some v = Some x -> home_in R x.
  Proof. by intros ? ? [= <-]. Qed.
  Hint Resolve some_home : core.

  Lemma rel_construct_value κ i T s s' nt : i ∈ W -> same_src κ s s' -> rel anything κ (construct_value E1 i T s nt) (construct_value E2 i T s' nt).
  Proof.
    intros Hi Hs. unfold construct_value. apply rel_noexcept. st rel_own_any. open. st rel_construct. intros _. apply rel_set_vt; eauto.
  Qed.
  Lemma rel_emplace_in_empty κ i T force s s' nt : i ∈ W -> same_src κ s s' ->
    rel anything κ (emplace_in_empty E1 i T force s nt) (emplace_in_empty E2 i T force s' nt).
  Proof.
    intros Hi Hs. unfold emplace_in_empty. cbn [e_ty with_throws]. rif; [by apply rel_construct_value|].
    st rel_own_any. open. st rel_allocate. intros Hb. st rel_set_vp. intros _. st rel_set_size. intros _.
    destruct nt; [by apply rel_construct_value|]. apply rel_on_exn; [by apply rel_construct_value|]. intros κ' Hx. lift Hx.
    st rel_own_any. open. st rel_deallocate. intros _. apply rel_set_vp; eauto.
  Qed.
  Lemma rel_call_destroy κ T p p' : wptr κ p p' -> rel anything κ (call_destroy E1 T p) (call_destroy E2 T p').
  Proof. intros Hp. unfold call_destroy. cbn [e_ty with_throws]. rif; [by apply rel_ret|by apply rel_destroy_at]. Qed.
  Lemma rel_destroy_value κ i : i ∈ W -> rel anything κ (destroy_value E1 i) (destroy_value E2 i).
  Proof.
    intros Hi. unfold destroy_value. apply rel_noexcept. st rel_own_any. open. unfold has_val. cbn. destruct vt; [|by apply rel_ret].
    st rel_any_slot. st rel_call_destroy. intros _. apply rel_set_vt; eauto.
  Qed.
  Lemma rel_deallocate_memory κ i : i ∈ W -> rel anything κ (deallocate_memory E1 i) (deallocate_memory E2 i).
  Proof.
    intros Hi. unfold deallocate_memory. apply rel_noexcept. st rel_own_any. open.
    rewrite (mem_same _ _ vt vt _ _ un un0 al al ms ms (wptr_rptr _ _ _ Hp)). st rel_ensure. intros _. st rel_get_size. st rel_deallocate. intros _.
    apply rel_set_vp; eauto.
  Qed.
  Lemma rel_reset κ i : i ∈ W -> rel anything κ (reset E1 i) (reset E2 i).
  Proof.
    intros Hi. unfold reset. apply rel_noexcept. st rel_destroy_value. intros _. st rel_own_any. open.
    rif; [by apply rel_deallocate_memory|by apply rel_ret].
  Qed.
  Lemma rel_capacity κ i : i ∈ S -> rel equal κ (capacity E1 i) (capacity E2 i).
  Proof. intros Hi. unfold capacity. st rel_get_any. open. rif; [by apply rel_get_size|by apply rel_ret]. Qed.
  Lemma rel_replace κ i n : i ∈ W -> rel anything κ (replace_with_bytes E1 i n) (replace_with_bytes E2 i n).
  Proof.
    intros Hi. unfold replace_with_bytes. st rel_destroy_value. intros _. st rel_capacity. rif; [by apply rel_ret|].
    st rel_own_any. open. st rel_allocate. intros Hb. eapply (rel_bind anything).
    { st rel_own_any. open. rif; [by apply rel_deallocate_memory|by apply rel_ret]. }
    intros κ' ? ? Hx _. lift Hx. st rel_set_vp. intros _. by apply rel_set_size.
  Qed.
  Lemma rel_emplace κ i T s s' nt : i ∈ W -> same_src κ s s' -> rel anything κ (emplace E1 i T s nt) (emplace E2 i T s' nt).
  Proof.
    intros Hi Hs. unfold emplace. change (fits E2 T) with (fits E1 T). apply rel_noexcept. cbn [e_ty with_throws]. st rel_destroy_value. intros _.
    st rel_own_any. open. rewrite (mem_same _ _ vt vt _ _ un un0 al al ms ms (wptr_rptr _ _ _ Hp)). rif; [by apply rel_emplace_in_empty|].
    st rel_get_size. rif; [|by apply rel_construct_value]. st rel_deallocate_memory. intros _. by apply rel_emplace_in_empty.
  Qed.
  Lemma rel_subtable κ to from v : home_in R v -> rel (fun _ a b => a = b /\ home_in R a) κ (subtableM to from v) (subtableM to from v).
  Proof.
    intros Hv. unfold subtableM, subtable. destruct (list_same _ _ _); [by apply rel_ret|].
    destruct (find_subsequence _ _ _) as [[n|]|]; try apply rel_ub. by apply rel_ret.
  Qed.
  Lemma rel_move_value_from κ reuse i j : i ∈ W -> j ∈ W -> rel anything κ (move_value_from E1 reuse i j) (move_value_from E2 reuse i j).
  Proof.
    intros Hi Hj. unfold move_value_from. apply rel_noexcept. st rel_own_any. open.
    rewrite (mem_same _ _ vt vt _ _ un un0 al al ms ms (wptr_rptr _ _ _ Hp)). st rel_ensure. intros _. st rel_own_any. open. unfold has_val. cbn [a_vt].
    destruct vt0 as [v0|]; [|by apply rel_ret].
    eapply (rel_bind anything).
    - assert (forall μ, rel anything μ
          (let! o := get_any j in set_vp j (PData j) ;;; set_vp i (a_vp o) ;;; let! n := get_size j in set_size E1 i n)
          (let! o := get_any j in set_vp j (PData j) ;;; set_vp i (a_vp o) ;;; let! n := get_size j in set_size E2 i n)) as Hsteal.
      { intros ?. st rel_own_any. open. st rel_set_vp. intros _. st rel_set_vp. intros _. st rel_get_size. by apply rel_set_size. }
      rif; [apply Hsteal|]. rewrite (mem_same _ j (Some v0) (Some v0) _ _ un1 un2 al0 al0 ms0 ms0 (wptr_rptr _ _ _ Hp0)).
      rif; [|rif; [apply Hsteal|]].
      + st rel_get_move_fn. st rel_own_any. open. by apply rel_relocate.
      + st rel_get_size. st rel_allocate. intros Hb. st rel_set_vp. intros _. st rel_get_size. st rel_set_size. intros _.
        apply rel_on_exn.
        * st rel_get_move_fn. by apply rel_relocate.
        * intros κ' Hx. lift Hx. st rel_own_any. open. st rel_get_size. st rel_deallocate. intros _. apply rel_set_vp; eauto.
    - intros κ' ? ? Hx _. lift Hx. st rel_own_any. open. destruct vt0 as [v1|]; [|apply rel_ub].
      st rel_subtable. intros [<- Hh]. st rel_set_vt. intros _. apply rel_set_vt; eauto.
  Qed.
  Lemma rel_drop_any κ i : i ∈ W -> rel anything κ (drop_any E1 i) (drop_any E2 i).
  Proof. intros Hi. unfold drop_any. st rel_own_any. open. rewrite (un_free_same _ _ Hu). st rel_ensure. intros _. by apply rel_del_any. Qed.
  Lemma rel_ctor κ i al ms m1 m2 : i ∈ W -> (forall κ', ext κ κ' -> rel anything κ' m1 m2) -> rel anything κ (ctor E1 i al ms m1) (ctor E2 i al ms m2).
  Proof.
    intros Hi Hm. unfold ctor. eapply rel_bind; [by apply rel_new_any|]. intros κ' _ _ Hx _. apply rel_on_exn; [by apply Hm|].
    intros κ'' _. by apply rel_drop_any.
  Qed.
  Lemma rel_dtor κ i : i ∈ W -> rel anything κ (dtor E1 i) (dtor E2 i).
  Proof. intros Hi. unfold dtor. st rel_reset. intros _. by apply rel_drop_any. Qed.
  Lemma rel_value_ctor κ i al ms T s s' nt : i ∈ W -> same_src κ s s' -> rel anything κ (value_ctor E1 i al ms T s nt) (value_ctor E2 i al ms T s' nt).
  Proof.
    intros Hi Hs. unfold value_ctor. apply rel_noexcept. apply rel_ctor; [done|]. intros κ' Hx. lift Hx. by apply rel_emplace_in_empty.
  Qed.
  Lemma rel_force_ctor κ i ms T s s' nt : i ∈ W -> same_src κ s s' -> rel anything κ (force_ctor E1 i ms T s nt) (force_ctor E2 i ms T s' nt).
  Proof.
    intros Hi Hs. unfold force_ctor. apply rel_noexcept. apply rel_ctor; [done|]. intros κ' Hx. lift Hx. by apply rel_emplace_in_empty.
  Qed.
  Lemma rel_copy_body κ i j : i ∈ W -> j ∈ S -> rel anything κ (copy_body E1 i j) (copy_body E2 i j).
  Proof.
    intros Hi Hj. unfold copy_body. st rel_get_any. open. unfold has_val. cbn. destruct vt as [v|]; [|by apply rel_ret].
    st rel_any_slot. st rel_own_any. open. change (copy_alloc E2) with (copy_alloc E1). st rel_copy_fn. intros Hq. st rel_set_vp. intros _.
    st rel_subtable. intros [<- Hh]. apply rel_set_vt; [done|]. by intros ? [= <-].
  Qed.
  Lemma rel_copy_ctor κ i j ms : i ∈ W -> j ∈ S -> rel anything κ (copy_ctor E1 i j ms) (copy_ctor E2 i j ms).
  Proof. intros Hi Hj. unfold copy_ctor. st rel_get_any. open. apply rel_ctor; [done|]. intros κ' _. by apply rel_copy_body. Qed.
  Lemma rel_move_ctor κ i j : i ∈ W -> j ∈ W -> rel anything κ (move_ctor E1 i j) (move_ctor E2 i j).
  Proof.
    intros Hi Hj. unfold move_ctor. st rel_own_any. open. apply rel_noexcept. apply rel_ctor; [done|]. intros κ' _. by apply rel_move_value_from.
  Qed.
  Lemma rel_trans_move_ctor κ i j ms : i ∈ W -> j ∈ W -> rel anything κ (trans_move_ctor E1 i j ms) (trans_move_ctor E2 i j ms).
  Proof.
    intros Hi Hj. unfold trans_move_ctor. apply rel_noexcept. apply rel_ctor; [done|]. intros κ' _. by apply rel_move_value_from.
  Qed.
  Lemma rel_move_assign κ i j : i ∈ W -> j ∈ W -> rel anything κ (move_assign E1 i j) (move_assign E2 i j).
  Proof.
    intros Hi Hj. unfold move_assign. apply rel_noexcept. cbn [e_always_eq e_pocma with_throws]. rif; [by apply rel_ret|]. rif; [|rif].
    - st rel_reset. intros _. by apply rel_move_value_from.
    - st rel_reset. intros _. st rel_own_any. open. st rel_own_any. open. eapply (rel_bind anything).
      { rif; [by apply rel_set_alloc|by apply rel_ret]. }
      intros κ' ? ? Hx _. lift Hx. by apply rel_move_value_from.
    - st rel_destroy_value. intros _. st rel_own_any. open. st rel_own_any. open.
      rif; [|st rel_reset; intros _; by apply rel_move_value_from].
      rewrite (mem_same _ j vt0 vt0 _ _ un1 un2 al0 al0 ms0 ms0 (wptr_rptr _ _ _ Hp0)), (mem_same _ i vt vt _ _ un un0 al al ms ms (wptr_rptr _ _ _ Hp)).
      eapply (rel_bind equal).
      { unfold has_val. cbn. rif; [|by apply rel_ret]. st rel_get_size. st rel_get_size. by apply rel_ret. }
      intros κ' t t' Hx <-. lift Hx. destruct t.
      + st rel_get_move_fn. st rel_relocate. intros _. st rel_own_any. open. st rel_set_vt. intros _. apply rel_set_vt; eauto.
      + eapply (rel_bind anything); [rif; [by apply rel_deallocate_memory|by apply rel_ret]|].
        intros ? ? ? Hx _. lift Hx. by apply rel_move_value_from.
  Qed.
  Lemma rel_copy_assign κ i j t : i ∈ W -> j ∈ S -> t ∈ W -> rel anything κ (copy_assign E1 i j t) (copy_assign E2 i j t).
  Proof.
    intros Hi Hj Ht. unfold copy_assign. st rel_get_any. open. st rel_copy_ctor. intros _. eapply (rel_bind anything).
    - apply rel_on_exn; [|intros κ' _; by apply rel_dtor]. cbn [e_always_eq e_pocca with_throws].
      eapply (rel_bind anything); [|intros κ' ? ? _ _; by apply rel_move_assign].
      rif; [|by apply rel_ret]. st rel_get_any. open. st rel_get_any. open. rif; [|by apply rel_ret].
      st rel_reset. intros _. by apply rel_set_alloc.
    - intros κ' ? ? _ _. by apply rel_dtor.
  Qed.
  Lemma rel_swap κ i j t : i ∈ W -> j ∈ W -> t ∈ W -> rel anything κ (swap_any E1 i j t) (swap_any E2 i j t).
  Proof.
    intros Hi Hj Ht. unfold swap_any. st rel_move_ctor. intros _. eapply (rel_bind anything).
    - apply rel_on_exn; [|intros κ' _; by apply rel_dtor]. st rel_move_assign. intros _. by apply rel_move_assign.
    - intros κ' ? ? _ _. by apply rel_dtor.
  Qed.
  Lemma rel_invoke κ i n x : i ∈ W -> rel equal κ (invoke E1 i n x) (invoke E2 i n x).
  Proof.
    intros Hi. unfold invoke. cbn [e_meth with_throws]. st rel_any_slot. st rel_own_any. open. st rel_read_as. intros [_ <-].
    st rel_write_place. intros _. destruct (snd _); [by apply rel_ret|apply rel_throw].
  Qed.
  Lemma rel_pick_slots κ from v ms : home_in R v -> rel equal κ (pick_slots from v ms) (pick_slots from v ms).
  Proof.
    intros Hv. revert κ. induction ms as [|m ms IH]; intros κ; cbn; [by apply rel_ret|]. st rel_vt_read. st IH. by apply rel_ret.
  Qed.
  Lemma rel_new_sref κ r j ms : r ∈ X -> j ∈ S -> rel anything κ (new_sref r j ms) (new_sref r j ms).
  Proof.
    intros Hr Hj. unfold new_sref. st rel_get_any. open. destruct vt as [v|]; [|apply rel_ub]. st rel_pick_slots. by apply rel_new_sref_cell.
  Qed.
  Definition same_pref (κ : maps) (r r' : pref) : Prop :=
    pr_vt r = pr_vt r' /\ home_in R (pr_vt r) /\ pr_ms r = pr_ms r' /\ rptr κ (pr_vp r) (pr_vp r').
  Definition in_refsrc (x : refsrc) : Prop := match x with RAny j _ => j ∈ S | RSref r => r ∈ R end.
  Lemma rel_make_ref κ x : in_refsrc x -> rel same_pref κ (make_ref x) (make_ref x).
  Proof.
    destruct x as [j ms|r]; cbn; intros Hx.
    - st rel_get_any. open. destruct vt as [v|]; [|apply rel_ub]. st rel_subtable. intros [<- Hh]. by apply rel_ret.
    - intros w1 w2 Ha Hq. pose proof (al_sref _ _ _ _ _ (lk_alike _ _ _ Ha) r Hx) as H. destruct (w_sref w1 !! r), (w_sref w2 !! r); try done.
      exists κ. split; [by apply post_refl|]. destruct H as (-> & -> & H). by split.
  Qed.
  Lemma rel_materialize κ i al x : i ∈ W -> in_refsrc x -> rel anything κ (materialize E1 i al x) (materialize E2 i al x).
  Proof.
    intros Hi Hx. unfold materialize. cbn [e_copy_req_alloc with_throws]. rif; [apply rel_ub|]. st rel_make_ref. intros (<- & Hh & <- & Hp).
    st rel_new_any. intros _. st rel_set_vt. intros _. apply rel_on_exn; [|intros κ' _; by apply rel_dtor].
    st rel_vt_read. st rel_own_any. open. change (copy_alloc E2) with (copy_alloc E1). st rel_copy_fn. intros Hq. by apply rel_set_vp.
  Qed.
  Lemma rel_eval_arg κ s : arg_names s ⊆ S -> rel same_src κ (eval_arg s) (eval_arg s).
  Proof.
    intros Hs. destruct s as [v|k]; cbn in *; [by apply rel_ret|]. assert (k ∈ S) by set_solver. st rel_get_any. open. by apply rel_ret.
  Qed.

  Lemma rel_run κ o : names o ⊆ S -> refs o ⊆ R -> changes o ⊆ W -> ref_changes o ⊆ X -> rel anything κ (run E1 o) (run E2 o).
  Proof.
    intros Hn Hr Hc Hrc. unfold changes in Hc. destruct o; cbn [run names refs touches ref_changes] in *.
    - apply rel_new_any. set_solver.
    - assert (i ∈ W) by set_solver. assert (arg_names s ⊆ S) by set_solver. st rel_eval_arg. intros Hs. by apply rel_value_ctor.
    - assert (i ∈ W) by set_solver. assert (arg_names s ⊆ S) by set_solver. st rel_eval_arg. intros Hs. by apply rel_force_ctor.
    - apply rel_copy_ctor; set_solver.
    - apply rel_move_ctor; set_solver.
    - apply rel_trans_move_ctor; set_solver.
    - apply rel_move_assign; set_solver.
    - apply rel_copy_assign; set_solver.
    - apply rel_swap; set_solver.
    - assert (i ∈ W) by set_solver. assert (arg_names s ⊆ S) by set_solver. st rel_eval_arg. intros Hs. by apply rel_emplace.
    - apply rel_reset. set_solver.
    - apply rel_destroy_value. set_solver.
    - apply rel_replace. set_solver.
    - assert (i ∈ W) by set_solver. st rel_invoke. by apply rel_ret.
    - apply rel_dtor. set_solver.
    - apply rel_new_sref; set_solver.
    - apply rel_drop_sref. set_solver.
    - apply rel_materialize; [set_solver|]. destruct x; cbn; set_solver.
  Qed.
End Local.

(** ** Programs *)
Lemma failing_same E f w w' k : e_throws (failing E f w) (w_tick w + k) = e_throws (failing E f w') (w_tick w' + k).
Proof. cbn. f_equal. lia. Qed.

Section Step.
  Context (S R W X : gset nat) (HW : W ⊆ S) (HX : X ⊆ R) (E : env).

  (** what a step does to two memories that are alike *)
  Record step_post (κ : maps) (w1 w2 : world) (κ' : maps) (w1' w2' : world) : Prop := StepPost {
    sp_ext : ext κ κ';
    sp_rd : grown (rd κ) (rd κ') w1 w2;
    sp_wr : grown (wr κ) (wr κ') w1 w2;
    sp_like : like S R W κ' w1' w2';
    sp_kept1 : kept W X (fun b => exists b', wr κ b b') w1 w1';
    sp_kept2 : kept W X (fun b' => exists b, wr κ b b') w2 w2';
    sp_log : exists d1 d2, w_log w1' = d1 ++ w_log w1 /\ w_log w2' = d2 ++ w_log w2 /\ map deed_of d1 = map deed_of d2
  }.
  Lemma step_refl κ w1 w2 : like S R W κ w1 w2 -> step_post κ w1 w2 κ w1 w2.
  Proof. intros Ha. split; [apply ex_refl|apply grown_refl|apply grown_refl|done|by split|by split|by exists [], []]. Qed.
  Lemma step_trans κ w1 w2 κ' w1' w2' κ'' w1'' w2'' :
    step_post κ w1 w2 κ' w1' w2' -> step_post κ' w1' w2' κ'' w1'' w2'' -> step_post κ w1 w2 κ'' w1'' w2''.
  Proof.
    intros [X1 N1 O1 A1 K1 L1 (d1 & d2 & G1 & G2 & G)] [X2 N2 O2 A2 K2 L2 (e1 & e2 & H1 & H2 & H)].
    assert (w_next w1 <= w_next w1') by (by destruct K1 as (_&_&_&?)). assert (w_next w2 <= w_next w2') by (by destruct L1 as (_&_&_&?)).
    split; [by eapply ex_trans|by eapply grown_trans|by eapply grown_trans|done| | |].
    - eapply kept_trans; [|exact K1|exact K2]. intros b (b' & Hb). destruct (O1 _ _ Hb) as [?|[? _]]; eauto.
    - eapply kept_trans; [|exact L1|exact L2]. intros b (b' & Hb). destruct (O1 _ _ Hb) as [?|[_ ?]]; eauto.
    - exists (e1 ++ d1), (e2 ++ d2). rewrite H1, G1, H2, G2, !app_assoc. split; [done|]. split; [done|]. rewrite !map_app. congruence.
  Qed.

  Lemma deeds_app w w' d : w_log w' = d ++ w_log w -> deeds w w' = map deed_of d.
  Proof. intros H. unfold deeds. rewrite H, app_length. replace (length d + length (w_log w) - length (w_log w)) with (length d) by lia. by rewrite take_app. Qed.
  Lemma sp_deeds κ w1 w2 κ' w1' w2' : step_post κ w1 w2 κ' w1' w2' -> deeds w1 w1' = deeds w2 w2'.
  Proof. intros [_ _ _ _ _ _ (d1 & d2 & H1 & H2 & H)]. by rewrite (deeds_app _ _ _ H1), (deeds_app _ _ _ H2). Qed.

  Lemma step_like κ w1 w2 f o : like S R W κ w1 w2 -> names o ⊆ S -> refs o ⊆ R -> changes o ⊆ W -> ref_changes o ⊆ X ->
    match run (failing E f w1) o w1, run (failing E f w2) o w2 with
    | Ok _ w1', Ok _ w2' | Exn w1', Exn w2' => exists κ', step_post κ w1 w2 κ' w1' w2'
    | UB r, UB r' => r = r'
    | Term, Term => True
    | _, _ => False
    end.
  Proof.
    intros Hl H1 H2 H3 H4.
    pose proof (rel_run S R W X HW HX E (fun k => f (k - w_tick w1)) (fun k => f (k - w_tick w2)) κ o H1 H2 H3 H4 w1 w2 Hl) as H.
    assert (answers_same (fun k => f (k - w_tick w1)) (fun k => f (k - w_tick w2)) w1 w2) as Hq by (intros k; f_equal; lia).
    specialize (H Hq). unfold failing.
    destruct (run _ o w1), (run _ o w2); try done.
    - destruct H as (κ' & [] & _). by exists κ'.
    - destruct H as (κ' & []). by exists κ'.
  Qed.
  Lemma trace_like l : stays_in S R W X l -> forall κ w1 w2, like S R W κ w1 w2 ->
    match trace E l w1, trace E l w2 with
    | Ok t1 w1', Ok t2 w2' => t1 = t2 /\ exists κ', step_post κ w1 w2 κ' w1' w2'
    | UB r, UB r' => r = r'
    | Term, Term => True
    | _, _ => False
    end.
  Proof.
    induction l as [|[f o] l IH]; intros Hl κ w1 w2 Ha; cbn [trace].
    { split; [done|]. exists κ. by apply step_refl. }
    destruct (Hl f o) as (H1 & H2 & H3 & H4); [by left|].
    pose proof (step_like κ w1 w2 f o Ha H1 H2 H3 H4) as H.
    assert (stays_in S R W X l) as Hl' by (intros f' o' Hin; apply (Hl f'); by right). specialize (IH Hl').
    destruct (run _ o w1) as [[] w1'|w1'| |], (run _ o w2) as [[] w2'|w2'| |]; try done; destruct H as (κ' & Hp);
      rewrite <- (sp_deeds _ _ _ _ _ _ Hp); specialize (IH κ' w1' w2' (sp_like _ _ _ _ _ _ Hp)); destruct (trace E l w1'), (trace E l w2'); try done;
      destruct IH as (-> & κ'' & Hp'); (split; [done|]); exists κ''; by eapply step_trans.
  Qed.
End Step.

(** [alike] is [like] where everything may be written *)
Lemma alike_like S R β w1 w2 : alike S R β w1 w2 -> like S R S (Maps β β) w1 w2.
Proof.
  intros Ha. split; [done| |by intros b b']. intros i Hi. eapply opt_mono; [|by apply (al_any _ _ _ _ _ Ha)].
  intros a a' (_ & Hp & _). by split.
Qed.
Lemma depends_only S R β E l w1 w2 : alike S R β w1 w2 -> stays_in S R S R l ->
  match trace E l w1, trace E l w2 with
  | Ok t1 w1', Ok t2 w2' => t1 = t2 /\ exists β' : addresses, (forall b b', β b b' -> β' b b') /\ alike S R β' w1' w2'
  | UB r, UB r' => r = r'
  | Term, Term => True
  | _, _ => False
  end.
Proof.
  intros Ha Hl. pose proof (trace_like S R S R (reflexivity S) (reflexivity R) E l Hl _ _ _ (alike_like _ _ _ _ _ Ha)) as H.
  destruct (trace E l w1), (trace E l w2); try done. destruct H as (-> & κ' & [[Hx _] _ _ [Hal _ _] _ _ _]). split; [done|].
  exists (rd κ'). by split.
Qed.
Lemma alike_content S R β w w' i : alike S R β w w' -> i ∈ S -> content w i = content w' i.
Proof.
  intros Ha Hi. pose proof (al_any _ _ _ _ _ Ha i Hi) as H. unfold content, view.
  destruct (w_any w !! i) as [a|], (w_any w' !! i) as [a'|]; try done. cbn in H. f_equal.
  destruct a as [vt vp un al ms], a' as [vt' vp' un' al' ms']. destruct H as ((Hvt & _) & Hp & Hu & _). cbn in *. subst vt'.
  unfold content_of, block_of. cbn. destruct vt; [|done]. destruct vp as [k|b], vp' as [k'|b']; try done; cbn in Hp.
  - destruct un, un'; try done. destruct Hu as [? ?]. congruence.
  - pose proof (al_heap _ _ _ _ _ Ha _ _ Hp) as Hb. destruct (w_heap w !! b) as [x|], (w_heap w' !! b') as [x'|]; try done.
    destruct Hb as (_ & _ & Ho). destruct (b_obj x), (b_obj x'); try done. destruct Ho as [? ?]. congruence.
Qed.

(** *** interleavings *)
Section Two.
  Context (E : env) (S1 R1 W1 X1 S2 R2 W2 X2 : gset nat)
    (HW1 : W1 ⊆ S1) (HX1 : X1 ⊆ R1) (HW2 : W2 ⊆ S2) (HX2 : X2 ⊆ R2)
    (D1 : W1 ## S2) (D2 : W2 ## S1) (D3 : X1 ## R2) (D4 : X2 ## R1).

  (** blocks written by one are not read by the other (in the common memory) *)
  Definition apart (κ1 κ2 : maps) : Prop := forall b c1 c2, wr κ1 c1 b -> rd κ2 c2 b -> False.

  (** a memory written elsewhere stays alike *)
  Lemma like_kept S R W W' X' (P : nat -> Prop) κ v w w' : like S R W κ v w -> W' ## S -> X' ## R -> W ⊆ S ->
    (forall b c, P b -> rd κ c b -> False) -> kept W' X' P w w' -> like S R W κ v w'.
  Proof.
    intros [[A B C D F] G H] Hd1 Hd2 Hsub HP (K1 & K2 & K3 & K4). split; [split|..]; try done.
    - intros i Hi. rewrite K1 by set_solver. by apply A.
    - intros r Hr. rewrite K2 by set_solver. by apply B.
    - intros b b' Hb. rewrite K3; [by apply C|by apply (F _ _ Hb)|]. intros Hp. eauto.
    - intros b b' Hb. destruct (F _ _ Hb). lia.
    - intros i Hi. rewrite K1 by set_solver. by apply G.
  Qed.

  Lemma interleave_like l1 l2 s l : interleaved l1 l2 s l -> stays_in S1 R1 W1 X1 l1 -> stays_in S2 R2 W2 X2 l2 ->
    forall κ1 κ2 v1 v2 w t1 t2 w1 w2, like S1 R1 W1 κ1 v1 w -> like S2 R2 W2 κ2 v2 w -> apart κ1 κ2 -> apart κ2 κ1 ->
    trace E l1 v1 = Ok t1 w1 -> trace E l2 v2 = Ok t2 w2 ->
    exists t w' κ1' κ2', trace E l w = Ok t w' /\ interleaved t1 t2 s t /\ like S1 R1 W1 κ1' w1 w' /\ like S2 R2 W2 κ2' w2 w' /\
      (forall i, i ∉ W1 ∪ W2 -> w_any w' !! i = w_any w !! i) /\
      (forall b, b < w_next w -> (forall c, ~ wr κ1 c b) -> (forall c, ~ wr κ2 c b) -> w_heap w' !! b = w_heap w !! b).
  Proof.
    induction 1 as [|[f o] l1 l2 s l Hi IH|[f o] l1 l2 s l Hi IH]; intros Hs1 Hs2 κ1 κ2 v1 v2 w t1 t2 w1 w2 Ha1 Ha2 Hap1 Hap2 Ht1 Ht2.
    - injection Ht1 as <- <-. injection Ht2 as <- <-. exists [], w, κ1, κ2. split; [done|]. split; [constructor|]. done.
    - destruct (Hs1 f o) as (H1 & H2 & H3 & H4); [by left|].
      assert (stays_in S1 R1 W1 X1 l1) as Hs1' by (intros f' o' Hin; apply (Hs1 f'); by right).
      pose proof (step_like S1 R1 W1 X1 HW1 HX1 E κ1 v1 w f o Ha1 H1 H2 H3 H4) as H. cbn [trace] in Ht1 |- *.
      assert (forall v1' w' e, e.2 = deeds v1 v1' -> (exists κ', step_post S1 R1 W1 X1 κ1 v1 w κ' v1' w') ->
        (match trace E l1 v1' with Ok t w'' => Ok (e :: t) w'' | r => r end) = Ok t1 w1 ->
        exists t w'' κ1' κ2', (match trace E l w' with Ok t w'' => Ok ((e.1, deeds w w') :: t) w'' | r => r end) = Ok t w'' /\
          interleaved t1 t2 (true :: s) t /\ like S1 R1 W1 κ1' w1 w'' /\ like S2 R2 W2 κ2' w2 w'' /\
          (forall i, i ∉ W1 ∪ W2 -> w_any w'' !! i = w_any w !! i) /\
          (forall b, b < w_next w -> (forall c, ~ wr κ1 c b) -> (forall c, ~ wr κ2 c b) -> w_heap w'' !! b = w_heap w !! b)) as Hgo.
      { intros v1' w' [e1 e2] He (κ' & Hp) Ht. cbn in He. rewrite (sp_deeds _ _ _ _ _ _ _ _ _ _ Hp) in He. subst e2. destruct (trace E l1 v1') as [t1' w1'| | |] eqn:Ht1'; try done. injection Ht as <- <-.
        destruct Hp as [Hx Hrd Hwr Hl _ (K1 & K2 & K3 & K4) _].
        assert (like S2 R2 W2 κ2 v2 w') as Ha2'.
        { eapply like_kept; [exact Ha2|exact D1|exact D3|exact HW2| |exact (conj K1 (conj K2 (conj K3 K4)))].
          intros b c (c' & Hc) Hr. by eapply Hap1. }
        assert (apart κ' κ2) as Hap1'.
        { intros b c1 c2 Hc1 Hc2. destruct (Hwr _ _ Hc1) as [Hc|[_ Hc]]; [by eapply Hap1|].
          destruct (al_old _ _ _ _ _ (lk_alike _ _ _ _ _ _ Ha2) _ _ Hc2). lia. }
        assert (apart κ2 κ') as Hap2'.
        { intros b c1 c2 Hc1 Hc2. destruct (Hrd _ _ Hc2) as [Hc|[_ Hc]]; [by eapply Hap2|].
          pose proof (lk_sub _ _ _ _ _ _ Ha2 _ _ Hc1) as Hc1'.
          destruct (al_old _ _ _ _ _ (lk_alike _ _ _ _ _ _ Ha2) _ _ Hc1'). lia. }
        destruct (IH Hs1' Hs2 κ' κ2 v1' v2 w' t1' t2 w1' w2 Hl Ha2' Hap1' Hap2' Ht1' Ht2) as (t & w'' & κ1'' & κ2'' & Ht & Hil & Hl1 & Hl2 & Hk & Hh).
        eexists (_ :: t), w'', κ1'', κ2''. rewrite Ht. split; [done|]. split; [by constructor|]. split; [done|]. split; [done|]. split.
        - intros i Hni. rewrite Hk by done. apply K1. set_solver.
        - intros b Hb Hn1 Hn2. rewrite Hh; [|lia| |done].
          + apply K3; [done|]. intros (c & Hc). by eapply Hn1.
          + intros c Hc. destruct (Hwr _ _ Hc) as [Hc'|[_ Hc']]; [by eapply Hn1|lia]. }
      destruct (run _ o v1) as [[] v1'|v1'| |], (run _ o w) as [[] w'|w'| |]; try done; by (eapply (Hgo v1' w' (_, _)); [|exact H|exact Ht1]).
    - destruct (Hs2 f o) as (H1 & H2 & H3 & H4); [by left|].
      assert (stays_in S2 R2 W2 X2 l2) as Hs2' by (intros f' o' Hin; apply (Hs2 f'); by right).
      pose proof (step_like S2 R2 W2 X2 HW2 HX2 E κ2 v2 w f o Ha2 H1 H2 H3 H4) as H. cbn [trace] in Ht2 |- *.
      assert (forall v2' w' e, e.2 = deeds v2 v2' -> (exists κ', step_post S2 R2 W2 X2 κ2 v2 w κ' v2' w') ->
        (match trace E l2 v2' with Ok t w'' => Ok (e :: t) w'' | r => r end) = Ok t2 w2 ->
        exists t w'' κ1' κ2', (match trace E l w' with Ok t w'' => Ok ((e.1, deeds w w') :: t) w'' | r => r end) = Ok t w'' /\
          interleaved t1 t2 (false :: s) t /\ like S1 R1 W1 κ1' w1 w'' /\ like S2 R2 W2 κ2' w2 w'' /\
          (forall i, i ∉ W1 ∪ W2 -> w_any w'' !! i = w_any w !! i) /\
          (forall b, b < w_next w -> (forall c, ~ wr κ1 c b) -> (forall c, ~ wr κ2 c b) -> w_heap w'' !! b = w_heap w !! b)) as Hgo.
      { intros v2' w' [e1 e2] He (κ' & Hp) Ht. cbn in He. rewrite (sp_deeds _ _ _ _ _ _ _ _ _ _ Hp) in He. subst e2. destruct (trace E l2 v2') as [t2' w2'| | |] eqn:Ht2'; try done. injection Ht as <- <-.
        destruct Hp as [Hx Hrd Hwr Hl _ (K1 & K2 & K3 & K4) _].
        assert (like S1 R1 W1 κ1 v1 w') as Ha1'.
        { eapply like_kept; [exact Ha1|exact D2|exact D4|exact HW1| |exact (conj K1 (conj K2 (conj K3 K4)))].
          intros b c (c' & Hc) Hr. by eapply Hap2. }
        assert (apart κ' κ1) as Hap2'.
        { intros b c1 c2 Hc1 Hc2. destruct (Hwr _ _ Hc1) as [Hc|[_ Hc]]; [by eapply Hap2|].
          destruct (al_old _ _ _ _ _ (lk_alike _ _ _ _ _ _ Ha1) _ _ Hc2). lia. }
        assert (apart κ1 κ') as Hap1'.
        { intros b c1 c2 Hc1 Hc2. destruct (Hrd _ _ Hc2) as [Hc|[_ Hc]]; [by eapply Hap1|].
          pose proof (lk_sub _ _ _ _ _ _ Ha1 _ _ Hc1) as Hc1'.
          destruct (al_old _ _ _ _ _ (lk_alike _ _ _ _ _ _ Ha1) _ _ Hc1'). lia. }
        destruct (IH Hs1 Hs2' κ1 κ' v1 v2' w' t1 t2' w1 w2' Ha1' Hl Hap1' Hap2' Ht1 Ht2') as (t & w'' & κ1'' & κ2'' & Ht & Hil & Hl1 & Hl2 & Hk & Hh).
        eexists (_ :: t), w'', κ1'', κ2''. rewrite Ht. split; [done|]. split; [by constructor|]. split; [done|]. split; [done|]. split.
        - intros i Hni. rewrite Hk by done. apply K1. set_solver.
        - intros b Hb Hn1 Hn2. rewrite Hh; [|lia|done|].
          + apply K3; [done|]. intros (c & Hc). by eapply Hn2.
          + intros c Hc. destruct (Hwr _ _ Hc) as [Hc'|[_ Hc']]; [by eapply Hn2|lia]. }
      destruct (run _ o v2) as [[] v2'|v2'| |], (run _ o w) as [[] w'|w'| |]; try done; by (eapply (Hgo v2' w' (_, _)); [|exact H|exact Ht2]).
  Qed.
End Two.

(** *** the start: a reachable state, alike to itself *)
Definition owned (S : gset nat) (w : world) : addresses := fun b b' => b = b' /\ exists i, i ∈ S /\ owns w i b.
Lemma start_like S R W w E : Inv E w -> refs_within S R w -> W ⊆ S -> like S R W (Maps (owned S w) (owned W w)) w w.
Proof.
  intros HI [Hr1 Hr2] HW.
  assert (forall i a, w_any w !! i = Some a -> a_vp a = PData i \/ exists b, a_vp a = PHeap b /\ owns w i b /\ is_Some (w_heap w !! b)) as Hptr.
  { intros i a Ha. pose proof (inv_ok _ _ HI _ _ Ha) as [_ Hok]. unfold owns, block_of in *. destruct (a_vp a) as [k|b] eqn:Hp.
    - destruct Hok as [-> _]. by left.
    - right. exists b. split; [done|]. split; [by exists a|]. destruct Hok as (al & n & bo & -> & _). by eexists. }
  split; [split|..]; cbn.
  - intros i Hi. destruct (w_any w !! i) as [a|] eqn:Ha; [|done]. cbn.
    split; [|split; [|split; [|done]]].
    + split; [done|]. destruct (a_vt a) eqn:Hv; [|done]. eauto.
    + destruct (Hptr _ _ Ha) as [->|(b & -> & Ho & _)]; cbn; [done|]. split; [done|]. eauto.
    + destruct (a_un a); done.
  - intros r Hr. destruct (w_sref w !! r) as [x|] eqn:Hx; [|done]. cbn. split; [done|]. split; [done|].
    pose proof (Hr1 _ _ Hr Hx) as H. destruct (sr_ptr x); cbn; [done|]. by split.
  - intros b b' [<- _]. destruct (w_heap w !! b) as [x|]; [|done]. cbn. split; [done|]. split; [done|]. by destruct (b_obj x).
  - intros b b' c c' [<- _] [<- _]. done.
  - intros b b' [<- (i & Hi & a & Ha & Hp)]. destruct (Hptr _ _ Ha) as [Hp'|(b0 & Hp' & _ & x & Hx)]; [congruence|].
    rewrite Hp in Hp'. injection Hp' as <-. pose proof (inv_fresh _ _ HI _ _ Hx). done.
  - intros i Hi. destruct (w_any w !! i) as [a|] eqn:Ha; [|done]. cbn.
    destruct (Hptr _ _ Ha) as [->|(b & -> & Ho & _)]; split; cbn; eauto; split; eauto.
  - intros b b' [<- (i & Hi & Ho)]. split; [done|]. exists i. eauto.
Qed.
Lemma start_apart (W S : gset nat) w E : Inv E w -> W ## S -> forall b, (exists i, i ∈ W /\ owns w i b) -> (exists i, i ∈ S /\ owns w i b) -> False.
Proof.
  intros HI Hd b (i & Hi & a & Ha & Hp) (j & Hj & a' & Ha' & Hp'). assert (i = j) as -> by (by eapply (inv_inj _ _ HI)). set_solver.
Qed.

Lemma interleavings E w S1 R1 W1 X1 S2 R2 W2 X2 l1 l2 s l t1 t2 w1 w2 :
  env_wf E -> reachable E w -> W1 ⊆ S1 -> X1 ⊆ R1 -> W2 ⊆ S2 -> X2 ⊆ R2 ->
  stays_in S1 R1 W1 X1 l1 -> stays_in S2 R2 W2 X2 l2 -> W1 ## S2 -> W2 ## S1 -> X1 ## R2 -> X2 ## R1 ->
  refs_within S1 R1 w -> refs_within S2 R2 w -> interleaved l1 l2 s l ->
  trace E l1 w = Ok t1 w1 -> trace E l2 w = Ok t2 w2 ->
  exists t w', trace E l w = Ok t w' /\ interleaved t1 t2 s t /\
    (exists β, alike S1 R1 β w1 w') /\ (exists β, alike S2 R2 β w2 w') /\
    (forall i, i ∉ W1 ∪ W2 -> w_any w' !! i = w_any w !! i /\ forall b, owns w i b -> w_heap w' !! b = w_heap w !! b).
Proof.
  intros Hwf Hr HW1 HX1 HW2 HX2 Hs1 Hs2 D1 D2 D3 D4 Hw1 Hw2 Hil Ht1 Ht2.
  pose proof (reachable_inv _ _ Hwf Hr) as HI.
  destruct (interleave_like E S1 R1 W1 X1 S2 R2 W2 X2 HW1 HX1 HW2 HX2 D1 D2 D3 D4 l1 l2 s l Hil Hs1 Hs2
    _ _ w w w t1 t2 w1 w2 (start_like S1 R1 W1 w E HI Hw1 HW1) (start_like S2 R2 W2 w E HI Hw2 HW2)) as (t & w' & κ1 & κ2 & Ht & Hi & Ha1 & Ha2 & Hk & Hh); try done.
  - intros b c1 c2 [-> H1] [-> H2]. by eapply (start_apart W1 S2).
  - intros b c1 c2 [-> H1] [-> H2]. by eapply (start_apart W2 S1).
  - exists t, w'. split; [done|]. split; [done|]. split; [exists (rd κ1); apply Ha1|]. split; [exists (rd κ2); apply Ha2|].
    intros i Hni. split; [by apply Hk|]. intros b Hb. apply Hh.
    + destruct Hb as (a & Ha & Hp). pose proof (inv_ok _ _ HI _ _ Ha) as [_ Hok]. unfold block_of in Hok. rewrite Hp in Hok.
      destruct Hok as (? & ? & ? & Hx & _). by eapply (inv_fresh _ _ HI).
    + intros c [-> (j & Hj & a & Ha & Hp)]. destruct Hb as (a' & Ha' & Hp'). assert (i = j) as -> by (by eapply (inv_inj _ _ HI)). set_solver.
    + intros c [-> (j & Hj & a & Ha & Hp)]. destruct Hb as (a' & Ha' & Hp'). assert (i = j) as -> by (by eapply (inv_inj _ _ HI)). set_solver.
Qed.
