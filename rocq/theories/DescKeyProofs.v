(** Proofs: descriptors as keys. *)
From stdpp Require Import gmap list.
From Coq Require Import ZArith Sorted.
From Verif Require Import DescModel DescSpec DescProofs DescKeyModel DescKeySpec.

Lemma names_inj mem d s s' : names mem d s -> names mem d s' -> s = s'.
Proof.
  intros [_ H] [_ H']. destruct (desc_cmp_spec d d s s' H H') as (c & Hc & _ & He & _). apply He.
  pose proof (proj1 desc_order d s H) as E. rewrite Hc in E. by injection E.
Qed.
Lemma names_nul mem d s : names mem d s -> ~ In 0%Z s.
Proof. by intros [_ (r & _ & H)]. Qed.
Lemma less_names mem a b s t : names mem a s -> names mem b t -> exists c, desc_less a b = Some c /\ (c = true <-> before s t).
Proof.
  intros [_ Ha] [_ Hb]. destruct (desc_cmp_spec a b s t Ha Hb) as (c & Hc & Hl & _). unfold desc_less. rewrite Hc.
  exists (match c with Lt => true | _ => false end). split; [by destruct c|]. rewrite <- Hl. by destruct c.
Qed.
Lemma before_irrefl s : ~ before s s. Proof. apply (proj1 before_order). Qed.
Lemma before_trans s t r : ~ In 0%Z s -> ~ In 0%Z t -> ~ In 0%Z r -> before s t -> before t r -> before s r.
Proof. apply (proj1 (proj2 before_order)). Qed.
Lemma before_total s t : ~ In 0%Z s -> ~ In 0%Z t -> before s t \/ s = t \/ before t s.
Proof. apply (proj2 (proj2 before_order)). Qed.
Lemma before_not s t : ~ In 0%Z s -> ~ In 0%Z t -> before s t -> ~ before t s.
Proof. intros Hs Ht H H'. apply (before_irrefl s). by apply (before_trans s t s). Qed.

Section Tree.
  Context {X : Type} (mem : nat -> chars).
  Notation entry := (fun (p : descriptor * X) (q : chars * X) => names mem p.1 q.1 /\ p.2 = q.2).
  Notation order := (fun p q : chars * X => before p.1 q.1).
  Definition holds (t : dtree X) (L : list (chars * X)) : Prop := Forall2 entry (in_order t) L /\ StronglySorted order L.
  Lemma sorted_app L1 L2 : StronglySorted order (L1 ++ L2) <->
    StronglySorted order L1 /\ StronglySorted order L2 /\ forall p q, In p L1 -> In q L2 -> before p.1 q.1.
  Proof.
    induction L1 as [|p L1 IH]; cbn.
    - split; [intros H; split; [constructor|]; split; [done|intros p q []]|tauto].
    - split.
      + intros H. apply StronglySorted_inv in H as [H Hf]. apply IH in H as (H1 & H2 & H3). rewrite Forall_app in Hf. destruct Hf as [Hf1 Hf2].
        split; [by constructor|]. split; [done|]. intros p' q [<-|Hp] Hq; [|by apply H3]. rewrite Forall_forall in Hf2. apply Hf2. by apply elem_of_list_In.
      + intros (H1 & H2 & H3). apply StronglySorted_inv in H1 as [H1 Hf]. constructor; [apply IH; split; [done|]; split; [done|]; intros; apply H3; tauto|].
        apply Forall_app. split; [done|]. apply Forall_forall. intros q Hq. apply H3; [by left|by apply elem_of_list_In].
  Qed.
  Lemma sorted_cons p L : StronglySorted order (p :: L) <-> StronglySorted order L /\ forall q, In q L -> before p.1 q.1.
  Proof.
    split.
    - intros H. apply StronglySorted_inv in H as [H Hf]. split; [done|]. intros q Hq. rewrite Forall_forall in Hf. apply Hf. by apply elem_of_list_In.
    - intros [H Hf]. constructor; [done|]. apply Forall_forall. intros q Hq. apply Hf. by apply elem_of_list_In.
  Qed.
  Lemma holds_node l j y r L : holds (DNode l j y r) L <-> exists L1 n L2, L = L1 ++ (n, y) :: L2 /\ holds l L1 /\ holds r L2 /\ names mem j n /\
    (forall p, In p L1 -> before p.1 n) /\ (forall q, In q L2 -> before n q.1) /\ (forall p q, In p L1 -> In q L2 -> before p.1 q.1).
  Proof.
    unfold holds. cbn [in_order]. split.
    - intros [HF HS]. apply Forall2_app_inv_l in HF as (L1 & L2' & HF1 & HF2 & ->). apply Forall2_cons_inv_l in HF2 as ([n y'] & L2 & [Hn Hy] & HF2 & ->).
      cbn in Hn, Hy. subst y'. apply sorted_app in HS as (H1 & H2 & H3). apply sorted_cons in H2 as [H2 H4].
      exists L1, n, L2. split; [done|]. split; [done|]. split; [done|]. split; [done|]. split; [intros p Hp; apply (H3 p (n, y) Hp); by left|].
      split; [by apply H4|]. intros p q Hp Hq. apply H3; [done|by right].
    - intros (L1 & n & L2 & -> & [HF1 HS1] & [HF2 HS2] & Hn & H1 & H2 & H3). split.
      + apply Forall2_app; [done|]. by constructor.
      + apply sorted_app. split; [done|]. split; [by apply sorted_cons|]. intros p q Hp [<-|Hq]; [by apply H1|by apply H3].
  Qed.
  Lemma holds_nul t L q : holds t L -> In q L -> ~ In 0%Z q.1.
  Proof.
    intros [HF _] Hq. apply elem_of_list_In, elem_of_list_lookup in Hq as [i Hi]. destruct (Forall2_lookup_r _ _ _ _ _ HF Hi) as (p & _ & Hn & _).
    by eapply names_nul.
  Qed.
  Definition abs (L : list (chars * X)) : gmap chars X := list_to_map L.
  Lemma abs_none (L : list (chars * X)) s : (forall q, In q L -> q.1 <> s) -> abs L !! s = None.
  Proof. intros H. apply not_elem_of_list_to_map_1. intros (q & Hs & Hq)%elem_of_list_fmap. apply (H q); [by apply elem_of_list_In|done]. Qed.
  Lemma abs_app L1 L2 s : abs (L1 ++ L2) !! s = match abs L1 !! s with Some x => Some x | None => abs L2 !! s end.
  Proof.
    induction L1 as [|[n y] L1 IH]; cbn.
    - by rewrite lookup_empty.
    - destruct (decide (n = s)) as [->|Hn]; [by rewrite !lookup_insert|by rewrite !lookup_insert_ne].
  Qed.
  Lemma abs_cons n y L s : abs ((n, y) :: L) !! s = if decide (n = s) then Some y else abs L !! s.
  Proof. cbn. destruct (decide (n = s)) as [->|Hn]; [by rewrite lookup_insert|by rewrite lookup_insert_ne]. Qed.
  Lemma before_ne s t : before s t -> s <> t.
  Proof. intros H ->. by apply (before_irrefl t). Qed.

  Lemma lower_ok t : forall L k s y, holds t L -> names mem k s -> exists z, map_lower t k y = Some z /\
    ((z = y /\ forall q, In q L -> before q.1 s) \/
     exists A n x B d, L = A ++ (n, x) :: B /\ (forall q, In q A -> before q.1 s) /\ ~ before n s /\ z = Some (d, x) /\ names mem d n).
  Proof.
    induction t as [|l IHl j x r IHr]; intros L k s y H Hk.
    - exists y. split; [done|]. left. split; [done|]. destruct H as [HF _]. apply Forall2_nil_inv_l in HF as ->. intros q [].
    - pose proof (fun q => holds_nul _ _ q H) as Hnul.
      apply holds_node in H as (L1 & n & L2 & -> & H1 & H2 & Hn & Hb1 & Hb2 & _).
      assert (N1 : ~ In 0%Z n) by by eapply names_nul. assert (N2 : ~ In 0%Z s) by by eapply names_nul.
      destruct (less_names mem j k n s Hn Hk) as (c & Hc & Hlt). cbn [map_lower]. rewrite Hc. destruct c.
      + assert (Hns : before n s) by by apply Hlt.
        assert (Hl : forall q, In q (L1 ++ [(n, x)]) -> before q.1 s).
        { intros q [Hq|[<-|[]]]%in_app_or; [|done]. apply (before_trans q.1 n s); try done; [apply Hnul, in_or_app; by left|by apply Hb1]. }
        destruct (IHr L2 k s y H2 Hk) as (z & Hz & [[-> Ha]|(A & m & v & B & d & -> & HA & Hm & -> & Hd)]).
        * exists y. split; [done|]. left. split; [done|]. intros q [Hq|[<-|Hq]]%in_app_or; [apply Hl, in_or_app; by left|done|by apply Ha].
        * eexists. split; [done|]. right. exists (L1 ++ (n, x) :: A), m, v, B, d. rewrite <- app_assoc. cbn. split; [done|].
          split; [|done]. intros q [Hq|[<-|Hq]]%in_app_or; [apply Hl, in_or_app; by left|done|by apply HA].
      + assert (Hns : ~ before n s) by (intros Hb; apply Hlt in Hb; done).
        destruct (IHl L1 k s (Some (j, x)) H1 Hk) as (z & Hz & [[-> Ha]|(A & m & v & B & d & -> & HA & Hm & -> & Hd)]).
        * eexists. split; [done|]. right. exists L1, n, x, L2, j. done.
        * eexists. split; [done|]. right. exists A, m, v, (B ++ (n, x) :: L2), d. rewrite <- app_assoc. done.
  Qed.
  Lemma find_ok t L k s : holds t L -> names mem k s -> map_find t k = Some (abs L !! s).
  Proof.
    intros H Hk. unfold map_find. destruct (lower_ok t L k s None H Hk) as (z & -> & [[-> Ha]|(A & n & x & B & d & HL & HA & Hm & -> & Hd)]).
    - f_equal. symmetry. apply abs_none. intros q Hq. by apply before_ne, Ha.
    - assert (N1 : ~ In 0%Z n) by by eapply names_nul. assert (N2 : ~ In 0%Z s) by by eapply names_nul.
      destruct (less_names mem k d s n Hk Hd) as (c & Hc & Hlt). rewrite Hc. subst L.
      rewrite abs_app, (abs_none A) by (intros q Hq; by apply before_ne, HA). rewrite abs_cons. destruct H as [_ HS].
      apply sorted_app in HS as (_ & HS & _). apply sorted_cons in HS as [_ HS]. destruct c.
      + assert (Hb : before s n) by by apply Hlt. rewrite decide_False by (intros ->; by apply (before_irrefl s)).
        f_equal. symmetry. apply abs_none. intros q Hq Hqs. apply (before_not s n); try done. rewrite <- Hqs. by apply (HS q).
      + destruct (before_total n s N1 N2) as [Hb|[->|Hb]]; [done|by rewrite decide_True|]. apply Hlt in Hb. done.
  Qed.
  (** the comparisons made by map_put and map_erase *)
  Lemma compares j n k s : names mem j n -> names mem k s ->
    (before n s /\ exists c, desc_less j k = Some true /\ desc_less k j = Some c) \/
    (before s n /\ desc_less j k = Some false /\ desc_less k j = Some true) \/
    (s = n /\ desc_less j k = Some false /\ desc_less k j = Some false).
  Proof.
    intros Hj Hk. assert (N1 : ~ In 0%Z n) by by eapply names_nul. assert (N2 : ~ In 0%Z s) by by eapply names_nul.
    destruct (less_names mem j k n s Hj Hk) as (c & Hc & Hl). destruct (less_names mem k j s n Hk Hj) as (c' & Hc' & Hl').
    destruct (before_total n s N1 N2) as [Hb|[->|Hb]].
    - left. split; [done|]. exists c'. split; [|done]. rewrite Hc. by rewrite (proj2 Hl Hb).
    - right. right. split; [done|]. split; [rewrite Hc; destruct c; [|done]|rewrite Hc'; destruct c'; [|done]].
      + exfalso. apply (before_irrefl s). by apply Hl.
      + exfalso. apply (before_irrefl s). by apply Hl'.
    - right. left. split; [done|]. split; [rewrite Hc; destruct c; [|done]|rewrite Hc'; by rewrite (proj2 Hl' Hb)].
      exfalso. apply (before_not s n); try done. by apply Hl.
  Qed.
  Lemma put_ok t : forall L k s x, holds t L -> names mem k s -> exists t' L', map_put t k x = Some t' /\ holds t' L' /\
    (forall q, In q L' -> q.1 = s \/ In q L) /\ forall s', abs L' !! s' = if decide (s = s') then Some x else abs L !! s'.
  Proof.
    induction t as [|l IHl j y r IHr]; intros L k s x H Hk.
    - destruct H as [HF _]. apply Forall2_nil_inv_l in HF as ->. exists (DNode DLeaf k x DLeaf), [(s, x)]. split; [done|]. split.
      + split; [cbn; constructor; [done|apply Forall2_nil; done]|constructor; constructor].
      + split; [intros q [<-|[]]; by left|]. intros s'. by rewrite abs_cons.
    - apply holds_node in H as (L1 & n & L2 & -> & H1 & H2 & Hn & Hb1 & Hb2 & Hb3). cbn [map_put].
      destruct (compares j n k s Hn Hk) as [(Hb & c & -> & ->)|[(Hb & -> & ->)|(-> & -> & ->)]].
      + destruct (IHr L2 k s x H2 Hk) as (r' & L' & -> & Hr & Hin & Habs). exists (DNode l j y r'), (L1 ++ (n, y) :: L'). split; [done|].
        split; [|split].
        * apply holds_node. exists L1, n, L'. split; [done|]. split; [done|]. split; [done|]. split; [done|]. split; [done|]. split.
          -- intros q Hq. destruct (Hin q Hq) as [->|Hq']; [done|by apply Hb2].
          -- intros p q Hp Hq. destruct (Hin q Hq) as [->|Hq']; [|by apply Hb3]. apply (before_trans p.1 n s); [exact (holds_nul _ _ _ H1 Hp)|by eapply names_nul|by eapply names_nul|by apply Hb1|done].
        * intros q [Hq|[<-|Hq]]%in_app_or; [right; apply in_or_app; by left|right; apply in_or_app; right; by left|].
          destruct (Hin q Hq) as [->|Hq']; [by left|right; apply in_or_app; right; by right].
        * intros s'. rewrite !abs_app, !abs_cons, Habs. destruct (decide (s = s')) as [<-|]; [|done].
          rewrite (abs_none L1). { rewrite decide_False; [done|by apply before_ne]. }
          intros q Hq. apply before_ne. apply (before_trans q.1 n s); [exact (holds_nul _ _ _ H1 Hq)|by eapply names_nul|by eapply names_nul|by apply Hb1|done].
      + destruct (IHl L1 k s x H1 Hk) as (l' & L' & -> & Hl & Hin & Habs). exists (DNode l' j y r), (L' ++ (n, y) :: L2). split; [done|].
        split; [|split].
        * apply holds_node. exists L', n, L2. split; [done|]. split; [done|]. split; [done|]. split; [done|]. split; [|split; [done|]].
          -- intros q Hq. destruct (Hin q Hq) as [->|Hq']; [done|by apply Hb1].
          -- intros p q Hp Hq. destruct (Hin p Hp) as [->|Hp']; [|by apply Hb3]. apply (before_trans s n q.1); [by eapply names_nul|by eapply names_nul|exact (holds_nul _ _ _ H2 Hq)|done|by apply Hb2].
        * intros q [Hq|[<-|Hq]]%in_app_or; [|right; apply in_or_app; right; by left|right; apply in_or_app; right; by right].
          destruct (Hin q Hq) as [->|Hq']; [by left|right; apply in_or_app; by left].
        * intros s'. rewrite !abs_app, Habs. destruct (decide (s = s')) as [<-|]; done.
      + exists (DNode l j x r), (L1 ++ (n, x) :: L2). split; [done|]. split; [|split].
        * apply holds_node. by exists L1, n, L2.
        * intros q [Hq|[<-|Hq]]%in_app_or; [right; apply in_or_app; by left|by left|right; apply in_or_app; right; by right].
        * intros s'. rewrite !abs_app, !abs_cons. destruct (decide (n = s')) as [<-|]; [|done]. rewrite (abs_none L1); [done|]. intros q Hq. by apply before_ne, Hb1.
  Qed.
  Lemma join_in_order (l r : dtree X) : in_order (map_join l r) = in_order l ++ in_order r.
  Proof. induction l as [|a _ j x b IH]; cbn; [done|]. by rewrite IH, <- app_assoc. Qed.
  Lemma erase_ok t : forall L k s, holds t L -> names mem k s -> exists t' L', map_erase t k = Some t' /\ holds t' L' /\
    (forall q, In q L' -> In q L) /\ forall s', abs L' !! s' = if decide (s = s') then None else abs L !! s'.
  Proof.
    induction t as [|l IHl j y r IHr]; intros L k s H Hk.
    - exists DLeaf, L. split; [done|]. split; [done|]. split; [done|]. destruct H as [HF _]. apply Forall2_nil_inv_l in HF as ->. intros s'. cbn. rewrite lookup_empty. by destruct (decide _).
    - apply holds_node in H as (L1 & n & L2 & -> & H1 & H2 & Hn & Hb1 & Hb2 & Hb3). cbn [map_erase].
      destruct (compares j n k s Hn Hk) as [(Hb & c & -> & ->)|[(Hb & -> & ->)|(-> & -> & ->)]].
      + destruct (IHr L2 k s H2 Hk) as (r' & L' & -> & Hr & Hin & Habs). exists (DNode l j y r'), (L1 ++ (n, y) :: L'). split; [done|].
        split; [|split].
        * apply holds_node. exists L1, n, L'. split; [done|]. split; [done|]. split; [done|]. split; [done|]. split; [done|]. split; [by auto|by auto].
        * intros q [Hq|[<-|Hq]]%in_app_or; [apply in_or_app; by left|apply in_or_app; right; by left|apply in_or_app; right; right; by apply Hin].
        * intros s'. rewrite !abs_app, !abs_cons, Habs. destruct (decide (s = s')) as [<-|]; [|done].
          rewrite (abs_none L1). { rewrite decide_False; [done|by apply before_ne]. }
          intros q Hq. apply before_ne. apply (before_trans q.1 n s); [exact (holds_nul _ _ _ H1 Hq)|by eapply names_nul|by eapply names_nul|by apply Hb1|done].
      + destruct (IHl L1 k s H1 Hk) as (l' & L' & -> & Hl & Hin & Habs). exists (DNode l' j y r), (L' ++ (n, y) :: L2). split; [done|].
        split; [|split].
        * apply holds_node. exists L', n, L2. split; [done|]. split; [done|]. split; [done|]. split; [done|]. split; [by auto|split; [done|by auto]].
        * intros q [Hq|[<-|Hq]]%in_app_or; [apply in_or_app; left; by apply Hin|apply in_or_app; right; by left|apply in_or_app; right; by right].
        * intros s'. rewrite !abs_app, Habs, !abs_cons. destruct (decide (s = s')) as [<-|]; [|done].
          rewrite decide_False by (intros E; by apply (before_ne s n)). apply abs_none. intros q Hq E. symmetry in E. revert E. apply before_ne.
          apply (before_trans s n q.1); [by eapply names_nul|by eapply names_nul|exact (holds_nul _ _ _ H2 Hq)|done|by apply Hb2].
      + exists (map_join l r), (L1 ++ L2). split; [done|]. split; [|split].
        * destruct H1 as [F1 S1], H2 as [F2 S2]. split; [rewrite join_in_order; by apply Forall2_app|]. apply sorted_app. done.
        * intros q [Hq|Hq]%in_app_or; apply in_or_app; [by left|right; by right].
        * intros s'. rewrite !abs_app, !abs_cons. destruct (decide (n = s')) as [<-|]; [|done].
          rewrite (abs_none L1), (abs_none L2); [done| |].
          -- intros q Hq E. symmetry in E. revert E. by apply before_ne, Hb2.
          -- intros q Hq. by apply before_ne, Hb1.
  Qed.
  Lemma history_holds t m : map_history mem t m -> exists L, holds t L /\ abs L = m.
  Proof.
    induction 1 as [|t m d s x t' _ (L & HL & <-) Hd Ht|t m d s t' _ (L & HL & <-) Hd Ht|t m t' _ (L & HL & <-) He].
    - exists []. split; [split; constructor|done].
    - destruct (put_ok t L d s x HL Hd) as (t1 & L' & Ht1 & HL' & _ & Ha). rewrite Ht in Ht1. injection Ht1 as <-. exists L'. split; [done|].
      apply map_eq. intros s'. rewrite Ha. destruct (decide (s = s')) as [<-|]; [by rewrite lookup_insert|by rewrite lookup_insert_ne].
    - destruct (erase_ok t L d s HL Hd) as (t1 & L' & Ht1 & HL' & _ & Ha). rewrite Ht in Ht1. injection Ht1 as <-. exists L'. split; [done|].
      apply map_eq. intros s'. rewrite Ha. destruct (decide (s = s')) as [<-|]; [by rewrite lookup_delete|by rewrite lookup_delete_ne].
    - exists L. split; [|done]. unfold holds. by rewrite He.
  Qed.
  Lemma sorted_nodup L : (forall q, In q L -> ~ In 0%Z q.1) -> StronglySorted order L -> NoDup L.*1.
  Proof.
    intros Hn. induction L as [|p L IH]; intros HS; cbn; [constructor|]. apply sorted_cons in HS as [HS Hp]. constructor.
    - intros (q & E & Hq)%elem_of_list_fmap. apply (before_ne p.1 q.1); [apply Hp; by apply elem_of_list_In|done].
    - apply IH; [|done]. intros q Hq. apply Hn. by right.
  Qed.
  Lemma map_find_names (t : dtree X) m : map_history mem t m -> forall d s, names mem d s -> map_find t d = Some (m !! s).
  Proof. intros H d s Hd. destruct (history_holds t m H) as (L & HL & <-). by apply find_ok. Qed.
  Lemma map_goes_on (t : dtree X) m : map_history mem t m -> forall d s x, names mem d s -> is_Some (map_put t d x) /\ is_Some (map_erase t d).
  Proof.
    intros H d s x Hd. destruct (history_holds t m H) as (L & HL & _). destruct (put_ok t L d s x HL Hd) as (t1 & _ & -> & _).
    destruct (erase_ok t L d s HL Hd) as (t2 & _ & -> & _). by split.
  Qed.
  Lemma map_iterates (t : dtree X) m : map_history mem t m -> lists mem (in_order t) m.
  Proof.
    intros H. destruct (history_holds t m H) as (L & HL & <-). exists L. split; [apply HL|]. split; [apply HL|]. symmetry. apply map_to_list_to_map.
    apply sorted_nodup; [|apply HL]. intros q. by apply holds_nul with t.
  Qed.
End Tree.
