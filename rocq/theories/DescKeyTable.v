(** Proofs: descriptors as keys of std::unordered_map. *)
From stdpp Require Import gmap list.
From Coq Require Import ZArith.
From Verif Require Import DescModel DescSpec DescProofs DescKeyModel DescKeySpec DescKeyProofs.

Section Table.
  Context {X : Type} (mem : nat -> chars) (h : chars -> nat) (cached : bool).
  Notation node := (nat * descriptor * X)%type.
  Definition node_ok (p : node) (q : chars * X) : Prop := names mem p.1.2 q.1 /\ p.1.1 = h q.1 /\ p.2 = q.2.
  Definition bucket_ok (b : list node) (L : list (chars * X)) : Prop := Forall2 node_ok b L /\ NoDup L.*1.

  Lemma names_memory d d' s s' : names mem d s -> names mem d' s' -> same_memory d d'.
  Proof. intros [H _] [H' _] E. by rewrite H, H', E. Qed.
  Lemma hash_ok d s : names mem d s -> desc_hash h d = Some (h s).
  Proof. intros H. by apply (desc_hash_spec h d d s s (proj2 H) (proj2 H)). Qed.
  Lemma key_ok k s p q : names mem k s -> node_ok p q -> same_key cached (h s) k p = Some (bool_decide (s = q.1)).
  Proof.
    intros Hk (Hn & Hc & _). unfold same_key. rewrite Hc. destruct (cached && negb (h q.1 =? h s)) eqn:E.
    - f_equal. symmetry. apply bool_decide_eq_false. intros ->. apply andb_prop in E as [_ E]. by rewrite Nat.eqb_refl in E.
    - destruct (desc_eq_spec k p.1.2 s q.1 (proj2 Hk) (proj2 Hn)) as (e & -> & _ & _ & He); [by eapply names_memory|].
      f_equal. destruct e; symmetry; [apply bool_decide_eq_true; by apply He|apply bool_decide_eq_false; intros E'; by apply He in E'].
  Qed.
  Lemma abs_notin (L : list (chars * X)) s : s ∉ L.*1 -> abs L !! s = None.
  Proof. apply not_elem_of_list_to_map_1. Qed.
  Lemma find_in_ok b : forall L k s, bucket_ok b L -> names mem k s -> find_in cached (h s) k b = Some (abs L !! s).
  Proof.
    induction b as [|p b IH]; intros L k s [HF HN] Hk.
    - apply Forall2_nil_inv_l in HF as ->. cbn. by rewrite lookup_empty.
    - apply Forall2_cons_inv_l in HF as ([n x] & L' & Hp & HF & ->). cbn [find_in]. rewrite (key_ok k s p _ Hk Hp), abs_cons. cbn [fst].
      apply NoDup_cons in HN as [Hni HN]. destruct (decide (n = s)) as [->|Hne].
      + rewrite bool_decide_eq_true_2 by done. by destruct Hp as (_ & _ & ->).
      + rewrite bool_decide_eq_false_2 by done. by apply IH.
  Qed.
  Lemma put_in_ok b : forall L k s x, bucket_ok b L -> names mem k s -> exists b' L', put_in cached (h s) k x b = Some b' /\ bucket_ok b' L' /\
    (forall n, n ∈ L'.*1 -> n = s \/ n ∈ L.*1) /\ forall s', abs L' !! s' = if decide (s = s') then Some x else abs L !! s'.
  Proof.
    induction b as [|p b IH]; intros L k s x [HF HN] Hk.
    - apply Forall2_nil_inv_l in HF as ->. exists [(h s, k, x)], [(s, x)]. split; [done|]. split.
      + split; [constructor; [done|apply Forall2_nil; done]|cbn; apply NoDup_singleton].
      + split; [intros n Hn; cbn in Hn; apply elem_of_list_singleton in Hn; by left|]. intros s'. by rewrite abs_cons.
    - apply Forall2_cons_inv_l in HF as ([n y] & L' & Hp & HF & ->). cbn [put_in]. rewrite (key_ok k s p _ Hk Hp). cbn [fst].
      apply NoDup_cons in HN as [Hni HN]. destruct (decide (n = s)) as [->|Hne].
      + rewrite bool_decide_eq_true_2 by done. exists ((p.1, x) :: b), ((s, x) :: L'). split; [done|]. split.
        * split; [constructor; [by destruct Hp as (H1 & H2 & _)|done]|by constructor].
        * split; [intros n Hn; by right|]. intros s'. rewrite !abs_cons. by destruct (decide (s = s')).
      + rewrite bool_decide_eq_false_2 by done. destruct (IH L' k s x (conj HF HN) Hk) as (b' & L1 & -> & [HF1 HN1] & Hin & Ha).
        exists (p :: b'), ((n, y) :: L1). split; [done|]. split; [|split].
        * split; [by constructor|]. constructor; [|done]. intros Hn. destruct (Hin n Hn) as [->|]; done.
        * intros n' Hn. cbn in Hn. apply elem_of_cons in Hn as [->|Hn]; [right; apply elem_of_cons; by left|].
          destruct (Hin n' Hn) as [->|]; [by left|right; apply elem_of_cons; by right].
        * intros s'. rewrite !abs_cons, Ha. destruct (decide (s = s')) as [<-|]; [by rewrite decide_False|done].
  Qed.
  Lemma erase_in_ok b : forall L k s, bucket_ok b L -> names mem k s -> exists b' L', erase_in cached (h s) k b = Some b' /\ bucket_ok b' L' /\
    (forall n, n ∈ L'.*1 -> n ∈ L.*1) /\ forall s', abs L' !! s' = if decide (s = s') then None else abs L !! s'.
  Proof.
    induction b as [|p b IH]; intros L k s [HF HN] Hk.
    - apply Forall2_nil_inv_l in HF as ->. exists [], []. split; [done|]. split; [split; [by apply Forall2_nil|constructor]|]. split; [done|].
      intros s'. cbn. rewrite lookup_empty. by destruct (decide _).
    - apply Forall2_cons_inv_l in HF as ([n y] & L' & Hp & HF & ->). cbn [erase_in]. rewrite (key_ok k s p _ Hk Hp). cbn [fst].
      apply NoDup_cons in HN as [Hni HN]. destruct (decide (n = s)) as [->|Hne].
      + rewrite bool_decide_eq_true_2 by done. exists b, L'. split; [done|]. split; [done|]. split; [intros n Hn; apply elem_of_cons; by right|].
        intros s'. rewrite abs_cons. destruct (decide (s = s')) as [<-|]; [by apply abs_notin|done].
      + rewrite bool_decide_eq_false_2 by done. destruct (IH L' k s (conj HF HN) Hk) as (b' & L1 & -> & [HF1 HN1] & Hin & Ha).
        exists (p :: b'), ((n, y) :: L1). split; [done|]. split; [|split].
        * split; [by constructor|]. constructor; [|done]. intros Hn. by apply Hni, Hin.
        * intros n' Hn. cbn in Hn. apply elem_of_cons in Hn as [->|Hn]; apply elem_of_cons; [by left|right; by apply Hin].
        * intros s'. rewrite !abs_cons, Ha. destruct (decide (s = s')) as [<-|]; [by rewrite decide_False|done].
  Qed.

  Definition at_bucket (N i : nat) (b : list node) (m : gmap chars X) : Prop :=
    exists L, bucket_ok b L /\ (forall n, n ∈ L.*1 -> h n mod N = i) /\ forall n, h n mod N = i -> abs L !! n = m !! n.
  Definition good (t : list (list node)) (m : gmap chars X) : Prop :=
    0 < length t /\ forall i b, t !! i = Some b -> at_bucket (length t) i b m.
  Lemma good_bucket t m s : good t m -> exists b, t !! (h s mod length t) = Some b /\ at_bucket (length t) (h s mod length t) b m.
  Proof.
    intros [Hl H]. destruct (lookup_lt_is_Some_2 t (h s mod length t)) as [b Hb]; [apply Nat.mod_upper_bound; lia|]. exists b. split; [done|]. by apply H.
  Qed.
  Lemma good_insert t m m' s b : good t m -> (forall n, n <> s -> m' !! n = m !! n) -> at_bucket (length t) (h s mod length t) b m' ->
    good (<[h s mod length t := b]> t) m'.
  Proof.
    intros [Hl H] Hm Hb. split; [by rewrite insert_length|]. rewrite insert_length. intros i b' Hi.
    apply list_lookup_insert_Some in Hi as [(<- & <- & _)|[Hne Hi]]; [done|]. destruct (H i b' Hi) as (L & HL & Hn & Ha). exists L. split; [done|]. split; [done|].
    intros n Hi'. rewrite Ha by done. symmetry. apply Hm. intros ->. done.
  Qed.
  Lemma table_find_ok t m d s : good t m -> names mem d s -> table_find h cached t d = Some (m !! s).
  Proof.
    intros Hg Hd. unfold table_find. rewrite (hash_ok d s Hd). destruct (good_bucket t m s Hg) as (b & -> & L & HL & _ & Ha).
    rewrite (find_in_ok b L d s HL Hd). by rewrite Ha.
  Qed.
  Lemma table_put_ok t m d s x : good t m -> names mem d s -> exists t', table_put h cached t d x = Some t' /\ good t' (<[s := x]> m).
  Proof.
    intros Hg Hd. unfold table_put, table_change. rewrite (hash_ok d s Hd). destruct (good_bucket t m s Hg) as (b & -> & L & HL & Hn & Ha).
    destruct (put_in_ok b L d s x HL Hd) as (b' & L' & -> & HL' & Hin & Ha'). eexists. split; [done|].
    apply (good_insert t m); [done|intros n Hne; by rewrite lookup_insert_ne|]. exists L'. split; [done|]. split.
    - intros n Hn'. destruct (Hin n Hn') as [->|]; [done|by apply Hn].
    - intros n Hn'. rewrite Ha'. destruct (decide (s = n)) as [<-|]; [by rewrite lookup_insert|rewrite lookup_insert_ne by done; by apply Ha].
  Qed.
  Lemma table_erase_ok t m d s : good t m -> names mem d s -> exists t', table_erase h cached t d = Some t' /\ good t' (delete s m).
  Proof.
    intros Hg Hd. unfold table_erase, table_change. rewrite (hash_ok d s Hd). destruct (good_bucket t m s Hg) as (b & -> & L & HL & Hn & Ha).
    destruct (erase_in_ok b L d s HL Hd) as (b' & L' & -> & HL' & Hin & Ha'). eexists. split; [done|].
    apply (good_insert t m); [done|intros n Hne; by rewrite lookup_delete_ne|]. exists L'. split; [done|]. split.
    - intros n Hn'. by apply Hn, Hin.
    - intros n Hn'. rewrite Ha'. destruct (decide (s = n)) as [<-|]; [by rewrite lookup_delete|rewrite lookup_delete_ne by done; by apply Ha].
  Qed.
  Lemma good_new n : 0 < n -> good (replicate n []) ∅.
  Proof.
    intros Hn. split; [by rewrite replicate_length|]. intros i b Hi. apply lookup_replicate in Hi as [-> _]. exists [].
    split; [split; [by apply Forall2_nil|constructor]|]. split; [intros n' H; by apply elem_of_nil in H|done].
  Qed.
  Lemma place_ok l : forall L t m, bucket_ok l L -> good t m -> (forall n, n ∈ L.*1 -> m !! n = None) ->
    exists t', table_place h cached l t = Some t' /\ good t' (abs L ∪ m).
  Proof.
    induction l as [|p l IH]; intros L t m [HF HN] Hg Hnone.
    - apply Forall2_nil_inv_l in HF as ->. exists t. split; [done|]. cbn. by rewrite (left_id_L ∅ (∪)).
    - apply Forall2_cons_inv_l in HF as ([s x] & L' & Hp & HF & ->). apply NoDup_cons in HN as [Hni HN]. cbn in Hni, HN.
      assert (Hc : (if cached then Some p.1.1 else desc_hash h p.1.2) = Some (h s)).
      { destruct Hp as (H1 & H2 & _). destruct cached; [by rewrite H2|by apply hash_ok]. }
      cbn [table_place]. rewrite Hc. destruct (good_bucket t m s Hg) as (b & -> & Lb & [HLb HNb] & Hn & Ha).
      assert (Hs : s ∉ Lb.*1).
      { intros Hs. assert (Hms : m !! s = None) by (apply Hnone; apply elem_of_cons; by left). rewrite <- (Ha s) in Hms by done.
        apply not_elem_of_list_to_map_2 in Hms. done. }
      destruct (IH L' (<[h s mod length t := (h s, p.1.2, p.2) :: b]> t) (<[s := x]> m)) as (t' & -> & Ht').
      + done.
      + apply (good_insert t m); [done|intros n Hne; by rewrite lookup_insert_ne|]. exists ((s, x) :: Lb). split; [|split].
        * split; [constructor; [|done]|by constructor]. destruct Hp as (H1 & _ & H3). done.
        * intros n Hn'. cbn in Hn'. apply elem_of_cons in Hn' as [->|Hn']; [done|by apply Hn].
        * intros n Hn'. rewrite abs_cons. destruct (decide (s = n)) as [<-|]; [by rewrite lookup_insert|rewrite lookup_insert_ne by done; by apply Ha].
      + intros n Hn'. rewrite lookup_insert_ne by (intros <-; done). apply Hnone. apply elem_of_cons. by right.
      + exists t'. split; [done|]. replace (abs ((s, x) :: L') ∪ m) with (abs L' ∪ <[s := x]> m); [done|].
        change (abs ((s, x) :: L')) with (<[s := x]> (abs L')). rewrite <- insert_union_l. rewrite insert_union_r; [done|]. by apply abs_notin.
  Qed.
  Lemma concat_ok N m (t : list (list node)) : forall o, (forall i b, t !! i = Some b -> at_bucket N (o + i) b m) ->
    exists L, bucket_ok (concat t) L /\ (forall n, n ∈ L.*1 -> o <= h n mod N < o + length t) /\
      forall n, o <= h n mod N < o + length t -> abs L !! n = m !! n.
  Proof.
    induction t as [|b t IH]; intros o H.
    - exists []. split; [split; [by apply Forall2_nil|constructor]|]. split; [intros n Hn; by apply elem_of_nil in Hn|]. cbn. lia.
    - destruct (H 0 b eq_refl) as (L1 & [HF1 HN1] & Hn1 & Ha1). rewrite Nat.add_0_r in Hn1, Ha1.
      destruct (IH (S o)) as (L2 & [HF2 HN2] & Hn2 & Ha2).
      { intros i b' Hi. replace (S o + i) with (o + S i) by lia. by apply H. }
      exists (L1 ++ L2). split; [split; [by apply Forall2_app|]|split].
      + rewrite fmap_app. apply NoDup_app. split; [done|]. split; [|done]. intros n Hn Hn'. specialize (Hn1 n Hn). specialize (Hn2 n Hn'). lia.
      + intros n Hn. rewrite fmap_app in Hn. cbn [length]. apply elem_of_app in Hn as [Hn|Hn]; [specialize (Hn1 n Hn)|specialize (Hn2 n Hn)]; lia.
      + intros n Hn. cbn [length] in Hn. rewrite abs_app. destruct (decide (h n mod N = o)) as [E|E].
        * rewrite (abs_notin L2), (Ha1 n E) by (intros Hn'; specialize (Hn2 n Hn'); lia). by destruct (m !! n).
        * rewrite (abs_notin L1) by (intros Hn'; specialize (Hn1 n Hn'); lia). apply Ha2. lia.
  Qed.
  Lemma table_rehash_ok t m n : good t m -> 0 < n -> exists t', table_rehash h cached t n = Some t' /\ good t' m.
  Proof.
    intros [Hl H] Hn. destruct (concat_ok (length t) m t 0 H) as (L & HL & _ & Ha).
    destruct (place_ok (concat t) L (replicate n []) ∅ HL (good_new n Hn)) as (t' & Ht & Hg); [done|]. exists t'. split; [done|].
    replace m with (abs L ∪ ∅); [done|]. rewrite (right_id_L ∅ (∪)). apply map_eq. intros s. apply Ha.
    pose proof (Nat.mod_upper_bound (h s) (length t)). lia.
  Qed.
  Lemma table_good t m : table_history mem h cached t m -> good t m.
  Proof.
    induction 1 as [n Hn|t m d s x t' _ IH Hd Ht|t m d s t' _ IH Hd Ht|t m n t' _ IH Hn Ht].
    - by apply good_new.
    - destruct (table_put_ok t m d s x IH Hd) as (t1 & Ht1 & Hg). rewrite Ht in Ht1. by injection Ht1 as <-.
    - destruct (table_erase_ok t m d s IH Hd) as (t1 & Ht1 & Hg). rewrite Ht in Ht1. by injection Ht1 as <-.
    - destruct (table_rehash_ok t m n IH Hn) as (t1 & Ht1 & Hg). rewrite Ht in Ht1. by injection Ht1 as <-.
  Qed.
  Lemma table_find_names (t : list (list node)) m : table_history mem h cached t m -> forall d s, names mem d s -> table_find h cached t d = Some (m !! s).
  Proof. intros H d s Hd. apply table_find_ok; [by apply table_good|done]. Qed.
  Lemma table_goes_on (t : list (list node)) m : table_history mem h cached t m -> forall d s x n, names mem d s -> 0 < n ->
    is_Some (table_put h cached t d x) /\ is_Some (table_erase h cached t d) /\ is_Some (table_rehash h cached t n).
  Proof.
    intros H d s x n Hd Hn. apply table_good in H. destruct (table_put_ok t m d s x H Hd) as (t1 & -> & _).
    destruct (table_erase_ok t m d s H Hd) as (t2 & -> & _). by destruct (table_rehash_ok t m n H Hn) as (t3 & -> & _).
  Qed.
  Lemma table_iterates (t : list (list node)) m : table_history mem h cached t m -> lists_unordered mem (map (fun n => (n.1.2, n.2)) (concat t)) m.
  Proof.
    intros H. apply table_good in H as [Hl H]. destruct (concat_ok (length t) m t 0 H) as (L & [HF HN] & _ & Ha). exists L.
    assert (E : m = abs L). { apply map_eq. intros s. symmetry. apply Ha. pose proof (Nat.mod_upper_bound (h s) (length t)). lia. }
    split; [|rewrite E; symmetry; by apply map_to_list_to_map]. apply Forall2_fmap_l. eapply Forall2_impl; [exact HF|].
    intros p q (H1 & _ & H3). done.
  Qed.
End Table.

(** registries of types *)
Lemma registered mem cc u v x y d d' s s' :
  well_spelled cc u -> well_spelled cc v -> one_string cc u v -> agree cc u v -> distinct cc u v ->
  descriptor_v cc u x = Some d -> descriptor_v cc v y = Some d' -> names mem d s -> names mem d' s' -> s = s' <-> exists e, decays x e /\ decays y e.
Proof.
  intros H1 H2 H3 H4 H5 Hd Hd' Hs Hs'. destruct (descriptor_identifies cc u v x y H1 H2 H3 H4 H5) as (e & He & Hiff). rewrite <- Hiff.
  rewrite Hd, Hd' in He. cbn in He. destruct (desc_eq_spec d d' s s' (proj2 Hs) (proj2 Hs')) as (e' & He' & _ & _ & Hse); [by eapply names_memory|].
  rewrite He in He'. injection He' as ->. by rewrite Hse.
Qed.
Lemma map_registry {X} mem cc u v x y d d' s s' (t : dtree X) m val t' :
  well_spelled cc u -> well_spelled cc v -> one_string cc u v -> agree cc u v -> distinct cc u v ->
  descriptor_v cc u x = Some d -> descriptor_v cc v y = Some d' -> names mem d s -> names mem d' s' ->
  map_history mem t m -> map_put t d val = Some t' ->
  ((exists e, decays x e /\ decays y e) -> map_find t' d' = Some (Some val)) /\
  (~ (exists e, decays x e /\ decays y e) -> map_find t' d' = map_find t d').
Proof.
  intros H1 H2 H3 H4 H5 Hd Hd' Hs Hs' Ht Hp. pose proof (registered mem cc u v x y d d' s s' H1 H2 H3 H4 H5 Hd Hd' Hs Hs') as Hr. rewrite <- Hr.
  rewrite (map_find_names mem t' (<[s := val]> m) (map_puts mem t m d s val t' Ht Hs Hp) d' s' Hs'), (map_find_names mem t m Ht d' s' Hs').
  split; [intros <-; by rewrite lookup_insert|intros Hne; by rewrite lookup_insert_ne].
Qed.
Lemma table_registry {X} mem cc h cached u v x y d d' s s' (t : list (list (nat * descriptor * X))) m val t' :
  well_spelled cc u -> well_spelled cc v -> one_string cc u v -> agree cc u v -> distinct cc u v ->
  descriptor_v cc u x = Some d -> descriptor_v cc v y = Some d' -> names mem d s -> names mem d' s' ->
  table_history mem h cached t m -> table_put h cached t d val = Some t' ->
  ((exists e, decays x e /\ decays y e) -> table_find h cached t' d' = Some (Some val)) /\
  (~ (exists e, decays x e /\ decays y e) -> table_find h cached t' d' = table_find h cached t d').
Proof.
  intros H1 H2 H3 H4 H5 Hd Hd' Hs Hs' Ht Hp. pose proof (registered mem cc u v x y d d' s s' H1 H2 H3 H4 H5 Hd Hd' Hs Hs') as Hr. rewrite <- Hr.
  rewrite (table_find_names mem h cached t' (<[s := val]> m) (table_puts mem h cached t m d s val t' Ht Hs Hp) d' s' Hs'), (table_find_names mem h cached t m Ht d' s' Hs').
  split; [intros <-; by rewrite lookup_insert|intros Hne; by rewrite lookup_insert_ne].
Qed.
