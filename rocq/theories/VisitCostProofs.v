(** Proofs about what a call of visit_invoke compares. *)
From stdpp Require Import gmap list sorting.
From Coq Require Import Sorted.
From Verif Require Import TypeListModel TypeListProofs AnyModel AnyInv AnySteps AnyOps AnyHistory AnyFacts DescModel DescSpec DescProofs
  PolyModel PolySpec VisitModel VisitSpec FlatMapProofs VisitProofs VisitCostModel.

Section FlatMap.
  Context {K X : Type} (less : K -> K -> option bool).

  Lemma lower_bound_erase fuel keys key : forall first len, fst (lower_bound_t less fuel keys key first len) = lower_bound less fuel keys key first len.
  Proof.
    induction fuel as [|fuel IH]; intros first len; [done|]. cbn [lower_bound_t lower_bound]. destruct (len =? 0); [done|].
    destruct (nth_error keys (first + len / 2)) as [m|]; [|done]. cbn. destruct (less m key) as [[]|]; [apply IH|apply IH|done].
  Qed.
  Lemma find_erase (m : list (K * X)) key : fst (find_key_t less m key) = find_key less m key.
  Proof.
    unfold find_key_t, find_key. rewrite lower_bound_erase. destruct (lower_bound _ _ _ _ _ _) as [n|]; [|done].
    destruct (nth_error m n) as [[k x]|]; done.
  Qed.
  Lemma lower_bound_count fuel keys key : forall (first len : nat),
    length (snd (lower_bound_t less fuel keys key first len)) <= (if len =? 0 then 0 else S (Nat.log2 len)).
  Proof.
    induction fuel as [|fuel IH]; intros first len; [cbn; lia|]. cbn [lower_bound_t]. destruct (Nat.eqb_spec len 0) as [->|Hne]; [cbn; lia|].
    destruct (nth_error keys (first + len / 2)) as [m|]; [|cbn; lia]. cbn [snd fst length].
    assert (Hlog : forall l : nat, l <= len / 2 -> (if l =? 0 then 0 else S (Nat.log2 l)) <= Nat.log2 len).
    { intros l Hl. destruct (Nat.eqb_spec l 0) as [->|Hl0]; [lia|].
      assert (2 * l <= len) by (pose proof (Nat.div_mod len 2); lia).
      rewrite <- Nat.log2_double by lia. by apply Nat.log2_le_mono. }
    destruct (less m key) as [[]|]; [| |cbn; lia].
    - specialize (IH (first + len / 2 + 1) (len - len / 2 - 1)). specialize (Hlog (len - len / 2 - 1)).
      pose proof (Nat.div_mod len 2). pose proof (Nat.mod_upper_bound len 2). lia.
    - specialize (IH first (len / 2)). specialize (Hlog (len / 2)). lia.
  Qed.
  Lemma lower_bound_pairs fuel keys key p : forall first len, In p (snd (lower_bound_t less fuel keys key first len)) -> In (fst p) keys /\ snd p = key.
  Proof.
    induction fuel as [|fuel IH]; intros first len; [done|]. cbn [lower_bound_t]. destruct (len =? 0); [done|].
    destruct (nth_error keys (first + len / 2)) as [m|] eqn:Hm; [|done]. cbn [snd fst]. intros [<-|H].
    - cbn. split; [by eapply nth_error_In|done].
    - destruct (less m key) as [[]|]; [by eapply IH|by eapply IH|done].
  Qed.
  Lemma find_count (m : list (K * X)) key : m <> [] -> length (snd (find_key_t less m key)) <= Nat.log2 (length m) + 2.
  Proof.
    intros Hm. unfold find_key_t. pose proof (lower_bound_count (S (length (map fst m))) (map fst m) key 0 (length (map fst m))) as H.
    rewrite !map_length in *. destruct (Nat.eqb_spec (length m) 0) as [H0|_]; [by destruct m|].
    destruct (fst _) as [n|]; [|cbn [snd]; lia]. destruct (nth_error m n) as [[k x]|]; cbn [snd]; [rewrite app_length; cbn [length]|]; lia.
  Qed.
  Lemma find_pairs (m : list (K * X)) key p : In p (snd (find_key_t less m key)) ->
    (In (fst p) (map fst m) /\ snd p = key) \/ (fst p = key /\ In (snd p) (map fst m)).
  Proof.
    unfold find_key_t. destruct (fst _) as [n|] eqn:Hf; [|intros H; left; by eapply lower_bound_pairs].
    destruct (nth_error m n) as [[k x]|] eqn:Hn; cbn [snd]; [|intros H; left; by eapply lower_bound_pairs].
    intros [H|H]%in_app_or; [left; by eapply lower_bound_pairs|]. right. destruct H as [<-|[]]. cbn. split; [done|].
    apply in_map_iff. exists (k, x). split; [done|]. by eapply nth_error_In.
  Qed.
End FlatMap.

Lemma key_cmp_erase a : forall b, fst (key_cmp_t a b) = key_cmp a b.
Proof. induction a as [|x a IH]; intros [|y b]; [done|done|done|]. cbn. destruct (desc_cmp x y) as [[]|]; [apply IH|done|done|done]. Qed.
Lemma key_cmp_count a : forall b, length (snd (key_cmp_t a b)) <= length a.
Proof. induction a as [|x a IH]; intros [|y b]; cbn; try lia. specialize (IH b). destruct (desc_cmp x y) as [[]|]; cbn; lia. Qed.
Lemma key_cmp_count_r a : forall b, length (snd (key_cmp_t a b)) <= length b.
Proof. induction a as [|x a IH]; intros [|y b]; cbn; try lia. specialize (IH b). destruct (desc_cmp x y) as [[]|]; cbn; lia. Qed.

Lemma flat_map_le {A C} (f : A -> list C) l n : (forall a, In a l -> length (f a) <= n) -> length (flat_map f l) <= n * length l.
Proof.
  induction l as [|a l IH]; intros H; cbn; [lia|]. rewrite app_length. specialize (H a) as Ha. specialize (IH (fun b Hb => H b (or_intror Hb))).
  cbn in Ha. specialize (Ha (or_introl eq_refl)). lia.
Qed.
Lemma lookup_descriptors_count {X} (m : list (list descriptor * X)) key : m <> [] ->
  length (lookup_descriptors m key) <= length key * (Nat.log2 (length m) + 2).
Proof.
  intros Hm. unfold lookup_descriptors.
  transitivity (length key * length (snd (find_key_t key_less m key))); [|apply Nat.mul_le_mono_l, find_count, Hm].
  apply flat_map_le. intros p Hp. apply find_pairs in Hp as [[_ <-]|[<- _]]; [apply key_cmp_count_r|apply key_cmp_count].
Qed.

Lemma find_winner_erase fs w : fst (find_winner_t fs w) = List.find (fun f => ov_id f =? w) fs.
Proof. induction fs as [|f fs IH]; [done|]. cbn. by destruct (ov_id f =? w). Qed.
Lemma runtime_const_erase fs f consts w :
  runtime_const fs f consts w = match fst (runtime_const_t fs f consts) with Some b => Ok b w | None => UB UbNoBlock end.
Proof. unfold runtime_const, runtime_const_t. cbn. rewrite find_winner_erase. by destruct (List.find _ fs). Qed.
Lemma find_winner_count fs f pre post : fs = pre ++ f :: post -> (forall g, In g pre -> ov_id g <> ov_id f) ->
  snd (find_winner_t fs (ov_id f)) = map ov_id pre ++ [ov_id f].
Proof.
  intros ->. induction pre as [|g pre IH]; intros H; cbn.
  - by rewrite Nat.eqb_refl.
  - destruct (Nat.eqb_spec (ov_id g) (ov_id f)) as [E|_]; [exfalso; apply (H g); [by left|done]|]. cbn. f_equal. apply IH. intros x Hx. apply H. by right.
Qed.

(** ** The table of an overload set *)
Lemma table_any_sort O fs m w : obs_wf O -> overload_set fs -> m ≡ₚ pairs_of O fs ->
  StronglySorted (fun p q => key_less (fst q) (fst p) <> Some true) m -> build O fs w = Ok m w.
Proof.
  intros HO Hs Hp Hle. destruct (build_ok O fs HO Hs) as (m' & Hb & Hp' & Hs'). rewrite Hb. do 2 f_equal.
  destruct (pairs_ok O fs HO Hs) as [HD Hn].
  assert (HDm : Forall (fun p => Dk O (fst p)) m) by (by rewrite Hp).
  assert (Hnm : NoDup (map fst m)) by (by rewrite Hp).
  apply (sorted_unique key_less key_less_asym); [by rewrite Hp, Hp'|done|].
  clear Hp Hp' Hb Hs'. induction Hle as [|p m Hle IH Hall]; constructor.
  - apply Forall_cons in HDm as [_ HDm]. cbn in Hnm. apply NoDup_cons in Hnm as [_ Hnm]. by apply IH.
  - apply Forall_cons in HDm as [HDp HDm]. cbn in Hnm. apply NoDup_cons in Hnm as [Hpn _].
    rewrite Forall_forall in Hall, HDm |- *. intros q Hq.
    destruct (kl_total O HO (fst p) (fst q) HDp (HDm q Hq)) as [H|[H|H]]; [done| |exfalso; by apply (Hall q Hq)].
    exfalso. apply Hpn. rewrite H. apply elem_of_list_fmap. by exists q.
Qed.
Lemma table_length O fs m : m ≡ₚ pairs_of O fs -> length m = length fs.
Proof. intros ->. unfold pairs_of. by rewrite map_length. Qed.

Lemma lookup_cost O fs m w ts : obs_wf O -> overload_set fs -> fs <> [] -> build O fs w = Ok m w -> length ts <= args_count fs ->
  let key := pad (args_count fs) (ob_desc O None) (map (ob_desc O) ts) in
  fst (find_key_t key_less m key) = find_key key_less m key /\
  length (snd (find_key_t key_less m key)) <= Nat.log2 (length fs) + 2 /\
  (forall p, In p (snd (find_key_t key_less m key)) ->
     exists f, In f fs /\ (p = (key_of O fs f, key) \/ p = (key, key_of O fs f))) /\
  length (lookup_descriptors m key) <= args_count fs * (Nat.log2 (length fs) + 2).
Proof.
  intros HO Hs Hne Hb Hlen key. destruct (build_ok O fs HO Hs) as (m' & Hb' & Hp & _). rewrite Hb' in Hb. injection Hb as ->.
  pose proof (table_length _ _ _ Hp) as Hl. assert (Hm : m <> []) by (intros ->; destruct fs; done).
  split; [apply find_erase|]. split; [rewrite <- Hl; by apply find_count|]. split.
  - intros p Hpi. assert (Hin : forall k, In k (map fst m) -> exists f, In f fs /\ k = key_of O fs f).
    { intros k Hk. apply elem_of_list_In in Hk. rewrite Hp in Hk. apply elem_of_list_In in Hk. unfold pairs_of in Hk. rewrite map_map in Hk.
      apply in_map_iff in Hk as (f & <- & Hf). by exists f. }
    apply find_pairs in Hpi as [[Hi Hk]|[Hk Hi]]; destruct (Hin _ Hi) as (f & Hf & E); exists f; (split; [done|]); destruct p as [a b]; cbn in *; subst; auto.
  - rewrite <- Hl. replace (args_count fs) with (length key); [by apply lookup_descriptors_count|].
    unfold key, pad. rewrite app_length, map_length, repeat_length. lia.
Qed.

(** overloads with one parameter each, of types 0, 1, ..., n *)
Definition one_each (n : nat) : list overload := map (fun i => Ov i [Param i PConst] false) (seq 0 n).
Lemma one_each_set n : overload_set (one_each n).
Proof.
  split.
  - unfold one_each. rewrite map_map. cbn. apply NoDup_fmap_2; [|apply NoDup_seq]. intros x y H. cbn in H. by injection H.
  - intros f g Hf Hg E. unfold one_each in *. apply in_map_iff in Hf as (i & <- & _). apply in_map_iff in Hg as (j & <- & _). cbn in E. by subst.
Qed.
Lemma const_check_linear : forall n, exists fs f, overload_set fs /\ length fs = S n /\ In f fs /\
  forall consts, length (snd (runtime_const_t fs f consts)) = S n.
Proof.
  intros n. exists (one_each (S n)), (Ov n [Param n PConst] false). split; [apply one_each_set|].
  assert (E : one_each (S n) = one_each n ++ [Ov n [Param n PConst] false]).
  { unfold one_each. rewrite seq_S, map_app. done. }
  assert (Hl : length (one_each n) = n) by (unfold one_each; by rewrite map_length, seq_length).
  split; [rewrite E, app_length, Hl; cbn; lia|]. split; [rewrite E; apply in_or_app; right; by left|].
  intros consts. unfold runtime_const_t. cbn [snd].
  rewrite (find_winner_count _ _ _ _ E); [rewrite app_length, map_length, Hl; cbn; lia|].
  intros g Hg. unfold one_each in Hg. apply in_map_iff in Hg as (i & <- & Hi). apply in_seq in Hi. cbn. lia.
Qed.
Lemma const_check_cost fs f consts w : overload_set fs -> In f fs ->
  runtime_const fs f consts w = match fst (runtime_const_t fs f consts) with Some b => Ok b w | None => UB UbNoBlock end /\
  exists pre post, fs = pre ++ f :: post /\ snd (runtime_const_t fs f consts) = map ov_id pre ++ [ov_id f].
Proof.
  intros [Hn Hid] Hf. split; [apply runtime_const_erase|]. apply in_split in Hf as (pre & post & E). exists pre, post. split; [done|].
  unfold runtime_const_t. cbn [snd]. apply (find_winner_count fs f pre post E). intros g Hg Heq.
  assert (g = f) as -> by (apply Hid; [subst; apply in_or_app; by left|subst; apply in_or_app; right; by left|done]).
  subst fs. rewrite map_app in Hn. apply NoDup_app in Hn as (_ & Hn & _). apply (Hn (signature f)); [apply elem_of_list_In, in_map, Hg|]. cbn. apply elem_of_list_here.
Qed.
Lemma const_check_not_log : forall c, exists fs f, overload_set fs /\ In f fs /\
  forall consts, length (snd (runtime_const_t fs f consts)) > c * (Nat.log2 (length fs) + 1).
Proof.
  intros c. destruct (const_check_linear (2 ^ (2 * c) - 1)) as (fs & f & Hs & Hl & Hf & Hc). exists fs, f. split; [done|]. split; [done|].
  intros consts. rewrite Hc, Hl.
  assert (2 ^ (2 * c) <> 0) by (apply Nat.pow_nonzero; lia). replace (S (2 ^ (2 * c) - 1)) with (2 ^ (2 * c)) by lia.
  rewrite Nat.log2_pow2 by lia. clear.
  induction c as [|c IH]; [cbn; lia|]. destruct c as [|c]; [cbn; lia|]. replace (2 * S (S c)) with (2 + 2 * S c) by lia.
  rewrite Nat.pow_add_r. change (2 ^ 2) with 4. nia.
Qed.
