From stdpp Require Import list list_numbers.
From Verif Require Import FieldsModel FieldsSpec.

Lemma constructible_full self T : constructible self T (length T) = true.
Proof.
  unfold constructible. rewrite drop_all, Nat.leb_refl. cbn. apply orb_true_r.
Qed.
Lemma constructible_more self T k : length T < k -> 1 < k -> constructible self T k = false.
Proof.
  intros H1 H2. unfold constructible.
  replace (k =? 1) with false by (symmetry; apply Nat.eqb_neq; lia).
  replace (k <=? length T) with false by (symmetry; apply Nat.leb_gt; lia).
  by rewrite andb_false_r.
Qed.
Lemma field_count_eq self T k :
  field_count self T k = if constructible self T k then Some k else match k with 0 => None | S k' => field_count self T k' end.
Proof. destruct k; reflexivity. Qed.
Lemma field_count_exact self T k : 1 <= length T <= k -> field_count self T k = Some (length T).
Proof.
  induction k as [|k IH]; intros [H1 H2]; [lia|]. rewrite field_count_eq.
  destruct (decide (length T = S k)) as [<-|Hne]; [by rewrite constructible_full|].
  rewrite constructible_more by lia. apply IH. lia.
Qed.
Lemma field_count_le self T k n : field_count self T k = Some n -> n <= k.
Proof.
  induction k as [|k IH]; rewrite field_count_eq; destruct (constructible _ _ _); intros H; simplify_eq; try lia.
  apply IH in H. lia.
Qed.
Lemma fields_count_exact self T : 1 <= length T <= 30 -> fields_count self T = Some (length T).
Proof. apply field_count_exact. Qed.
Lemma fields_count_le self T n : fields_count self T = Some n -> n <= 30.
Proof. apply field_count_le. Qed.

(** the table *)
Definition table_ok (bs : list (nat * list nat * list nat)) : bool :=
  forallb (fun '(n, names, fwd) => bool_decide (names = seq 0 n) && bool_decide (fwd = seq 0 n) && (1 <=? n) && (n <=? 29)) bs.
Lemma branches_ok : table_ok branches = true.
Proof. vm_compute. reflexivity. Qed.
Lemma branch_ok bs sz names fwd : table_ok bs = true -> branch sz bs = Some (names, fwd) ->
  names = seq 0 sz /\ fwd = seq 0 sz /\ 1 <= sz <= 29.
Proof.
  induction bs as [|[[n ns] fw] bs IH]; intros Hok; cbn; [done|].
  unfold table_ok in Hok. cbn [forallb] in Hok. apply andb_true_iff in Hok as [H1 H2].
  destruct (n =? sz) eqn:E; [|by apply IH].
  apply Nat.eqb_eq in E as ->. intros [= -> ->].
  apply andb_true_iff in H1 as [[[Ha%bool_decide_eq_true Hb%bool_decide_eq_true]%andb_true_iff Hc%Nat.leb_le]%andb_true_iff Hd%Nat.leb_le].
  done.
Qed.
Lemma branch_defined n : 1 <= n <= 29 -> branch n branches = Some (seq 0 n, seq 0 n).
Proof.
  intros H.
  assert (branch n branches <> None) as Hd.
  { assert (n ∈ seq 1 29) as Hin by (apply elem_of_list_In, in_seq; lia).
    revert Hin. clear H. revert n. apply Forall_forall.
    apply (bool_decide_unpack _). vm_compute. exact I. }
  destruct (branch n branches) as [[a b]|] eqn:E; [|done].
  apply (branch_ok _ _ _ _ branches_ok) in E as (-> & -> & _). done.
Qed.

Lemma position_seq s n i : i < n -> position (s + i) (seq s n) = Some i.
Proof.
  revert s i. induction n as [|n IH]; intros s i H; [lia|]. cbn.
  destruct i as [|i].
  - by rewrite Nat.add_0_r, Nat.eqb_refl.
  - replace (s + S i =? s) with false by (symmetry; apply Nat.eqb_neq; lia).
    replace (s + S i) with (S s + i) by lia. rewrite IH by lia. done.
Qed.

Definition the_ref (rv c : bool) (i : nat) (f : fld) : fieldref :=
  FieldRef i (forward_save rv (f_ref f)) (f_const f || (match f_ref f with FObj => c | _ => false end)).
Lemma tie1_seq T rv c i f : T !! i = Some f -> tie1 T rv c (seq 0 (length T)) i = Some (the_ref rv c i f).
Proof.
  intros Hi. unfold tie1. pose proof (position_seq 0 (length T) i (lookup_lt_Some _ _ _ Hi)) as Hp.
  change (0 + i) with i in Hp. by rewrite Hp, Hi.
Qed.
Lemma magic_tie_ok self T rv c l : magic_tie self T rv c = Some l ->
  1 <= length T <= 29 /\ length l = length T /\ forall i r, l !! i = Some r -> exists f, T !! i = Some f /\ r = the_ref rv c i f.
Proof.
  unfold magic_tie. destruct (fields_count self T) as [sz|]; [|done].
  destruct (branch sz branches) as [[names fwd]|] eqn:E; [|done].
  apply (branch_ok _ _ _ _ branches_ok) in E as (-> & -> & Hsz).
  rewrite seq_length. destruct (sz =? length T) eqn:E; [|done]. apply Nat.eqb_eq in E as ->.
  intros Hl. split; [done|]. apply mapM_Some in Hl.
  split; [by rewrite <-(Forall2_length _ _ _ Hl), seq_length|].
  intros i r Hi. destruct (Forall2_lookup_r _ _ _ _ _ Hl Hi) as (j & Hj & Ht).
  apply lookup_seq in Hj as [-> Hlt]. cbn in Ht.
  destruct (lookup_lt_is_Some_2 T i Hlt) as [f Hf]. rewrite (tie1_seq _ _ _ _ _ Hf) in Ht. simplify_eq. eauto.
Qed.
Lemma magic_tie_defined self T rv c : 1 <= length T <= 29 -> exists l, magic_tie self T rv c = Some l /\ length l = length T.
Proof.
  intros H. assert (is_Some (magic_tie self T rv c)) as [l Hl].
  { unfold magic_tie. rewrite fields_count_exact by lia. rewrite branch_defined by lia. rewrite seq_length, Nat.eqb_refl.
    apply mapM_is_Some, Forall_forall. intros i Hi. apply elem_of_list_In, in_seq in Hi.
    destruct (lookup_lt_is_Some_2 T i ltac:(lia)) as [f Hf]. pose proof (tie1_seq T rv c i f Hf) as Ht. by exists (the_ref rv c i f). }
  exists l. split; [done|]. by apply magic_tie_ok in Hl as (_ & ? & _).
Qed.

Lemma magic_get_right self T rv c I r : magic_get self I T rv c = Some r -> refers_to_field T I c r.
Proof.
  unfold magic_get. destruct (magic_tie self T rv c) as [l|] eqn:E; [|done]. intros Hr.
  apply magic_tie_ok in E as (_ & _ & E). destruct (E _ _ Hr) as (f & Hf & ->).
  split; [done|]. exists f. split; [done|]. unfold access_const, the_ref. cbn.
  destruct (f_const f), (f_ref f), c; cbn; intuition congruence.
Qed.
Lemma magic_get_category self T rv c I r f : magic_get self I T rv c = Some r -> T !! I = Some f -> (f_ref f = FRref -> rv = true) ->
  documented_category rv (f_ref f) (r_cat r).
Proof.
  unfold magic_get. destruct (magic_tie self T rv c) as [l|] eqn:E; [|done]. intros Hr Hf Hn.
  apply magic_tie_ok in E as (_ & _ & E). destruct (E _ _ Hr) as (f' & Hf' & ->).
  assert (f' = f) as -> by congruence. unfold documented_category, the_ref. cbn. clear - Hn.
  destruct rv, (f_ref f); cbn; intuition congruence.
Qed.
Lemma magic_get_defined self T rv c I : is_Some (magic_get self I T rv c) <-> I < length T <= 29.
Proof.
  split.
  - intros [r H]. unfold magic_get in H. destruct (magic_tie self T rv c) as [l|] eqn:E; [|done].
    apply lookup_lt_Some in H. apply magic_tie_ok in E as (? & ? & _). lia.
  - intros H. destruct (magic_tie_defined self T rv c) as (l & Hl & Hn); [lia|].
    unfold magic_get. rewrite Hl. apply lookup_lt_is_Some_2. lia.
Qed.
Lemma fields_count_right self T : 1 <= length T <= 30 -> fields_count self T = Some (length T).
Proof. apply fields_count_exact. Qed.

(** ** Columns by type *)
Lemma get_by_type_spec C cs i : get_by_type C cs = Some i <-> (cs !! i = Some C /\ forall j, cs !! j = Some C -> j = i).
Proof.
  unfold get_by_type.
  assert (Hg : forall (cs : list ftype) s, (forall p, In p (List.filter (fun p => bool_decide (snd p = C)) (imap (fun i t => (s + i, t)) cs)) <->
     exists k, cs !! k = Some C /\ p = (s + k, C))).
  { clear. intros cs s p. rewrite filter_In. rewrite <-elem_of_list_In, elem_of_list_lookup.
    split.
    - intros [[k Hk] Hp]. rewrite list_lookup_imap in Hk. destruct (cs !! k) as [t|] eqn:E; cbn in Hk; [|done]. simplify_eq.
      cbn in Hp. apply bool_decide_eq_true in Hp as ->. eauto.
    - intros (k & Hk & ->). cbn. rewrite bool_decide_eq_true. split; [|done].
      exists k. by rewrite list_lookup_imap, Hk. }
  specialize (Hg cs 0). cbn in Hg.
  assert (Hnd : NoDup (List.filter (fun p => bool_decide (snd p = C)) (imap (fun i t => (i, t)) cs))).
  { clear. apply NoDup_ListNoDup, List.NoDup_filter, NoDup_ListNoDup.
    apply NoDup_alt. intros a b [i t] Ha Hb. rewrite list_lookup_imap in Ha, Hb.
    destruct (cs !! a), (cs !! b); cbn in *; congruence. }
  destruct (List.filter _ _) as [|[a t] [|[b u] l]] eqn:E.
  - split; [done|]. intros [H _]. destruct (proj2 (Hg (i, C))); eauto.
  - split.
    + intros [= ->]. destruct (proj1 (Hg (i, t))) as (k & Hk & Heq); [by left|]. simplify_eq.
      split; [done|]. intros j Hj. destruct (proj2 (Hg (j, C))) as [|[]]; eauto. by simplify_eq.
    + intros [H1 H2]. destruct (proj2 (Hg (i, C))) as [|[]]; eauto. by simplify_eq.
  - split; [done|]. intros [_ H2]. exfalso.
    destruct (proj1 (Hg (a, t))) as (k1 & Hk1 & ?); [by left|].
    destruct (proj1 (Hg (b, u))) as (k2 & Hk2 & ?); [by right; left|]. simplify_eq.
    apply H2 in Hk1. apply H2 in Hk2. subst. apply NoDup_cons in Hnd as [Hn _]. apply Hn. by left.
Qed.
Lemma container_inj a b : a <> TyBoolWrapper -> b <> TyBoolWrapper -> container_for a = container_for b -> a = b.
Proof. destruct a, b; cbn; congruence. Qed.
Lemma get_span_spec ts vc xc X s : no_wrapper ts -> X <> TyBoolWrapper ->
  get_span ts vc xc X = Some s <-> exists i, only_field ts X i /\ shows s i X (vc || xc).
Proof.
  intros Hw HX. unfold get_span.
  assert (Hc : forall i, map container_for ts !! i = Some (container_for X) <-> ts !! i = Some X).
  { intros i. rewrite list_lookup_fmap. destruct (ts !! i) as [t|] eqn:E; cbn; [|done].
    split; intros [= H]; [|by subst]. f_equal. apply container_inj; [|done|done]. intros ->. by eapply Hw. }
  assert (Hg : forall i, get_by_type (container_for X) (map container_for ts) = Some i <-> only_field ts X i).
  { intros i. rewrite get_by_type_spec. unfold only_field. rewrite Hc. split; intros [H1 H2]; split; try done; intros j Hj; apply H2, Hc, Hj. }
  replace (match X with TyBool => TyBool | X0 => X0 end) with X by (by destruct X).
  destruct (get_by_type _ _) as [i|] eqn:E.
  - assert (only_field ts X i) as Hi by (apply Hg; done). split.
    + intros [= <-]. exists i. done.
    + intros (j & Hj & H1 & H2 & H3). destruct s; cbn in *. subst. f_equal. f_equal. destruct Hj as [Hj _], Hi as [_ Hi]. symmetry. auto.
  - split; [done|]. intros (i & Hi & _). apply Hg in Hi. congruence.
Qed.
Lemma get_span_n_spec ts vc I s : get_span_n ts vc I = Some s <-> exists X, ts !! I = Some X /\ shows s I X vc.
Proof.
  unfold get_span_n. destruct (ts !! I) as [X|] eqn:E.
  - replace (match X with TyBool => TyBool | X0 => container_for X0 end) with X by (by destruct X).
    split; [intros [= <-]; eexists; done|]. intros (Y & [= <-] & H1 & H2 & H3). destruct s; cbn in *. by subst.
  - split; [done|]. by intros (X & ? & _).
Qed.
Lemma view_types_spec ts vc Xs ss : no_wrapper ts -> Forall (fun p => snd p <> TyBoolWrapper) Xs ->
  view_types ts vc Xs = Some ss <-> Forall2 (fun p s => exists i, only_field ts (snd p) i /\ shows s i (snd p) (vc || fst p)) Xs ss.
Proof.
  intros Hw HX. unfold view_types. rewrite mapM_Some. revert ss.
  induction HX as [|[xc X] Xs HX _ IH]; intros ss.
  - split; intros H; inversion H; constructor.
  - split; intros H; inversion H; subst; (constructor; [|apply IH; done]); cbn in *; by apply (get_span_spec ts vc xc X).
Qed.
Lemma view_numbers_spec ts vc Is ss :
  view_numbers ts vc Is = Some ss <-> Forall2 (fun I s => exists X, ts !! I = Some X /\ shows s I X vc) Is ss.
Proof.
  unfold view_numbers. rewrite mapM_Some. split; intros H; (eapply Forall2_impl; [exact H|]); intros I s; apply get_span_n_spec.
Qed.
Lemma tuple_get_spec ts vc I s : tuple_get ts vc I = Some s <-> exists X, ts !! I = Some X /\ shows s I X vc.
Proof.
  rewrite <-get_span_n_spec. unfold tuple_get, view_numbers. cbn. by destruct (get_span_n ts vc I).
Qed.
Lemma magic_get_rref self T c I r f : magic_get self I T false c = Some r -> T !! I = Some f -> f_ref f = FRref ->
  r_cat r = Xvalue /\ ~ documented_category false (f_ref f) (r_cat r).
Proof.
  unfold magic_get. destruct (magic_tie self T false c) as [l|] eqn:E; [|done]. intros Hr Hf Hn.
  apply magic_tie_ok in E as (_ & _ & E). destruct (E _ _ Hr) as (f' & Hf' & ->).
  assert (f' = f) as -> by congruence. unfold documented_category, the_ref. cbn. rewrite Hn. cbn. split; [done|].
  intros [H _]. destruct (H eq_refl); done.
Qed.
Lemma magic_get_thirty self T rv c I : length T = 30 -> fields_count self T = Some 30 /\ magic_get self I T rv c = None.
Proof.
  intros H. split; [rewrite <-H; apply fields_count_exact; lia|].
  destruct (magic_get self I T rv c) eqn:E; [|done].
  assert (I < length T <= 29) by (eapply magic_get_defined; eauto). lia.
Qed.
