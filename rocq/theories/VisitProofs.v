(** Proofs about visit_invoke. *)
From stdpp Require Import gmap list sorting.
From Coq Require Import ZArith.
From Verif Require Import TypeListModel TypeListProofs AnyModel AnyInv AnySteps AnyOps AnyHistory AnyFacts DescModel DescSpec DescProofs
  PolyModel PolySpec PolyProofs PolyFacts PolyFacts2 VisitModel VisitSpec FlatMapProofs.

(** ** Keys *)
Lemma strcmp_opp l r c : strcmp l r = Some c -> strcmp r l = Some (CompOpp c).
Proof.
  revert r c. induction l as [|a l IH]; intros [|b r] c; cbn; try done.
  destruct (Z.eqb_spec a b) as [->|Hne]; cbn.
  - rewrite Z.eqb_refl. cbn. destruct (b =? 0)%Z; cbn; [|apply IH]. rewrite Z.compare_refl. by intros [= <-].
  - intros [= <-]. destruct (Z.eqb_spec b a); [congruence|]. cbn. f_equal. apply Z.compare_antisym.
Qed.
Lemma key_cmp_opp a b c : key_cmp a b = Some c -> key_cmp b a = Some (CompOpp c).
Proof.
  revert b c. induction a as [|x a IH]; intros [|y b] c; cbn; try (by intros [= <-]).
  unfold desc_cmp. destruct (strcmp (d_mem x) (d_mem y)) as [e|] eqn:He; [|done]. rewrite (strcmp_opp _ _ _ He).
  destruct e; cbn; [apply IH| |]; by intros [= <-].
Qed.
Lemma key_less_asym a b : key_less a b = Some true -> key_less b a = Some true -> False.
Proof.
  unfold key_less. destruct (key_cmp a b) as [[]|] eqn:H; try done. by rewrite (key_cmp_opp _ _ _ H).
Qed.

Section Keys.
  Context (O : obs) (HO : obs_wf O).
  Notation dk ts := (map (ob_desc O) ts).

  Lemma desc_cmp_types t u : exists c, desc_cmp (ob_desc O t) (ob_desc O u) = Some c /\ (c = Eq <-> t = u).
  Proof.
    destruct HO as [(name & Hn & Hi) _]. destruct (desc_cmp_spec _ _ _ _ (Hn t) (Hn u)) as (c & Hc & _ & He & _). exists c. split; [done|].
    rewrite He. split; [apply Hi|by intros ->].
  Qed.
  Lemma desc_cmp_trans t u v : desc_cmp (ob_desc O t) (ob_desc O u) = Some Lt -> desc_cmp (ob_desc O u) (ob_desc O v) = Some Lt ->
    desc_cmp (ob_desc O t) (ob_desc O v) = Some Lt.
  Proof.
    destruct HO as [(name & Hn & Hi) _]. destruct (desc_cmp_spec _ _ _ _ (Hn t) (Hn u)) as (c1 & -> & H1 & _).
    destruct (desc_cmp_spec _ _ _ _ (Hn u) (Hn v)) as (c2 & -> & H2 & _). destruct (desc_cmp_spec _ _ _ _ (Hn t) (Hn v)) as (c3 & -> & H3 & _).
    intros [= ->] [= ->]. f_equal. apply H3. eapply before_trans; [by destruct (Hn t) as (? & _ & ?)|by destruct (Hn u) as (? & _ & ?)|by destruct (Hn v) as (? & _ & ?)|by apply H1|by apply H2].
  Qed.
  Lemma key_cmp_types ts us : exists c, key_cmp (dk ts) (dk us) = Some c /\ (c = Eq <-> ts = us).
  Proof.
    revert us. induction ts as [|t ts IH]; intros [|u us]; cbn; try (eexists; split; done).
    destruct (desc_cmp_types t u) as (c & -> & Hc). destruct c.
    - destruct (IH us) as (c & -> & Hc'). exists c. split; [done|]. rewrite Hc'. rewrite (proj1 Hc eq_refl). split; [by intros ->|by intros [= ->]].
    - exists Lt. split; [done|]. split; [done|]. intros [= -> ->]. by apply Hc.
    - exists Gt. split; [done|]. split; [done|]. intros [= -> ->]. by apply Hc.
  Qed.
  Lemma key_cmp_trans ts us vs : key_cmp (dk ts) (dk us) = Some Lt -> key_cmp (dk us) (dk vs) = Some Lt -> key_cmp (dk ts) (dk vs) = Some Lt.
  Proof.
    revert us vs. induction ts as [|t ts IH]; intros [|u us] [|v vs]; cbn; try done.
    destruct (desc_cmp_types t u) as (c & Hc1 & Hc). destruct (desc_cmp_types u v) as (c' & Hc1' & Hc').
    rewrite Hc1, Hc1'. destruct c.
    - rewrite (proj1 Hc eq_refl). rewrite Hc1'. destruct c'; try done. intros. by eapply IH.
    - intros _. destruct c'; try done.
      + rewrite <- (proj1 Hc' eq_refl). by rewrite Hc1.
      + intros _. by rewrite (desc_cmp_trans _ _ _ Hc1 Hc1').
    - done.
  Qed.

  Definition Dk (k : list descriptor) : Prop := exists ts, k = dk ts.
  Lemma dk_inj ts us : dk ts = dk us -> ts = us.
  Proof.
    intros H. destruct (key_cmp_types ts us) as (c & Hc & He). apply He. rewrite H in Hc. destruct (key_cmp_types us us) as (c' & Hc' & He').
    rewrite Hc' in Hc. injection Hc as <-. by apply He'.
  Qed.
  Lemma kl_def a b : Dk a -> Dk b -> exists c, key_less a b = Some c.
  Proof. intros (ts & ->) (us & ->). unfold key_less. destruct (key_cmp_types ts us) as ([] & -> & _); eauto. Qed.
  Lemma kl_trans a b c : Dk a -> Dk b -> Dk c -> key_less a b = Some true -> key_less b c = Some true -> key_less a c = Some true.
  Proof.
    intros (ts & ->) (us & ->) (vs & ->). unfold key_less.
    destruct (key_cmp (dk ts) (dk us)) as [[]|] eqn:H1; try done. destruct (key_cmp (dk us) (dk vs)) as [[]|] eqn:H2; try done.
    by rewrite (key_cmp_trans _ _ _ H1 H2).
  Qed.
  Lemma kl_total a b : Dk a -> Dk b -> key_less a b = Some true \/ a = b \/ key_less b a = Some true.
  Proof.
    intros (ts & ->) (us & ->). destruct (key_cmp_types ts us) as (c & Hc & He). unfold key_less. rewrite Hc. destruct c.
    - right. left. by rewrite (proj1 He eq_refl).
    - by left.
    - right. right. by rewrite (key_cmp_opp _ _ _ Hc).
  Qed.
End Keys.

(** ** The table *)
Definition types_key (n : nat) (ts : list (option nat)) : list (option nat) := pad n None ts.
Lemma pad_map {A C} (g : A -> C) n x l : pad n (g x) (map g l) = map g (pad n x l).
Proof. unfold pad. rewrite map_app, map_length. f_equal. induction (n - length l); cbn; congruence. Qed.
Lemma key_of_types O fs f : key_of O fs f = map (ob_desc O) (pad (args_count fs) None (map Some (signature f))).
Proof. unfold key_of, signature. rewrite <- pad_map, !map_map. done. Qed.
Lemma arity_le fs f : In f fs -> arity f <= args_count fs.
Proof.
  induction fs as [|g fs IH]; [done|]. change (args_count (g :: fs)) with (Nat.max (arity g) (args_count fs)).
  intros [->|H]; [lia|]. specialize (IH H). lia.
Qed.
Lemma signature_length f : length (signature f) = arity f.
Proof. unfold signature. by rewrite map_length. Qed.

Lemma repeat_none k j (l : list (option nat)) : l ++ repeat None k = repeat None j -> l = repeat None (length l).
Proof.
  revert j. induction l as [|x l IH]; intros j H; [done|]. destruct j as [|j]; [done|]. cbn in H. injection H as -> H. cbn. f_equal. by eapply IH.
Qed.
Lemma pad_some_inj n (a b : list nat) : length a <= n -> length b <= n -> pad n None (map Some a) = pad n None (map Some b) -> a = b.
Proof.
  unfold pad. rewrite !map_length. revert n b. induction a as [|x a IH]; intros n [|y b] Ha Hb H; [done| | |].
  - cbn [map app length] in H. rewrite Nat.sub_0_r in H. destruct n; [done|]. done.
  - cbn [map app length] in H. rewrite Nat.sub_0_r in H. destruct n; [done|]. done.
  - destruct n as [|n]; [cbn in Ha; lia|]. cbn in H. injection H as -> H. f_equal. apply (IH n); [cbn in Ha; lia|cbn in Hb; lia|done].
Qed.
(** an argument list matches an overload when its types followed by voids are the signature followed by voids *)
Lemma pad_match n (a : list nat) (ts : list (option nat)) : length a <= n -> length ts <= n -> pad n None (map Some a) = pad n None ts ->
  exists k, ts = map Some a ++ repeat None k.
Proof.
  unfold pad. rewrite map_length. revert n ts. induction a as [|x a IH]; intros n ts Ha Ht H.
  - cbn [map app length] in H. exists (length ts). cbn. eapply repeat_none. by rewrite <- H.
  - destruct n as [|n]; [cbn in Ha; lia|]. destruct ts as [|t ts]; [done|]. cbn in H. injection H as <- H.
    destruct (IH n ts) as (k & ->); [cbn in Ha; lia|cbn in Ht; lia|done|]. by exists k.
Qed.

Lemma signatures_unique_iff fs : signatures_unique fs = true <-> NoDup (map signature fs).
Proof.
  induction fs as [|f fs IH]; cbn; [split; [constructor|done]|]. rewrite andb_true_iff, negb_true_iff, NoDup_cons, IH.
  assert (existsb (fun g => nats_eqb (map pm_ty (ov_params f)) (map pm_ty (ov_params g))) fs = false <-> signature f ∉ map signature fs) as ->; [|done].
  rewrite <- not_true_iff_false, existsb_exists, elem_of_list_In, in_map_iff. unfold nats_eqb, signature. split; intros H (g & H1 & H2); apply H; exists g.
  - split; [done|]. by apply bool_decide_eq_true.
  - split; [|done]. by apply bool_decide_eq_true in H2.
Qed.

Lemma pairs_ok O fs : obs_wf O -> overload_set fs -> Forall (fun p => Dk O (fst p)) (pairs_of O fs) /\ NoDup (map fst (pairs_of O fs)).
Proof.
  intros HO [Hn _]. split.
  - apply Forall_forall. intros p Hp. apply elem_of_list_In, in_map_iff in Hp as (f & <- & Hf). cbn. rewrite key_of_types. by eexists.
  - unfold pairs_of. rewrite map_map. cbn.
    assert (forall l, incl l fs -> NoDup (map signature l) -> NoDup (map (key_of O fs) l)) as H; [|apply H; [apply incl_refl|done]].
    induction l as [|f l IH]; cbn; intros Hi Hl; [constructor|]. apply NoDup_cons in Hl as [Hf Hl]. apply NoDup_cons. split; [|apply IH; [|done]; intros g Hg; apply Hi; by right].
    intros Hin. apply Hf. apply elem_of_list_In, in_map_iff in Hin as (g & Hg & Hgl). apply elem_of_list_In, in_map_iff. exists g. split; [|done].
    rewrite !key_of_types in Hg. apply dk_inj in Hg; [|done]. apply (pad_some_inj (args_count fs)); [| |done].
    all: rewrite signature_length; apply arity_le, Hi; by (left + right).
Qed.
Lemma build_ok O fs : obs_wf O -> overload_set fs ->
  exists m, (forall w, build O fs w = Ok m w) /\ m ≡ₚ pairs_of O fs /\ StronglySorted (fun p q => key_less (fst p) (fst q) = Some true) m.
Proof.
  intros HO Hs. destruct (pairs_ok O fs HO Hs) as [HD Hn].
  destruct (sort_ok key_less (Dk O) (kl_def O HO) (kl_trans O HO) (kl_total O HO) _ HD Hn) as (m & Hm & Hp & Hsort).
  exists m. split; [|done]. intros w. unfold build. rewrite Hm. cbn [liftO]. rewrite (bind_ok _ _ w m w eq_refl).
  rewrite (keys_unique_ok key_less (Dk O) (kl_def O HO) m (ltac:(by rewrite Hp)) Hsort). done.
Qed.

Lemma find_table O fs m ts : obs_wf O -> overload_set fs -> m ≡ₚ pairs_of O fs ->
  StronglySorted (fun p q => key_less (fst p) (fst q) = Some true) m -> length ts <= args_count fs ->
  exists r, find_key key_less m (pad (args_count fs) (ob_desc O None) (map (ob_desc O) ts)) = Some r /\
    (forall f, r = Some f <-> In f fs /\ exists k, ts = map Some (signature f) ++ repeat None k).
Proof.
  intros HO Hset Hp Hs Hlen. destruct (pairs_ok O fs HO Hset) as [HD Hn]. rewrite pad_map.
  destruct (find_ok key_less (Dk O) (kl_def O HO) key_less_asym (kl_trans O HO) (kl_total O HO) m (map (ob_desc O) (pad (args_count fs) None ts))) as (r & Hr & Hx & _).
  - by eexists.
  - by rewrite Hp.
  - done.
  - exists r. split; [done|]. intros f. rewrite Hx. rewrite <- elem_of_list_In, Hp, elem_of_list_In. unfold pairs_of. rewrite in_map_iff. split.
    + intros (g & [= Hk ->] & Hg). split; [done|]. rewrite key_of_types in Hk. apply dk_inj in Hk; [|done].
      apply (pad_match (args_count fs)); [rewrite signature_length; by apply arity_le|done|done].
    + intros (Hf & k & ->). exists f. split; [|done]. f_equal. rewrite key_of_types. f_equal. unfold pad. rewrite app_length, !map_length, repeat_length in *.
      rewrite <- app_assoc, <- repeat_app. do 2 f_equal. lia.
Qed.

(** ** const checks *)
Lemma may_accept_iff n f consts : arity f <= n -> may_accept (const_row n f) consts = true <-> const_ok f consts.
Proof.
  intros Hn. unfold may_accept, const_row, const_ok, arity in *.
  assert (forall ps cs k, forallb (fun p => negb (negb (fst p) && snd p)) (combine (map is_const_arg ps ++ repeat true k) cs) = true <->
    forall i p, nth_error ps i = Some p -> nth_error cs i = Some true -> pm_kind p = PVal \/ pm_kind p = PConst) as H.
  { induction ps as [|p ps IH]; intros cs k.
    - split; [by intros _ []|]. intros _. cbn. apply forallb_forall. intros [a b] Hi. apply in_combine_l in Hi. apply repeat_spec in Hi. by subst.
    - destruct cs as [|c cs]; [split; [by intros _ []|done]|]. cbn. rewrite andb_true_iff, IH. split.
      + intros [H1 H2] [|i] q Hq Hc; cbn in Hq, Hc; [|by eapply H2]. injection Hq as <-. injection Hc as ->.
        unfold is_const_arg in H1. destruct (pm_kind p); auto; done.
      + intros H. split; [|intros i q Hq Hc; by apply (H (S i))]. destruct c; [|by rewrite andb_false_r]. specialize (H 0 p eq_refl eq_refl). unfold is_const_arg. by destruct H as [-> | ->]. }
  unfold pad. rewrite map_length. apply H.
Qed.
Lemma pad_const_ok n f consts : const_ok f (pad n false consts) <-> const_ok f consts.
Proof.
  unfold const_ok, pad. split; intros H i p Hp Hc; apply (H i p Hp).
  - rewrite nth_error_app1; [done|]. apply nth_error_Some. congruence.
  - destruct (Nat.lt_ge_cases i (length consts)); [by rewrite nth_error_app1 in Hc|].
    rewrite nth_error_app2 in Hc by done. apply nth_error_In, repeat_spec in Hc. done.
Qed.
Lemma verify_const_iff fs consts : verify_const fs consts = true <-> exists g, In g fs /\ const_ok g consts.
Proof.
  unfold verify_const. rewrite existsb_exists. split; intros (g & Hg & H); exists g; (split; [done|]).
  - rewrite may_accept_iff in H by by apply arity_le. by apply pad_const_ok in H.
  - rewrite may_accept_iff by by apply arity_le. by apply pad_const_ok.
Qed.
Lemma runtime_const_ok fs f consts : overload_set fs -> In f fs -> exists b, (forall w, runtime_const fs f consts w = Ok b w) /\ (b = true <-> const_ok f consts).
Proof.
  intros [_ Hid] Hf. unfold runtime_const. destruct (List.find (fun g => ov_id g =? ov_id f) fs) as [g|] eqn:Hg.
  - apply find_some in Hg as [Hg He]. apply Nat.eqb_eq in He. assert (g = f) as -> by by apply Hid. eexists. split; [done|]. apply may_accept_iff. by apply arity_le.
  - exfalso. eapply find_none in Hg; [|done]. cbn in Hg. by rewrite Nat.eqb_refl in Hg.
Qed.

(** ** Arguments *)
Lemma between_inv E w : env_wf E -> between E w -> Inv E w.
Proof. intros Hwf (w0 & ns & Hr & Hx). eapply ext_inv; [done|]. by apply reachable_inv. Qed.

Lemma arg_placed E O w a d : env_wf E -> between E w -> arg_denotes E O w a d ->
  match d with Some (T, q) => exists o, obj_at w q = Some o /\ o_ty o = T | None => True end.
Proof.
  intros Hwf Hw H. pose proof (between_inv _ _ Hwf Hw) as HI. destruct H as [i c a d Ha Hm Hd|w0 w1 o l s k ms p d ns Hr Hb Hch Hn Hf Ho Hx Hm|T q c o Ho HT|T q c o Ho HT].
  - destruct d as [[T q]|]; [|done]. destruct (any_target_some _ _ _ _ _ _ HI Ha Hd) as (-> & v & x & id & _ & _ & _ & Hobj & _). rewrite Hobj. by eexists.
  - pose proof (reachable_inv _ _ Hwf Hr) as HI0. destruct (obtained_stands _ _ _ _ _ _ _ _ _ _ HI0 Hb Hch Hn Hf Ho) as [Hx1 _].
    pose proof (begins_placed _ _ _ _ _ HI0 Hb) as Hp. destruct d as [[T q]|]; [|done]. rewrite (ext_obj _ _ _ _ Hx), (ext_obj _ _ _ _ Hx1). done.
  - by eexists.
  - by eexists.
Qed.
Lemma arg_eval E O w a d : env_wf E -> between E w -> arg_denotes E O w a d ->
  arg_desc O a w = Ok (ob_desc O (option_map fst d)) w /\ arg_addr O a w = Ok (option_map snd d) w.
Proof.
  intros Hwf Hw H. pose proof (between_inv _ _ Hwf Hw) as HI. destruct H as [i c a d Ha Hm Hd|w0 w1 o l s k ms p d ns Hr Hb Hch Hn Hf Ho Hx Hm|T q c o Ho HT|T q c o Ho HT].
  - split.
    + cbn. eapply opd_desc; [done|by exists a|done].
    + cbn. destruct c; cbn [start].
      * destruct (cptr_any_ok E O w i a d HI Ha Hd) as (p & Hp & _ & _ & Hpp & _).
        unfold bindM at 1. rewrite (bind_get_any _ _ _ _ Ha), (bind_ok _ _ _ _ _ Hp). cbn. by rewrite Hpp.
      * destruct (ptr_any_ok E O w i a (a_ms a) d HI Ha (contiguous_refl _) Hd) as (p & Hp & _ & _ & Hpp & _).
        unfold bindM at 1. rewrite (bind_get_any _ _ _ _ Ha), (bind_ok _ _ _ _ _ Hp). cbn. by rewrite Hpp.
  - pose proof (reachable_inv _ _ Hwf Hr) as HI0. destruct (obtained_stands _ _ _ _ _ _ _ _ _ _ HI0 Hb Hch Hn Hf Ho) as [Hx1 Hs].
    pose proof (stands_ext _ _ _ _ _ _ Hx Hs) as Hs'. pose proof Hs' as (Hk & Hms & Hp & _). cbn [arg_desc arg_addr]. rewrite Hk.
    destruct (is_ptr k) eqn:Hik.
    + destruct k; try done; (split; [by eapply ptr_desc_ok|cbn; by rewrite Hp]).
    + assert (Hd : d <> None) by (eapply ref_some; [exact Hs'|]; cbn; by rewrite Hik).
      assert (Hop : opd w (OpCur (CView p)) ms d) by by exists (VView k ms).
      destruct d as [[T q]|]; [|done]. destruct p as [k' v pp ms']. cbn in Hk, Hms, Hp. subst k' ms' pp.
      assert (Hmk : forall k', exists p', mk_view O k' ms v (Some q) w = Ok p' w /\ pv_p p' = Some q).
      { intros k'. destruct (mk_view_ref O w k' k v q ms T Hs') as (p' & Hmk & _ & _ & Hpp & _). by exists p'. }
      destruct k; try done; [destruct (Hmk KPtr) as (p' & Hmk' & Hpp)|destruct (Hmk KCPtr) as (p' & Hmk' & Hpp)]; (split; [by eapply opd_desc|]); cbn [run_step]; unfold bindM at 1; rewrite (bind_ok _ _ _ _ _ Hmk'); cbn; by rewrite Hpp.
  - done.
  - done.
Qed.
Lemma args_eval E O w args ds : env_wf E -> between E w -> Forall2 (arg_denotes E O w) args ds ->
  mapM (arg_desc O) args w = Ok (map (ob_desc O) (map (option_map fst) ds)) w /\ mapM (arg_addr O) args w = Ok (map (option_map snd) ds) w.
Proof.
  intros Hwf Hw. induction 1 as [|a d args ds Ha H IH]; [done|]. destruct (arg_eval _ _ _ _ _ Hwf Hw Ha) as [H1 H2], IH as [H3 H4]. cbn [mapM map].
  rewrite (bind_ok _ _ _ _ _ H1), (bind_ok _ _ _ _ _ H2), (bind_ok _ _ _ _ _ H3), (bind_ok _ _ _ _ _ H4). done.
Qed.

(** ** Parameter passing *)
Lemma bind_params_ok B : forall ps w qs addrs, map Some qs `prefix_of` addrs -> length ps = length qs ->
  Forall2 (fun p q => exists o, obj_at w q = Some o /\ o_ty o = pm_ty p) ps qs ->
  exists bs w', bind_params B ps addrs w = Ok bs w' /\ passes B w ps qs bs w' /\ (forall q o, obj_at w q = Some o -> exists o', obj_at w' q = Some o' /\ o_ty o' = o_ty o).
Proof.
  induction ps as [|p ps IH]; intros w [|q qs] addrs Hpre Hl Hall; try done.
  - exists [], w. split; [by destruct addrs|]. split; [constructor|]. eauto.
  - destruct Hpre as [rest Hrest]. cbn in Hrest. subst addrs. apply Forall2_cons in Hall as [(o & Ho & HT) Hall]. cbn [bind_params].
    rewrite (bind_ok _ _ _ _ _ (read_as_ok w q o (pm_ty p) Ho HT)). destruct o as [T x id]. cbn in HT. subst T. cbn [o_ty o_val o_id].
    assert (Href : pm_kind p <> PVal -> exists bs w', (let! r := bind_params B ps (map Some qs ++ rest) in retM (BRef q :: r)) w = Ok bs w' /\
      passes B w (p :: ps) (q :: qs) bs w' /\ (forall q o, obj_at w q = Some o -> exists o', obj_at w' q = Some o' /\ o_ty o' = o_ty o)).
    { intros Hk. destruct (IH w qs (map Some qs ++ rest)) as (bs & w' & H1 & H2 & H3); [by eexists|by injection Hl|done|].
      exists (BRef q :: bs), w'. rewrite (bind_ok _ _ _ _ _ H1). split; [done|]. split; [|done]. constructor; [done|eauto|done]. }
    destruct (pm_kind p) eqn:Hk; [|by apply Href..]. clear Href.
    destruct (write_place_ok w q _ (Obj (pm_ty p) (bo_moved B (pm_ty p) x) id) Ho) as (w1 & Hw & Hq & Hoth & _).
    rewrite (bind_ok _ _ _ _ _ Hw).
    assert (Hkeep : forall q' o', obj_at w q' = Some o' -> exists o'', obj_at w1 q' = Some o'' /\ o_ty o'' = o_ty o').
    { intros q' o' Hq'. destruct (decide (q' = q)) as [->|Hne]; [rewrite Ho in Hq'; injection Hq' as <-; eauto|]. rewrite Hoth by done. eauto. }
    destruct (IH w1 qs (map Some qs ++ rest)) as (bs & w' & H1 & H2 & H3); [by eexists|by injection Hl| |].
    { eapply Forall2_impl; [exact Hall|]. intros p' q' (o' & Ho' & HT'). cbn. destruct (Hkeep _ _ Ho') as (o'' & ? & ?). exists o''. split; [done|congruence]. }
    exists (BVal (pm_ty p) x :: bs), w'. rewrite (bind_ok _ _ _ _ _ H1). split; [done|]. split.
    + by econstructor.
    + intros q' o' Hq'. destruct (Hkeep _ _ Hq') as (o'' & H4 & H5). destruct (H3 _ _ H4) as (o3 & ? & ?). exists o3. split; [done|congruence].
Qed.

(** ** resolve *)
Lemma consts_eq args : map arg_const args = map argument_const args.
Proof. apply map_ext. intros [i c|p|T q c|v c]; [done| |done|done]. cbn. by destruct (pv_k p). Qed.
Lemma resolve_steps O fs : obs_wf O -> overload_set fs ->
  exists m, m ≡ₚ pairs_of O fs /\ StronglySorted (fun p q => key_less (fst p) (fst q) = Some true) m /\
  forall B unsafe args w, well_called fs args -> length args <= args_count fs /\
  resolve O B unsafe fs args w =
    (let! ds := mapM (arg_desc O) args in
     let! it := liftO (find_key key_less m (pad (args_count fs) (ob_desc O None) ds)) in
     match it with
     | None => retM None
     | Some f =>
        let! ok := runtime_const fs f (map argument_const args) in
        if ok : bool then
          let! addrs := mapM (arg_addr O) args in
          let! r := match_invoker B f (pad (args_count fs) None addrs) in
          retM (Some r)
        else if unsafe then ubM UbAssert else retM None
     end) w.
Proof.
  intros HO Hs. destruct (build_ok O fs HO Hs) as (m & Hb & Hp & Hsort). exists m. split; [done|]. split; [done|].
  intros B unsafe args w [(g & Hg & Hga) Hv].
  assert (Hlen : length args <= args_count fs) by (rewrite <- Hga; by apply arity_le). split; [done|].
  unfold resolve. rewrite consts_eq, (proj2 (signatures_unique_iff fs) (proj1 Hs)). cbn [ensure].
  assert (existsb (fun f => arity f =? length args) fs = true) as -> by (apply existsb_exists; exists g; split; [done|by apply Nat.eqb_eq]).
  rewrite (proj2 (Nat.leb_le _ _) Hlen). cbn [andb ensure]. rewrite (proj2 (verify_const_iff fs _) Hv). cbn [ensure].
  rewrite !(bind_ok (retM tt) _ w tt w eq_refl). by rewrite (bind_ok _ _ _ _ _ (Hb w)).
Qed.

(** what the search finds, whatever the bodies are *)
Lemma resolve_found E O fs args ds w : env_wf E -> obs_wf O -> between E w -> overload_set fs -> well_called fs args ->
  Forall2 (arg_denotes E O w) args ds ->
  exists r, (forall f, r = Some f <-> In f fs /\ exists k, map (option_map fst) ds = map Some (signature f) ++ repeat None k) /\
  forall B unsafe, resolve O B unsafe fs args w =
    match r with
    | None => Ok None w
    | Some f => (let! ok := runtime_const fs f (map argument_const args) in
                 if ok : bool then let! r := match_invoker B f (pad (args_count fs) None (map (option_map snd) ds)) in retM (Some r)
                 else if unsafe then ubM UbAssert else retM None) w
    end.
Proof.
  intros Hwf HO Hw Hset Hcall Hds. destruct (resolve_steps O fs HO Hset) as (m & Hp & Hsort & Hres).
  destruct (args_eval _ _ _ _ _ Hwf Hw Hds) as [Hdesc Haddr].
  assert (Hlen' : length (map (option_map (@fst nat ptr)) ds) <= args_count fs).
  { rewrite map_length, <- (Forall2_length _ _ _ Hds). exact (proj1 (Hres (Bodies (fun _ _ => retM 0) (fun _ x => x)) true args w Hcall)). }
  destruct (find_table O fs m _ HO Hset Hp Hsort Hlen') as (r & Hfind & Hr). exists r. split; [done|]. intros B unsafe.
  rewrite (proj2 (Hres B unsafe args w Hcall)). rewrite (bind_ok _ _ _ _ _ Hdesc), Hfind. cbn [liftO].
  rewrite (bind_ok (retM r) _ w r w eq_refl). destruct r as [f|]; [|done].
  destruct (runtime_const_ok fs f (map argument_const args) Hset) as (b & Hb & _); [by apply Hr|].
  rewrite !(bind_ok _ _ _ _ _ (Hb w)). destruct b; [|done]. by rewrite (bind_ok _ _ _ _ _ Haddr).
Qed.

Lemma split_targets E O w args ds f k : env_wf E -> between E w -> Forall2 (arg_denotes E O w) args ds ->
  map (option_map fst) ds = map Some (signature f) ++ repeat None k ->
  exists qs, map (option_map snd) ds = map Some qs ++ repeat None k /\ length (ov_params f) = length qs /\
      Forall2 (fun p q => exists o, obj_at w q = Some o /\ o_ty o = pm_ty p) (ov_params f) qs.
Proof.
  intros Hwf Hw Hds Hk.
  assert (Hpl : Forall (fun d => match d with Some (T, q) => exists o, obj_at w q = Some o /\ o_ty o = T | None => True end) ds).
  { clear -Hwf Hw Hds. induction Hds as [|a d args ds Ha H IH]; constructor; [|done]. by eapply arg_placed. }
  unfold signature in Hk. revert Hk Hpl. clear. generalize (ov_params f). clear f. intros ps. revert ds. induction ps as [|p ps IH]; intros ds Hk Hpl; cbn in Hk.
  - exists []. split; [|split; [done|constructor]]. cbn. revert k Hk. clear. induction ds as [|[d|] ds IH]; intros [|k] Hk; try done. cbn in *. injection Hk as Hk. f_equal. by apply IH.
  - destruct ds as [|[[T q]|] ds]; try done. cbn in Hk. injection Hk as -> Hk. apply Forall_cons in Hpl as [Hd Hpl].
    destruct (IH ds Hk Hpl) as (qs & H1 & H2 & H3). exists (q :: qs). cbn. rewrite H1. split; [done|]. split; [by f_equal|]. by constructor.
Qed.
Lemma invoked E O w args ds f k B n : env_wf E -> between E w -> Forall2 (arg_denotes E O w) args ds ->
  map (option_map fst) ds = map Some (signature f) ++ repeat None k -> ov_fptr f = false ->
  exists qs bs w', map (option_map snd) ds = map Some qs ++ repeat None k /\ length (ov_params f) = length qs /\ passes B w (ov_params f) qs bs w' /\
    (let! r := match_invoker B f (pad n None (map (option_map snd) ds)) in retM (Some r)) w = wrapped (bo_run B (ov_id f) bs w').
Proof.
  intros Hwf Hw Hds Hk Hfp. destruct (split_targets _ _ _ _ _ _ _ Hwf Hw Hds Hk) as (qs & Hqs & Hlq & Hpl).
  destruct (bind_params_ok B (ov_params f) w qs (pad n None (map (option_map snd) ds))) as (bs & w' & H1 & H2 & _); [|done|done|].
  { rewrite Hqs. unfold pad. rewrite <- app_assoc. by eexists. }
  exists qs, bs, w'. split; [done|]. split; [done|]. split; [done|]. unfold match_invoker. rewrite Hfp. unfold bindM at 1.
  rewrite (bind_ok _ _ _ _ _ H1). unfold wrapped, retM. by destruct (bo_run B (ov_id f) bs w').
Qed.
Lemma matches_called E O fs args ds w f : Forall2 (arg_denotes E O w) args ds -> In f fs -> matches f ds -> const_ok f (map argument_const args) -> well_called fs args.
Proof.
  intros Hds Hf Hm Hc. split; exists f; split; try done. apply (f_equal (@length _)) in Hm. rewrite !map_length in Hm.
  unfold arity. unfold signature in Hm. rewrite map_length in Hm. rewrite <- Hm. symmetry. by eapply Forall2_length.
Qed.
Lemma no_trailing ds f k : last_not_empty ds -> map (option_map fst) ds = map Some (signature f) ++ repeat None k -> k = 0.
Proof.
  intros Hl H. destruct k as [|k]; [done|]. exfalso.
  replace (S k) with (k + 1) in H by lia. rewrite repeat_app in H. cbn in H. rewrite app_assoc in H.
  destruct ds as [|d ds _] using rev_ind; [by destruct (map Some (signature f) ++ repeat None k)|]. rewrite map_app in H. cbn in H.
  apply app_inj_tail in H as [_ H]. destruct d; [done|]. by apply (Hl ds).
Qed.

(** ** C42 *)
Lemma resolve_matching : forall E O B unsafe fs args ds w f, env_wf E -> obs_wf O -> between E w -> overload_set fs ->
  Forall2 (arg_denotes E O w) args ds -> In f fs -> matches f ds -> const_ok f (map argument_const args) -> ov_fptr f = false ->
  exists qs bs w', map (option_map snd) ds = map Some qs /\ passes B w (ov_params f) qs bs w' /\ length bs = arity f /\
    resolve O B unsafe fs args w = wrapped (bo_run B (ov_id f) bs w').
Proof.
  intros E O B unsafe fs args ds w f Hwf HO Hw Hset Hds Hf Hm Hc Hfp.
  destruct (resolve_found E O fs args ds w Hwf HO Hw Hset (matches_called _ _ _ _ _ _ _ Hds Hf Hm Hc) Hds) as (r & Hr & Hres).
  assert (Hk : map (option_map fst) ds = map Some (signature f) ++ repeat None 0) by (cbn; by rewrite app_nil_r).
  assert (r = Some f) as -> by (apply Hr; split; [done|]; by exists 0).
  destruct (runtime_const_ok fs f (map argument_const args) Hset Hf) as (b & Hb & Hbc). assert (b = true) as -> by by apply Hbc.
  destruct (invoked E O w args ds f 0 B (args_count fs) Hwf Hw Hds Hk Hfp) as (qs & bs & w' & Hqs & Hlq & Hp & Hi).
  exists qs, bs, w'. split; [rewrite Hqs; cbn; by rewrite app_nil_r|]. split; [done|]. split.
  - clear -Hp Hlq. unfold arity. induction Hp as [|? ? ? ? ? ? ? ? ? H IH|? ? ? ? ? ? ? ? ? ? ? ? ? ? ? H IH]; [done|..]; cbn in *; f_equal; apply IH; lia.
  - rewrite (Hres B unsafe). rewrite (bind_ok _ _ _ _ _ (Hb w)). exact Hi.
Qed.
Lemma resolve_none : forall E O B unsafe fs args ds w, env_wf E -> obs_wf O -> between E w -> overload_set fs -> well_called fs args ->
  Forall2 (arg_denotes E O w) args ds -> last_not_empty ds -> (forall f, In f fs -> ~ matches f ds) -> resolve O B unsafe fs args w = Ok None w.
Proof.
  intros E O B unsafe fs args ds w Hwf HO Hw Hset Hcall Hds Hl Hno.
  destruct (resolve_found E O fs args ds w Hwf HO Hw Hset Hcall Hds) as (r & Hr & Hres). rewrite (Hres B unsafe). destruct r as [f|]; [|done].
  exfalso. destruct (proj1 (Hr f) eq_refl) as (Hf & k & Hk). rewrite (no_trailing _ _ _ Hl Hk) in Hk. cbn in Hk. rewrite app_nil_r in Hk. by eapply Hno.
Qed.

Lemma args_count_perm fs fs' : fs ≡ₚ fs' -> args_count fs = args_count fs'.
Proof. induction 1; unfold args_count in *; cbn [foldr]; lia. Qed.
Lemma existsb_perm {A} (g : A -> bool) l l' : l ≡ₚ l' -> existsb g l = existsb g l'.
Proof.
  intros H. destruct (existsb g l) eqn:H1; symmetry.
  - apply existsb_exists in H1 as (x & Hx & Hg). apply existsb_exists. exists x. split; [by eapply Permutation_in|done].
  - apply not_true_iff_false. intros H2. apply not_true_iff_false in H1. apply H1. apply existsb_exists in H2 as (x & Hx & Hg). apply existsb_exists. exists x.
    split; [eapply Permutation_in; [symmetry; exact H|done]|done].
Qed.
Lemma overload_set_perm fs fs' : fs ≡ₚ fs' -> overload_set fs -> overload_set fs'.
Proof.
  intros Hp [H1 H2]. split; [by rewrite <- Hp|]. intros f g Hf Hg. apply H2; (eapply Permutation_in; [symmetry; exact Hp|done]).
Qed.
Lemma find_key_in {X} less (m : list (list descriptor * X)) k x : find_key less m k = Some (Some x) -> exists k', In (k', x) m.
Proof.
  unfold find_key. destruct (lower_bound _ _ _ _ _ _) as [n|]; [|done]. destruct (nth_error m n) as [[k' y]|] eqn:Hn; [|done].
  destruct (less k k') as [[]|]; try done. intros [= <-]. exists k'. by eapply nth_error_In.
Qed.
Lemma runtime_const_perm fs fs' f consts w : fs ≡ₚ fs' -> overload_set fs -> In f fs -> runtime_const fs f consts w = runtime_const fs' f consts w.
Proof.
  intros Hp Hset Hf. assert (Hf' : In f fs') by by eapply Permutation_in.
  destruct (runtime_const_ok fs f consts Hset Hf) as (b & -> & Hb). destruct (runtime_const_ok fs' f consts (overload_set_perm _ _ Hp Hset) Hf') as (b' & -> & Hb').
  f_equal. destruct b, b'; try done; [symmetry|]; tauto.
Qed.
Lemma bind_ext {A C} (m : M A) (k k' : A -> M C) w : (forall a w', m w = Ok a w' -> k a w' = k' a w') -> bindM m k w = bindM m k' w.
Proof. intros H. unfold bindM. destruct (m w) eqn:Hm; try done. by apply H. Qed.
Lemma resolve_order : forall O B unsafe fs fs' args w, obs_wf O -> overload_set fs -> fs ≡ₚ fs' ->
  resolve O B unsafe fs args w = resolve O B unsafe fs' args w.
Proof.
  intros O B unsafe fs fs' args w HO Hset Hp. pose proof (overload_set_perm _ _ Hp Hset) as Hset'.
  destruct (build_ok O fs HO Hset) as (m & Hb & Hpm & Hsort). destruct (build_ok O fs' HO Hset') as (m' & Hb' & Hpm' & Hsort').
  pose proof (args_count_perm _ _ Hp) as Hn.
  assert (m' = m) as ->.
  { eapply (sorted_unique key_less key_less_asym); [|done|done]. rewrite Hpm', Hpm. unfold pairs_of.
    assert (map (fun f => (key_of O fs' f, f)) fs' = map (fun f => (key_of O fs f, f)) fs') as ->; [|by rewrite Hp].
    apply map_ext. intros f. unfold key_of. by rewrite Hn. }
  unfold resolve. rewrite consts_eq, (proj2 (signatures_unique_iff fs) (proj1 Hset)), (proj2 (signatures_unique_iff fs') (proj1 Hset')).
  rewrite (existsb_perm _ _ _ Hp). rewrite <- Hn.
  assert (verify_const fs' (map argument_const args) = verify_const fs (map argument_const args)) as ->.
  { unfold verify_const. rewrite <- Hn. symmetry. by apply existsb_perm. }
  cbn [ensure]. rewrite !(bind_ok (retM tt) _ w tt w eq_refl).
  destruct (_ && _); cbn [ensure]; [|done]. rewrite !(bind_ok (retM tt) _ w tt w eq_refl).
  destruct (verify_const _ _); cbn [ensure]; [|done]. rewrite !(bind_ok (retM tt) _ w tt w eq_refl).
  rewrite (bind_ok _ _ _ _ _ (Hb w)), (bind_ok _ _ _ _ _ (Hb' w)). apply bind_ext. intros ds w1 _.
  destruct (find_key _ _ _) as [[f|]|] eqn:Hfk; try done.
  cbn [liftO]. rewrite !(bind_ok (retM _) _ w1 _ w1 eq_refl). destruct (find_key_in _ _ _ _ Hfk) as (k & Hk).
  assert (Hf : In f fs). { eapply Permutation_in in Hk; [|exact Hpm]. apply in_map_iff in Hk as (g & [= _ <-] & Hg). done. }
  unfold bindM at 1 4. by rewrite (runtime_const_perm fs fs' f _ _ Hp Hset Hf).
Qed.

(** ** C43 *)
Lemma bind_params_agree B B' ps addrs w : (forall T x, bo_moved B T x = bo_moved B' T x) -> bind_params B ps addrs w = bind_params B' ps addrs w.
Proof.
  intros H. revert addrs w. induction ps as [|p ps IH]; intros addrs w; [done|]. destruct addrs as [|[q|] addrs]; try done. cbn [bind_params].
  apply bind_ext. intros o w' _. rewrite H. destruct (pm_kind p); [apply bind_ext; intros ? ? _|..]; unfold bindM; by rewrite IH.
Qed.
Lemma invoker_agree B B' f addrs w : (forall T x, bo_moved B T x = bo_moved B' T x) -> (forall bs w, bo_run B (ov_id f) bs w = bo_run B' (ov_id f) bs w) ->
  match_invoker B f addrs w = match_invoker B' f addrs w.
Proof.
  intros H1 H2. unfold match_invoker. destruct (ov_fptr f); [done|]. unfold bindM. rewrite (bind_params_agree B B' _ _ _ H1).
  destruct (bind_params _ _ _ _); done.
Qed.
Lemma resolve_arity : forall E O B B' unsafe fs args ds w, env_wf E -> obs_wf O -> between E w -> overload_set fs -> well_called fs args ->
  Forall2 (arg_denotes E O w) args ds -> last_not_empty ds -> agree_on (fun f => arity f = length args) fs B B' ->
  resolve O B unsafe fs args w = resolve O B' unsafe fs args w.
Proof.
  intros E O B B' unsafe fs args ds w Hwf HO Hw Hset Hcall Hds Hl [Hmv Hrun].
  destruct (resolve_found E O fs args ds w Hwf HO Hw Hset Hcall Hds) as (r & Hr & Hres). rewrite (Hres B unsafe), (Hres B' unsafe). destruct r as [f|]; [|done].
  destruct (proj1 (Hr f) eq_refl) as (Hf & k & Hk). apply bind_ext. intros b w' _. destruct b; [|done]. unfold bindM.
  rewrite (invoker_agree B B'); [done|done|]. apply Hrun; [done|]. pose proof (no_trailing _ _ _ Hl Hk) as ->.
  apply (f_equal (@length _)) in Hk. rewrite app_length, !map_length in Hk. cbn in Hk. rewrite signature_length in Hk. pose proof (Forall2_length _ _ _ Hds). lia.
Qed.

(** ** C44 *)
Lemma resolve_const : forall E O B B' fs args ds w, env_wf E -> obs_wf O -> between E w -> overload_set fs -> well_called fs args ->
  Forall2 (arg_denotes E O w) args ds -> agree_on (fun f => const_ok f (map argument_const args)) fs B B' ->
  resolve O B false fs args w = resolve O B' false fs args w.
Proof.
  intros E O B B' fs args ds w Hwf HO Hw Hset Hcall Hds [Hmv Hrun].
  destruct (resolve_found E O fs args ds w Hwf HO Hw Hset Hcall Hds) as (r & Hr & Hres). rewrite (Hres B false), (Hres B' false). destruct r as [f|]; [|done].
  destruct (proj1 (Hr f) eq_refl) as (Hf & k & Hk). destruct (runtime_const_ok fs f (map argument_const args) Hset Hf) as (b & Hb & Hbc).
  rewrite !(bind_ok _ _ _ _ _ (Hb w)). destruct b; [|done]. unfold bindM.
  rewrite (invoker_agree B B'); [done|done|]. apply Hrun; [done|]. by apply Hbc.
Qed.
Lemma resolve_rejects : forall E O B fs args ds w f, env_wf E -> obs_wf O -> between E w -> overload_set fs -> well_called fs args ->
  Forall2 (arg_denotes E O w) args ds -> In f fs -> matches f ds -> ~ const_ok f (map argument_const args) ->
  resolve O B false fs args w = Ok None w /\ resolve O B true fs args w = UB UbAssert.
Proof.
  intros E O B fs args ds w f Hwf HO Hw Hset Hcall Hds Hf Hm Hc.
  destruct (resolve_found E O fs args ds w Hwf HO Hw Hset Hcall Hds) as (r & Hr & Hres). rewrite (Hres B false), (Hres B true).
  assert (r = Some f) as -> by (apply Hr; split; [done|]; exists 0; cbn; by rewrite app_nil_r).
  destruct (runtime_const_ok fs f (map argument_const args) Hset Hf) as (b & Hb & Hbc). rewrite !(bind_ok _ _ _ _ _ (Hb w)).
  destruct b; [|done]. exfalso. by apply Hc, Hbc.
Qed.
Lemma resolve_accepts : forall E O B fs args ds w f w', env_wf E -> obs_wf O -> between E w -> overload_set fs ->
  Forall2 (arg_denotes E O w) args ds -> In f fs -> matches f ds -> const_ok f (map argument_const args) -> resolve O B false fs args w <> Ok None w'.
Proof.
  intros E O B fs args ds w f w' Hwf HO Hw Hset Hds Hf Hm Hc.
  destruct (resolve_found E O fs args ds w Hwf HO Hw Hset (matches_called _ _ _ _ _ _ _ Hds Hf Hm Hc) Hds) as (r & Hr & Hres). rewrite (Hres B false).
  assert (r = Some f) as -> by (apply Hr; split; [done|]; exists 0; cbn; by rewrite app_nil_r).
  destruct (runtime_const_ok fs f (map argument_const args) Hset Hf) as (b & Hb & Hbc). rewrite !(bind_ok _ _ _ _ _ (Hb w)).
  assert (b = true) as -> by by apply Hbc. unfold bindM. by destruct (match_invoker _ _ _ _).
Qed.

(** ** C45 *)
Lemma passes_keep B w ps qs bs w' : passes B w ps qs bs w' -> (forall p x, In p ps -> pm_kind p = PVal -> bo_moved B (pm_ty p) x = x) ->
  forall q, obj_at w' q = obj_at w q.
Proof.
  induction 1 as [|w p ps q qs bs w' Hk Ho H IH|w w1 p ps q qs bs w' x id Hk Ho Hwr Ho1 Hoth H IH]; intros Hm r; [done|..].
  - apply IH. intros p' x Hp. apply Hm. by right.
  - rewrite IH by (intros p' y Hp; apply Hm; by right). destruct (decide (r = q)) as [->|Hne]; [|by apply Hoth]. rewrite Ho1, Ho. rewrite (Hm p x); [done|by left|done].
Qed.
Lemma passes_refs B w ps qs bs w' i q : passes B w ps qs bs w' -> nth_error bs i = Some (BRef q) -> nth_error qs i = Some q.
Proof.
  intros H. revert i. induction H as [|w p ps q' qs bs w' Hk Ho H IH|w w1 p ps q' qs bs w' x id Hk Ho Hwr Ho1 Hoth H IH]; intros [|i]; cbn; try done; try apply IH. by intros [= ->].
Qed.
Lemma resolve_keeps : forall E O B unsafe fs args ds w q, env_wf E -> obs_wf O -> between E w -> overload_set fs -> well_called fs args ->
  Forall2 (arg_denotes E O w) args ds -> (forall f, In f fs -> respects_const B f /\ moves_keep B f) ->
  (forall i a T, nth_error args i = Some a -> nth_error ds i = Some (Some (T, q)) -> argument_const a = true) ->
  match resolve O B unsafe fs args w with Ok _ w' | Exn w' => obj_at w' q = obj_at w q | _ => True end.
Proof.
  intros E O B unsafe fs args ds w q Hwf HO Hw Hset Hcall Hds HB Hq.
  destruct (resolve_found E O fs args ds w Hwf HO Hw Hset Hcall Hds) as (r & Hr & Hres). rewrite (Hres B unsafe). destruct r as [f|]; [|done].
  destruct (proj1 (Hr f) eq_refl) as (Hf & k & Hk). destruct (runtime_const_ok fs f (map argument_const args) Hset Hf) as (b & Hb & Hbc).
  rewrite (bind_ok _ _ _ _ _ (Hb w)). destruct b; [|by destruct unsafe]. destruct (ov_fptr f) eqn:Hfp.
  { unfold bindM, match_invoker. by rewrite Hfp. }
  destruct (invoked E O w args ds f k B (args_count fs) Hwf Hw Hds Hk Hfp) as (qs & bs & w' & Hqs & Hlq & Hp & ->).
  destruct (HB f Hf) as [Hresp Hkeep]. specialize (Hresp bs w'). pose proof (passes_keep _ _ _ _ _ _ Hp Hkeep q) as Hsame.
  assert (Hbound : forall i p, nth_error (ov_params f) i = Some p -> nth_error bs i = Some (BRef q) -> pm_kind p = PConst).
  { intros i p Hip Hib. pose proof (passes_refs _ _ _ _ _ _ _ _ Hp Hib) as Hiq.
    assert (Hd : nth_error (map (option_map snd) ds) i = Some (Some q)).
    { rewrite Hqs, nth_error_app1; [by erewrite map_nth_error|]. rewrite map_length. apply nth_error_Some. by rewrite Hiq. }
    rewrite nth_error_map in Hd. destruct (nth_error ds i) as [[[T q']|]|] eqn:Hdi; try done. cbn in Hd. injection Hd as ->.
    destruct (nth_error args i) as [a|] eqn:Hai.
    2:{ apply nth_error_None in Hai. rewrite (Forall2_length _ _ _ Hds) in Hai. apply nth_error_None in Hai. congruence. }
    pose proof (Hq i a T Hai Hdi) as Hca. destruct (proj1 Hbc eq_refl i p Hip) as [Hv|Hv]; [by erewrite map_nth_error by done; rewrite Hca| |done].
    exfalso. clear -Hp Hip Hib Hv. revert i Hip Hib. induction Hp as [|w p0 ps q0 qs bs w' Hk Ho H IH|w w1 p0 ps q0 qs bs w' x id Hk Ho Hwr Ho1 Hoth H IH]; intros [|i]; cbn; try done; try apply IH.
    intros [= ->]. done. }
  unfold wrapped. destruct (bo_run B (ov_id f) bs w') as [x w2|w2| |]; try done; by rewrite (Hresp q Hbound).
Qed.

(** ** calls that do not compile *)
Lemma resolve_duplicate O B unsafe fs args w : ~ NoDup (map signature fs) -> resolve O B unsafe fs args w = UB UbIllFormed.
Proof.
  intros H. unfold resolve. destruct (signatures_unique fs) eqn:E; [by apply signatures_unique_iff in E|]. done.
Qed.
Lemma resolve_ill_called O B unsafe fs args w : overload_set fs -> ~ well_called fs args -> resolve O B unsafe fs args w = UB UbIllFormed.
Proof.
  intros Hs Hn. unfold resolve. rewrite consts_eq, (proj2 (signatures_unique_iff fs) (proj1 Hs)). cbn [ensure]. rewrite (bind_ok (retM tt) _ w tt w eq_refl).
  destruct ((length args <=? args_count fs) && existsb (fun f => arity f =? length args) fs) eqn:E; [|done].
  cbn [ensure]. rewrite (bind_ok (retM tt) _ w tt w eq_refl). destruct (verify_const fs (map argument_const args)) eqn:V; [|done].
  destruct Hn. split; [|by apply verify_const_iff]. apply andb_true_iff in E as [_ E]. apply existsb_exists in E as (g & Hg & He).
  exists g. split; [done|]. by apply Nat.eqb_eq.
Qed.
