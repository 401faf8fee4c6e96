(** Proofs about what classes are as methods. *)
From stdpp Require Import list.
From Verif Require Import MethodModel MethodSpec TypeListModel TypeListProofs.

Lemma signature_written w : signature_found w -> signature_t (method_class w) = Got (MFun (signature_for w 0)).
Proof.
  unfold signature_found, signature_t, sig_int, sig_bool, sig_dots, name_invoke, method_class, erased_self. cbn.
  destruct (wr_sig w), (wr_accepts w 0); cbn; (done || intros [?|?]; done).
Qed.
Lemma signature_missing w : ~ signature_found w -> signature_t (method_class w) = Fails.
Proof.
  unfold signature_found, signature_t, sig_int, sig_bool, sig_dots, name_invoke, method_class, erased_self. cbn.
  destruct (wr_sig w), (wr_accepts w 0); cbn; intros H; try done; exfalso; apply H; auto.
Qed.

Lemma written_const w T : is_const_self (self_param w T) = true <-> wr_ref w = NoRef \/ wr_const w = true.
Proof. unfold is_const_self, self_param. cbn. rewrite orb_true_iff, bool_decide_eq_true. done. Qed.

Lemma check_written w T : check_fn T (method_class w) = Got (wr_accepts w T).
Proof.
  unfold check_fn, use_invoke, name_invoke, call_value, method_class. cbn.
  destruct (wr_accepts w T); done.
Qed.

Lemma regular_written w : signature_found w -> regular_method (method_class w) = Got true.
Proof.
  unfold signature_found, regular_method, use_invoke, name_invoke, method_class, erased_self. cbn.
  destruct (wr_sig w), (wr_accepts w 0); cbn; (done || intros [?|?]; done).
Qed.

Lemma methods_written w : signature_found w ->
  let M := method_class w in
  simple_method M = Got true /\
  exists tr, method_traits M = Got tr /\
    tr_self tr = Some (self_param w 0) /\ tr_result tr = MVar (wr_ret w) /\ tr_args tr = Some (wr_args w) /\
    (tr_const tr = true <-> wr_ref w = NoRef \/ wr_const w = true) /\
    (exists ps, tr_slot tr = SFn (wr_ret w) (tr_const tr) ps /\ Forall2 forwarded (wr_args w) ps) /\
    const_method M = Got (tr_const tr) /\
    forall T, check_fn T M = Got (wr_accepts w T).
Proof.
  intros H. cbv zeta. set (M := method_class w). pose proof (regular_written w H) as HR. pose proof (signature_written w H) as HS. fold M in HR, HS.
  assert (S : simple_method M = Got true) by (unfold simple_method; rewrite HR; done).
  assert (R : method_traits M = Got (any_method_traits (MFun (signature_for w 0))))
    by (unfold method_traits; rewrite HS; done).
  split; [exact S|]. eexists. split; [exact R|]. cbn [any_method_traits signature_for tr_self tr_result tr_args tr_const tr_slot].
  repeat split; try done.
  - apply written_const.
  - apply (written_const w 0).
  - eexists. split; [done|]. clear. induction (wr_args w) as [|[r c b] l IH]; constructor; [|done]. by destruct r.
  - unfold const_method. rewrite S. cbn [bind]. rewrite R. done.
  - intros T. apply check_written.
Qed.

Lemma pseudomethods_written v accepts body :
  let M := value_class v accepts body in
  simple_method M = Got true /\ regular_method M = Got false /\
  exists tr, method_traits M = Got tr /\
    tr_self tr = None /\ tr_args tr = None /\ tr_result tr = MVar (Ty NoRef false (BObj v)) /\
    tr_slot tr = SVal (MVar (Ty NoRef false (BObj v))) /\ tr_const tr = true /\
    forall T, check_fn T M = Got (accepts T).
Proof.
  cbn. repeat split; try done. eexists. split; [done|]. cbn. repeat split; try done.
  intros T. unfold check_fn, use_invoke, name_invoke, call_value. cbn. destruct (accepts T); done.
Qed.

(** a list of methods *)
Lemma exist_for_written T : forall ms : list (mclass * (nat -> bool)),
  (forall M a, In (M, a) ms -> check_fn T M = Got (a T)) ->
  exist_for T (map fst ms) = Got (forallb (fun m => snd m T) ms).
Proof.
  induction ms as [|[M a] ms IH]; intros H; [done|]. cbn [map exist_for fst forallb snd].
  rewrite (H M a (or_introl eq_refl)), IH; [done|]. intros M' a' Hin. apply H. right. exact Hin.
Qed.

Section Tables.
  Context (E : env).

  Lemma init_rref a : passable E a -> can_init E (add_rref a) a = true.
  Proof.
    intros (n & Hb & Hv). unfold can_init, add_rref. destruct a as [r c b]. cbn in *. subst b.
    destruct r; cbn; rewrite bool_decide_true by done; destruct c; cbn; auto.
  Qed.
  Lemma init_rref_inv a : t_base a <> BVoid -> can_init E (add_rref a) a = true -> passable E a.
  Proof.
    unfold can_init, add_rref, passable. destruct a as [r c [|n]]; cbn; [done|]. intros _.
    destruct r; cbn; rewrite bool_decide_true by done; intros H; exists n; split; (done || intros; done).
  Qed.
  Lemma init_args args : Forall (fun a => t_base a <> BVoid) args ->
    forallb (fun '(a, p) => can_init E a p) (zip (map add_rref args) args) = true <-> Forall (passable E) args.
  Proof.
    induction 1 as [|a args Ha _ IH]; [split; [constructor|done]|].
    cbn [map zip zip_with forallb]. rewrite andb_true_iff, Forall_cons, IH. split; intros [H1 H2]; split; auto.
    - apply init_rref_inv; done.
    - apply init_rref; done.
  Qed.

  Lemma return_same r : (t_base r = BVoid -> t_ref r = NoRef) -> can_return E r r = true.
  Proof.
    unfold can_return, is_void, can_init. destruct r as [rk c [|n]]; cbn.
    - intros H. rewrite H by done. done.
    - intros _. rewrite (bool_decide_false (BObj n = BVoid)) by done. rewrite andb_false_r.
      rewrite bool_decide_true by done. destruct rk, c; done.
  Qed.

  Lemma viable_written w T cself : wr_accepts w T = true ->
    viable E (method_class w) T (Ty LRef cself (BObj T) :: map add_rref (wr_args w)) =
    if can_init E (Ty LRef cself (BObj T)) (self_param w T)
       && forallb (fun '(a, p) => can_init E a p) (zip (map add_rref (wr_args w)) (wr_args w))
    then [Ov true false (wr_accepts w) (signature_for w) (wr_body w)] else [].
  Proof.
    intros Ha. unfold viable, method_class. cbn [mc_invoke List.filter ov_accepts ov_sig]. rewrite Ha.
    cbn [signature_for sg_params zip zip_with forallb andb].
    rewrite bool_decide_true by (cbn; rewrite map_length; done). done.
  Qed.

  Lemma self_init w T cself :
    can_init E (Ty LRef cself (BObj T)) (self_param w T) = true <->
    (wr_ref w = LRef /\ (cself = true -> wr_const w = true)) \/ (wr_ref w = NoRef /\ e_copy E T = true).
  Proof.
    unfold can_init, self_param. cbn. rewrite bool_decide_true by done.
    destruct (wr_ref w); cbn.
    - split; [intros H; right; done|intros [[? _]|[_ ?]]; done].
    - destruct cself, (wr_const w); cbn; split; try done; try (intros; left; done).
      + intros [[_ H]|[? _]]; [|done]. specialize (H eq_refl). done.
    - split; [done|intros [[? _]|[? _]]; done].
  Qed.

  Section Written.
    Context (w : written) (T : nat).
    Context (Hsig : signature_found w) (Hacc : wr_accepts w T = true) (Hbody : wr_body w T = true).
    Context (Hargs : Forall (fun a => t_base a <> BVoid) (wr_args w)) (Hret : t_base (wr_ret w) = BVoid -> t_ref (wr_ret w) = NoRef).

    Lemma call_written cself :
      call_invoke E (method_class w) T cself (wr_ret w) (wr_args w) =
      if can_init E (Ty LRef cself (BObj T)) (self_param w T)
         && forallb (fun '(a, p) => can_init E a p) (zip (map add_rref (wr_args w)) (wr_args w))
      then Got (ECall (Ov true false (wr_accepts w) (signature_for w) (wr_body w)) cself) else Hard.
    Proof.
      unfold call_invoke. rewrite viable_written by done.
      destruct (_ && _); [|done]. cbn [ov_static ov_body ov_sig signature_for sg_ret].
      rewrite Hbody. rewrite return_same by done. done.
    Qed.

    Lemma invoker_written :
      invoker_for E T (method_class w) =
      if bool_decide (wr_ref w = LRef)
      then call_invoke E (method_class w) T (is_const_self (self_param w 0)) (wr_ret w) (wr_args w)
      else if e_copy E T then call_invoke E (method_class w) T true (wr_ret w) (wr_args w) else Hard.
    Proof.
      unfold invoker_for, method_traits. rewrite (signature_written _ Hsig). cbn. unfold invoker_fn. cbn. done.
    Qed.

    Lemma table_written :
      (exists e, invoker_for E T (method_class w) = Got e) <-> self_passable E w T /\ Forall (passable E) (wr_args w).
    Proof.
      rewrite invoker_written, !call_written.
      rewrite <- (init_args _ Hargs).
      destruct (forallb _ _) eqn:Hf.
      2:{ rewrite !andb_false_r. split; [intros [e He]|intros [_ ?]; done].
          destruct (bool_decide _), (e_copy E T); done. }
      rewrite !andb_true_r. split.
      - intros [e He]. split; [|done]. unfold self_passable.
        destruct (bool_decide (wr_ref w = LRef)) eqn:Hl; [left; apply bool_decide_eq_true in Hl; done|].
        destruct (e_copy E T) eqn:Hc; [|done].
        destruct (can_init E _ _) eqn:Hi; [|done]. apply self_init in Hi. destruct Hi as [[Hr _]|[Hr _]]; auto.
      - intros [Hs _]. destruct (bool_decide (wr_ref w = LRef)) eqn:Hl.
        + apply bool_decide_eq_true in Hl.
          rewrite (proj2 (self_init w T _)); [eauto|]. left. split; [done|]. intros Hc. apply written_const in Hc.
          destruct Hc as [Hc|Hc]; [congruence|done].
        + apply bool_decide_eq_false in Hl. destruct Hs as [Hs|[Hs Hc]]; [congruence|]. rewrite Hc.
          rewrite (proj2 (self_init w T _)); [eauto|]. right. done.
    Qed.

    Lemma seen_written e : invoker_for E T (method_class w) = Got e ->
      self_seen T e = Some (match wr_ref w with NoRef => SeesCopy | _ => SeesObject (wr_const w) end) /\
      exists cself, e = ECall (Ov true false (wr_accepts w) (signature_for w) (wr_body w)) cself.
    Proof.
      rewrite invoker_written, !call_written. intros He.
      assert (exists c, e = ECall (Ov true false (wr_accepts w) (signature_for w) (wr_body w)) c) as [c ->].
      { destruct (bool_decide _); [destruct (_ && _); [|done]; simplify_eq; eauto|].
        destruct (e_copy E T); [|done]. destruct (_ && _); [|done]. simplify_eq. eauto. }
      split; [|eauto]. cbn. rewrite bool_decide_true by done. done.
    Qed.
  End Written.

  Lemma table_value v accepts body T : accepts T = true -> body T = true ->
    (exists e, invoker_for E T (value_class v accepts body) = Got e) <-> e_move E v = true.
  Proof.
    intros Ha Hb. unfold invoker_for, method_traits, invoker_value, call_value, can_init, add_rref. cbn. rewrite Ha. cbn. rewrite Hb.
    cbn. rewrite (bool_decide_true (BObj v = BObj v)) by done. destruct (e_move E v); cbn; split; intros H; (done || (destruct H; done) || (eexists; done) || idtac).
  Qed.

  (** any class *)
  Lemma call_invoke_seen M T cself r args e :
    call_invoke E M T cself r args = Got e -> cself = true -> self_seen T e <> Some (SeesObject false).
  Proof.
    unfold call_invoke. intros H ->.
    destruct (viable _ _ _ _) as [|o [|]] eqn:Hv; try done.
    assert (Ho : In o (viable E M T (Ty LRef true (BObj T) :: map add_rref args))) by (rewrite Hv; left; done).
    unfold viable in Ho. apply filter_In in Ho as [_ Ho]. rewrite !andb_true_iff in Ho. destruct Ho as [[_ Hlen] Hall].
    destruct (_ && _); [|done]. simplify_eq. cbn.
    destruct (sg_params (ov_sig o T)) as [|p ps]; [done|]. cbn in Hall. apply andb_true_iff in Hall as [Hp _].
    unfold can_init in Hp. cbn in Hp.
    destruct (bool_decide (t_base p = BObj T)) eqn:Hb; [|done]. apply bool_decide_eq_true in Hb. rewrite Hb in Hp.
    rewrite bool_decide_true in Hp by done.
    destruct (t_ref p), (t_const p); done.
  Qed.
  Lemma const_methods_do_not_modify M T tr e :
    method_traits M = Got tr -> tr_const tr = true -> invoker_for E T M = Got e -> self_seen T e <> Some (SeesObject false).
  Proof.
    unfold invoker_for. intros -> Hc. cbn.
    assert (Hval : forall v, invoker_value E M T v = Got e -> self_seen T e <> Some (SeesObject false)).
    { intros v. unfold invoker_value. destruct v as [?|?|t]; try done. destruct (_ && _); [|done].
      destruct (demand _) as [g| |]; try done. destruct (_ && _); [|done]. intros ?. simplify_eq. done. }
    destruct (tr_self tr) as [self|]; [|apply Hval].
    destruct (tr_result tr) as [?|?|r] eqn:Hr; try done; try apply Hval.
    destruct (tr_args tr) as [args|]; [|apply (Hval (MVar r))].
    unfold invoker_fn. destruct (bool_decide _).
    - intros H. eapply call_invoke_seen; eauto.
    - destruct (e_copy E T); [|done]. intros H. eapply call_invoke_seen; eauto.
  Qed.
  (** the entry is what the slot is declared for *)
  Lemma entry_matches_slot M T tr e :
    method_traits M = Got tr -> invoker_for E T M = Got e ->
    match tr_slot tr, e with
    | SFn _ _ _, ECall _ _ | SVal _, EValue _ => True
    | _, _ => False
    end.
  Proof.
    intros Ht. unfold invoker_for. rewrite Ht. cbn. unfold method_traits in Ht.
    destruct (signature_t M) as [m| |]; try done. cbn in Ht. simplify_eq.
    assert (Hval : forall v, invoker_value E M T v = Got e -> exists g, e = EValue g).
    { intros v. unfold invoker_value. destruct v as [?|?|t]; try done. destruct (_ && _); [|done].
      destruct (demand _) as [g| |]; try done. destruct (_ && _); [|done]. intros ?. simplify_eq. eauto. }
    assert (Hcall : forall c r args, call_invoke E M T c r args = Got e -> exists o c, e = ECall o c).
    { intros c r args. unfold call_invoke. destruct (viable _ _ _ _) as [|o [|]]; try done. destruct (_ && _); [|done].
      intros ?. simplify_eq. eauto. }
    destruct m as [[r [|self args] ne]|s|t]; cbn.
    - done.
    - unfold invoker_fn. intros H. destruct (bool_decide _).
      + apply Hcall in H as (o & c & ->). done.
      + destruct (e_copy E T); [|done]. apply Hcall in H as (o & c & ->). done.
    - done.
    - intros H. apply (Hval (MVar t)) in H as [g ->]. done.
  Qed.
End Tables.

Section Plugins.
  Context {Q : Type}.
  Lemma plugin_t_spec (u : option (@user_plugin Q)) d p : contributes u d p <-> plugin_t u d = Got p.
  Proof.
    split.
    - intros [q d'|q t d'|q|q| |]; try done.
    - destruct u as [[q [t|]]|]; cbn.
      + intros ?. simplify_eq. constructor.
      + intros ?. simplify_eq. constructor.
      + destruct d as [[q|]|q|]; cbn; intros ?; simplify_eq; constructor.
  Qed.
  Lemma plugin_t_total (u : option (@user_plugin Q)) d : exists p, plugin_t u d = Got p.
  Proof. destruct u as [[q [t|]]|]; cbn; eauto. destruct d as [[q|]|q|]; cbn; eauto. Qed.
  Lemma plugins_spec : forall ms : list (option (@user_plugin Q) * @plugin_decl Q),
    exists ps, plugins ms = Got ps /\ Forall2 (fun m p => contributes (fst m) (snd m) p) ms ps.
  Proof.
    induction ms as [|[u d] ms (ps & IH & F)]; [exists []; split; [done|constructor]|].
    destruct (plugin_t_total u d) as [p Hp]. exists (p :: ps). cbn. rewrite Hp. cbn. rewrite IH. cbn. split; [done|].
    constructor; [apply plugin_t_spec; done|done].
  Qed.

  Lemma bases_spec (base_of : Q -> Q -> bool) :
    (forall x, base_of x x = true) ->
    (forall x y z, base_of x y = true -> base_of y z = true -> base_of x z = true) ->
    forall ms, exists R, bases base_of ms = Got R /\
    NoDup R /\
    (forall l1 x l2, R = l1 ++ x :: l2 -> forall y, In y (l1 ++ l2) -> base_of x y = false) /\
    (forall q, In q R -> exists u d, In (u, d) ms /\ contributes u d (Some q)) /\
    (forall u d q, In (u, d) ms -> contributes u d (Some q) -> exists r, In r R /\ base_of q r = true).
  Proof.
    intros Hr Ht ms. destruct (plugins_spec ms) as (ps & Hps & F). unfold bases. rewrite Hps. cbn.
    destruct (@construct_interface_spec Q base_of Hr Ht ps) as (I1 & I2 & I3 & I4).
    eexists. split; [done|]. split; [apply NoDup_ListNoDup; exact I1|]. split; [exact I2|]. split.
    - intros q Hq. apply I3 in Hq. apply elem_of_list_In in Hq.
      destruct (elem_of_list_lookup_1 _ _ Hq) as [i Hi].
      destruct (Forall2_lookup_r _ _ _ _ _ F Hi) as ([u d] & Hm & Hc). exists u, d. split; [|exact Hc].
      apply elem_of_list_In. eapply elem_of_list_lookup_2. exact Hm.
    - intros u d q Hin Hc. apply elem_of_list_In in Hin. destruct (elem_of_list_lookup_1 _ _ Hin) as [i Hi].
      destruct (Forall2_lookup_l _ _ _ _ _ F Hi) as (p & Hp & Hc'). cbn in Hc'.
      assert (p = Some q) as -> by (apply plugin_t_spec in Hc; apply plugin_t_spec in Hc'; congruence).
      apply I4. apply elem_of_list_In. eapply elem_of_list_lookup_2. exact Hp.
  Qed.
End Plugins.

(** ** any class *)
Lemma filter_sole {A} (P : A -> bool) l x : List.filter P l = [x] <-> sole P l x.
Proof.
  split.
  - induction l as [|y l IH]; [done|]. cbn. destruct (P y) eqn:Py.
    + intros [= -> Hl]. exists [], l. split; [done|]. split; [done|]. intros z Hz. cbn in Hz. destruct (P z) eqn:Pz; [|done].
      assert (Hin : In z (List.filter P l)) by (by apply filter_In). by rewrite Hl in Hin.
    + intros H. destruct (IH H) as (l1 & l2 & -> & Px & Hn). exists (y :: l1), l2. split; [done|]. split; [done|].
      intros z [<-|Hz]; [done|by apply Hn].
  - intros (l1 & l2 & -> & Px & Hn). rewrite List.filter_app. cbn. rewrite Px.
    assert (F : forall k, (forall y, In y k -> P y = false) -> List.filter P k = []).
    { induction k as [|y k IH]; [done|]. intros H. cbn. rewrite (H y) by (by left). apply IH. intros z Hz. apply H. by right. }
    rewrite !F; [done|intros y Hy; apply Hn, in_or_app; by right|intros y Hy; apply Hn, in_or_app; by left].
Qed.
Lemma sole_in {A} (P : A -> bool) l x : sole P l x -> In x l.
Proof. intros (l1 & l2 & -> & _). apply in_or_app. right. by left. Qed.
Lemma sole_unique {A} (P : A -> bool) l x y : sole P l x -> sole P l y -> x = y.
Proof. rewrite <- !filter_sole. intros -> [= ->]. done. Qed.

Lemma name_invoke_got M T o : name_invoke M T = Got o -> invokes M T o.
Proof.
  unfold name_invoke, invokes. destruct (List.filter _ _) as [|o' [|? ?]] eqn:F; try done. destruct (_ && _); [done|].
  intros [= ->]. by apply filter_sole.
Qed.
Lemma invokes_name M T o : safe_for M T -> invokes M T o -> name_invoke M T = Got o.
Proof.
  intros [Hs _] Hi. unfold name_invoke. pose proof (sole_in _ _ _ Hi) as Hin. apply filter_sole in Hi. rewrite Hi.
  destruct (ov_auto o) eqn:A; [|done]. by rewrite (Hs o Hin A).
Qed.
Lemma name_invoke_not_hard M T : safe_for M T -> name_invoke M T <> Hard.
Proof.
  intros Hs H. destruct (name_invoke M T) eqn:N; try done. unfold name_invoke in N.
  destruct (List.filter _ _) as [|o' [|? ?]] eqn:F; try done. apply filter_sole in F. pose proof (sole_in _ _ _ F) as Hin.
  destruct (ov_auto o') eqn:A; [|done]. by rewrite (proj1 Hs o' Hin A) in N.
Qed.
Lemma call_value_got M T g : call_value M T = Got g -> yields M T g.
Proof.
  unfold call_value, yields. destruct (mc_default M); [|done]. destruct (List.filter _ _) as [|g' [|? ?]] eqn:F; try done.
  destruct (_ && _); [done|]. intros [= ->]. split; [done|]. by apply filter_sole.
Qed.
Lemma yields_call M T g : safe_for M T -> yields M T g -> call_value M T = Got g.
Proof.
  intros [_ Hs] [Hd Hi]. unfold call_value. rewrite Hd. pose proof (sole_in _ _ _ Hi) as Hin. apply filter_sole in Hi. rewrite Hi.
  destruct (gt_auto g) eqn:A; [|done]. by rewrite (Hs g Hin A).
Qed.
Lemma call_value_not_hard M T : safe_for M T -> call_value M T <> Hard.
Proof.
  intros [_ Hs] H. unfold call_value in H. destruct (mc_default M); [|done]. destruct (List.filter _ _) as [|g' [|? ?]] eqn:F; try done.
  apply filter_sole in F. pose proof (sole_in _ _ _ F) as Hin. destruct (gt_auto g') eqn:A; [|done]. by rewrite (Hs g' Hin A) in H.
Qed.

Lemma check_any_class M T : safe_for M T ->
  exists b, check_fn T M = Got b /\ (b = true <-> (exists o, invokes M T o /\ ov_static o = true) \/ exists g, yields M T g).
Proof.
  intros Hs. unfold check_fn, use_invoke. pose proof (name_invoke_not_hard M T Hs) as N1. pose proof (call_value_not_hard M T Hs) as N2.
  assert (B : (exists o, invokes M T o /\ ov_static o = true) <->
                        (exists o, name_invoke M T = Got o /\ ov_static o = true)).
  { split; intros (o & H & S); exists o; (split; [|done]); [by apply invokes_name|by apply name_invoke_got]. }
  assert (D : (exists g, yields M T g) <-> exists g, call_value M T = Got g).
  { split; intros (g & H); exists g; [by apply yields_call|by apply call_value_got]. }
  destruct (name_invoke M T) as [o| |] eqn:NI; [|cbn [bind]|done].
  - cbn [bind]. destruct (ov_static o) eqn:So; cbn [bind].
    + exists true. destruct (call_value M T) eqn:CV; cbn; try done; (split; [done|]; split; [intros _; left; apply B; by exists o|done]).
    + destruct (call_value M T) as [g| |] eqn:CV; cbn; try done.
      * exists true. split; [done|]. split; [intros _; right; apply D; by exists g|done].
      * exists false. split; [done|]. split; [done|]. intros [H|H]; [apply B in H as (o' & [= <-] & ?); congruence|apply D in H as [? ?]; done].
  - destruct (call_value M T) as [g| |] eqn:CV; cbn; try done.
    * exists true. split; [done|]. split; [intros _; right; apply D; by exists g|done].
    * exists false. split; [done|]. split; [done|]. intros [H|H]; [apply B in H as (o' & ? & ?); done|apply D in H as [? ?]; done].
Qed.

Lemma signature_any_class M m : signature_t M = Got m ->
  mc_sig M = Some m \/
  (mc_sig M = None /\ ((exists o, invokes M 0 o /\ m = if ov_static o then MFun (ov_sig o 0) else MMem (ov_sig o 0)) \/
                       (name_invoke M 0 = Fails /\ mc_value M = Some m))).
Proof.
  unfold signature_t, sig_int, sig_bool, sig_dots. change erased_self with 0.
  destruct (mc_sig M) as [s|], (name_invoke M 0) as [o| |] eqn:N, (mc_value M) as [v|]; cbn; intros H; try done; injection H as <-;
    try (by left); right; (split; [done|]); try (by right); left; exists o; (split; [by apply name_invoke_got|done]).
Qed.
Lemma functions_any_class M tr self : method_traits M = Got tr -> tr_self tr = Some self ->
  exists s args, sg_params s = self :: args /\
    (mc_sig M = Some (MFun s) \/ (mc_sig M = None /\ ((exists o, invokes M 0 o /\ ov_static o = true /\ s = ov_sig o 0) \/ mc_value M = Some (MFun s)))) /\
    tr_args tr = Some args /\ tr_result tr = MVar (sg_ret s).
Proof.
  unfold method_traits. destruct (signature_t M) as [m| |] eqn:S; cbn; try done. intros [= <-] Hself.
  destruct m as [[r [|p args] ne]| |]; try done. cbn in Hself. injection Hself as ->. exists (Sig r (self :: args) ne), args.
  split; [done|]. split; [|done]. apply signature_any_class in S as [->|[-> [(o & Ho & E)|(_ & ->)]]]; [by left|right..]; (split; [done|]).
  - left. exists o. destruct (ov_static o); [|done]. injection E as ->. done.
  - by right.
Qed.
Lemma values_any_class M tr : simple_method M = Got true -> method_traits M = Got tr -> tr_self tr = None ->
  mc_sig M = None -> (forall o, ~ invokes M 0 o) ->
  mc_empty M = true /\ mc_default M = true /\ exists m, mc_value M = Some m /\ object_type m /\ tr_slot tr = SVal m /\ tr_result tr = m.
Proof.
  intros Hs Ht Hself Hsig Hno. unfold simple_method, regular_method in Hs.
  assert (HN : name_invoke M 0 = Fails \/ name_invoke M 0 = Hard).
  { destruct (name_invoke M 0) as [o| |] eqn:N; [|by left|by right]. by destruct (Hno o (name_invoke_got _ _ _ N)). }
  unfold method_traits, signature_t, sig_int, sig_bool, sig_dots in Ht. unfold use_invoke in Hs. change erased_self with 0 in *. rewrite Hsig in *.
  destruct HN as [HN|HN]; rewrite HN in *; cbn in Ht; [|done].
  destruct (mc_value M) as [v|] eqn:V; cbn in Ht; [|done]. injection Ht as <-.
  assert (P : pseudomethod M = true) by (destruct (mc_empty M && mc_default M); cbn in Hs; by injection Hs).
  unfold pseudomethod in P. rewrite V in P. destruct (mc_empty M), (mc_default M); try done. cbn in P. split; [done|]. split; [done|].
  exists v. split; [done|]. destruct v as [s|s|t]; [done|done|]. apply bool_decide_eq_true in P. done.
Qed.
Lemma table_in_order E T Ms es : vtable_for E T Ms = Got es <-> Forall2 (fun M e => invoker_for E T M = Got e) Ms es.
Proof.
  revert es. induction Ms as [|M Ms IH]; intros es; cbn.
  - split; [intros [= <-]; constructor|]. intros H. by inversion H.
  - split.
    + destruct (invoker_for E T M) as [e| |] eqn:I; cbn; try done. destruct (vtable_for E T Ms) as [es'| |] eqn:V; cbn; try done.
      intros [= <-]. constructor; [done|]. by apply IH.
    + intros H. inversion H as [|? ? ? ? H1 H2]; subst. rewrite H1. cbn. apply IH in H2. by rewrite H2.
Qed.
