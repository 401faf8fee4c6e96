(** Proofs about CallModel. *)
From stdpp Require Import gmap list.
From Verif Require Import CallModel CallSpec.

Lemma alive_dec s o : Decision (alive s o). Proof. unfold alive. apply _. Qed.
Lemma alive_none s o : s_obj s !! o = None -> ~ alive s o.
Proof. unfold alive. intros ->. apply is_Some_None. Qed.
Lemma not_alive s o : ~ alive s o -> s_obj s !! o = None.
Proof. unfold alive. apply eq_None_not_Some. Qed.
Lemma wf_next s : store_wf s -> ~ alive s (s_next s).
Proof. intros H A. apply H in A. lia. Qed.
Lemma given_away_dec ks ds args o : Decision (given_away ks ds args o).
Proof.
  assert (D : forall k d a, Decision (gives_away k d a o)).
  { intros k d a. unfold gives_away. destruct a as [| o' [] |]; try (right; intros [[=] _]; fail).
    - destruct (decide (o' = o)) as [-> | N]; [| right; intros [[=] _]; done].
      destruct k as [| | []]; destruct d; first [left; split; [done | by left] | left; split; [done | by right] | right; intros [_ [[=] | [[=] [=]]]]]. }
  destruct (decide (Exists (fun x => match x with (k, d, a) => gives_away k d a o end) (zip (zip ks ds) args))) as [X | X].
  - left. apply Exists_exists in X as ([[k d] a] & I & G). apply elem_of_list_lookup in I as [i I].
    apply lookup_zip_with_Some in I as (kd & a' & [= <- <-] & I & ?). apply lookup_zip_with_Some in I as (k' & d' & [= <- <-] & ? & ?).
    by exists i, k, d, a.
  - right. intros (i & k & d & a & ? & ? & ? & G). apply X, Exists_exists. exists (k, d, a). split; [| done].
    apply elem_of_list_lookup. exists i. apply lookup_zip_with_Some. exists (k, d), a. split; [done |]. split; [| done].
    apply lookup_zip_with_Some. by exists k, d.
Qed.

(** ** One parameter *)
Lemma by_value_amp k : by_value k (amp k) <-> k = PVal.
Proof. unfold by_value. destruct k; cbn; intuition congruence. Qed.
Lemma gives_amp k a o : gives_away k (amp k) a o <-> a = AXv o false /\ k = PVal.
Proof. unfold gives_away. destruct k; cbn; intuition congruence. Qed.
Lemma const_amp k : const_of (amp k) = const_of k. Proof. by destruct k. Qed.

(** what init1 does *)
Lemma init1_ok E k a s :
  store_wf s -> accepts k a -> (forall o, names a = Some o -> alive s o) ->
  match init1 E k a s with
  | ROk (p, w) s' =>
      store_wf s' /\ arrives s k (amp k) a s' p /\
      (forall o, alive s' o <-> alive s o \/ w = Some o) /\ (forall o, w = Some o -> ~ alive s o /\ p_obj p = o) /\
      (forall o, alive s o -> ~ gives_away k (amp k) a o -> s_obj s' !! o = s_obj s !! o) /\
      (forall o v, s_obj s !! o = Some v -> gives_away k (amp k) a o -> s_obj s' !! o = Some (te_left E v)) /\
      s_copies s' = s_copies s + copies k (amp k) a /\
      (w = None -> names a = Some (p_obj p))
  | RExn s' => store_wf s' /\ s_obj s' = s_obj s /\ exists t, te_throws E t = true
  | _ => False
  end.
Proof.
  intros W Ac Al.
  assert (F := wf_next _ W).
  assert (Cp : forall o, alive s o -> match copy_obj E o s with
    | ROk n s' => n = s_next s /\ s_obj s' = <[s_next s := default 0 (s_obj s !! o)]> (s_obj s) /\ s_next s' = S (s_next s) /\ s_copies s' = S (s_copies s)
    | RExn s' => store_wf s' /\ s_obj s' = s_obj s /\ exists t, te_throws E t = true | _ => False end).
  { intros o [v Hv]. unfold copy_obj. rewrite Hv. destruct (te_throws E (s_tick s)) eqn:T; cbn; [| by rewrite ?Hv].
    split; [exact W |]. by eauto. }
  assert (New : forall v p s' kk, s_obj s' = <[s_next s := v]> (s_obj s) -> s_next s' = S (s_next s) ->
     value_of s a = Some v -> p = Param kk (s_next s) (const_of k) -> (~ by_value k (amp k) -> names a = None) ->
     (forall o, ~ gives_away k (amp k) a o) -> s_copies s' = s_copies s + copies k (amp k) a ->
      store_wf s' /\ arrives s k (amp k) a s' p /\
      (forall o, alive s' o <-> alive s o \/ Some (s_next s) = Some o) /\ (forall o, Some (s_next s) = Some o -> ~ alive s o /\ p_obj p = o) /\
      (forall o, alive s o -> ~ gives_away k (amp k) a o -> s_obj s' !! o = s_obj s !! o) /\
      (forall o v, s_obj s !! o = Some v -> gives_away k (amp k) a o -> s_obj s' !! o = Some (te_left E v)) /\
      s_copies s' = s_copies s + copies k (amp k) a /\
      (Some (s_next s) = None -> names a = Some (p_obj p))).
  { intros v p s' kk Ho Hn Hv -> Hr Hg Hc.
    assert (Al' : forall o, alive s' o <-> alive s o \/ Some (s_next s) = Some o).
    { intros o. unfold alive. rewrite Ho, lookup_insert_is_Some. destruct (decide (s_next s = o)); naive_solver. }
    unfold arrives. repeat match goal with |- _ /\ _ => split end; try done.
    - intros o A. rewrite Al' in A. rewrite Hn. destruct A as [A | [= <-]]; [apply W in A; lia | lia].
    - exists v. split; [done |]. cbn. rewrite Ho. apply lookup_insert.
    - cbn. by rewrite const_amp.
    - cbn. intros B. rewrite (Hr B). done.
    - intros o [= <-]. done.
    - intros o A _. rewrite Ho, lookup_insert_ne; [done | intros <-; done].
    - intros o v' _ G. by apply Hg in G. }
  assert (Ref : forall kk o, accepts k a -> k <> PVal -> names a = Some o ->
      store_wf s /\ arrives s k (amp k) a s (Param kk o (const_of k)) /\
      (forall o, alive s o <-> alive s o \/ @None nat = Some o) /\ (forall o', @None nat = Some o' -> ~ alive s o' /\ o = o') /\
      (forall o, alive s o -> ~ gives_away k (amp k) a o -> s_obj s !! o = s_obj s !! o) /\
      (forall o v, s_obj s !! o = Some v -> gives_away k (amp k) a o -> s_obj s !! o = Some (te_left E v)) /\
      s_copies s = s_copies s + copies k (amp k) a /\
      (@None nat = None -> names a = Some o)).
  { intros kk o _ Nk Nm. destruct (Al _ Nm) as [v Hv].
    unfold arrives. repeat match goal with |- _ /\ _ => split end; try done.
    - exists v. split; [| done]. destruct a; cbn in *; congruence.
    - cbn. by rewrite const_amp.
    - rewrite by_value_amp. done.
    - intros _. by rewrite Nm.
    - intros o'. split; [by left | intros [? | [=]]; done].
    - intros o' v' _ G. by apply gives_amp in G as [_ ?].
    - destruct k, a as [| ? [] |]; cbn; try done; try lia; destruct c; cbn; lia. }
  assert (Ng : forall c o o', ~ gives_away PVal (amp PVal) (ALv o' c) o) by (intros ??? [[=] _]).
  Ltac fin := first [done | rewrite by_value_amp; done | intros ? [[=] _] | cbn; lia | destruct_and?; cbn; repeat match goal with c : bool |- _ => destruct c end; cbn; lia].
  destruct k as [| c | c]; destruct a as [o c' | o c' | v]; cbn [init1].
  - (* copy of an lvalue *)
    specialize (Cp o (Al o eq_refl)). destruct (copy_obj E o s) as [n s' | s' | |]; try done.
    destruct Cp as (-> & Ho & Hn & Hc). destruct (Al o eq_refl) as [v Hv]. rewrite Hv in Ho.
    apply (New v _ s' PVal); fin.
  - destruct c'.
    + specialize (Cp o (Al o eq_refl)). destruct (copy_obj E o s) as [n s' | s' | |]; try done.
      destruct Cp as (-> & Ho & Hn & Hc). destruct (Al o eq_refl) as [v Hv]. rewrite Hv in Ho.
      apply (New v _ s' PVal); fin.
    + destruct (Al o eq_refl) as [v Hv]. unfold move_obj. rewrite Hv.
      destruct (te_throws E (s_tick s)) eqn:T; lazy beta iota zeta delta [make]; [split; [exact W |]; by eauto |].
      assert (No : o <> s_next s) by (intros ->; apply F; unfold alive; rewrite Hv; eauto).
      match goal with |- store_wf ?x /\ _ => set (s' := x) end.
      assert (Ho : s_obj s' = <[s_next s := v]> (<[o := te_left E v]> (s_obj s))) by done.
      assert (Hn : s_next s' = S (s_next s)) by done. assert (Hc : s_copies s' = s_copies s) by done. clearbody s'.
      assert (Al' : forall x, alive s' x <-> alive s x \/ Some (s_next s) = Some x).
      { intros x. unfold alive. rewrite Ho, !lookup_insert_is_Some. destruct (decide (s_next s = x)); [subst; tauto |].
        destruct (decide (o = x)) as [<- |]; [rewrite Hv |]; naive_solver. }
      unfold arrives. repeat match goal with |- _ /\ _ => split end; try done.
      * intros x A. rewrite Al' in A. rewrite Hn. destruct A as [A | [= <-]]; [apply W in A; lia | lia].
      * exists v. split; [done |]. cbn. rewrite Ho. apply lookup_insert.
      * rewrite by_value_amp. done.
      * intros x [= <-]. done.
      * intros x A G. rewrite Ho, lookup_insert_ne by (intros <-; done). apply lookup_insert_ne. intros <-. apply G. rewrite gives_amp. done.
      * intros x v' Hx G. apply gives_amp in G as [[= <-] _]. rewrite Ho, lookup_insert_ne by done. rewrite lookup_insert. congruence.
      * cbn. lia.
  - lazy beta iota zeta delta [made make]. apply (New v _ _ PVal); fin.
  - cbn in Ac. destruct c, c'; lazy beta iota zeta delta [andb negb]; try (specialize (Ac eq_refl); done); by apply Ref.
  - cbn in Ac. subst c. by apply (Ref (PLref true)).
  - cbn in Ac. subst c. lazy beta iota zeta delta [made make]. apply (New v _ _ (PLref true)); fin.
  - done.
  - cbn in Ac. destruct c, c'; lazy beta iota zeta delta [andb negb]; try (specialize (Ac eq_refl); done); by apply Ref.
  - lazy beta iota zeta delta [made make]. apply (New v _ _ (PRref c)); fin.
Qed.

(** ** Destroying *)
Lemma kills_ok os s : NoDup os -> (forall o, o ∈ os -> alive s o) -> store_wf s ->
  exists s', kills os s = Some s' /\ store_wf s' /\ forall o, (o ∈ os -> ~ alive s' o) /\ (o ∉ os -> s_obj s' !! o = s_obj s !! o).
Proof.
  revert s. induction os as [| x os IH]; intros s ND Al W.
  - exists s. split; [done |]. split; [done |]. intros o. split; [| done]. intros H. by apply elem_of_nil in H.
  - apply NoDup_cons in ND as [Nx ND]. cbn. unfold kill. destruct (Al x) as [v Hv]; [by left |]. rewrite Hv.
    match goal with |- context [kills os ?y] => set (s1 := y) end.
    assert (W1 : store_wf s1).
    { intros o [w Ho]. cbn in Ho. apply lookup_delete_Some in Ho as [_ Ho]. cbn. apply W. unfold alive. eauto. }
    destruct (IH s1 ND) as (s' & -> & W' & K); [| done |].
    { intros o Ho. unfold alive. cbn. rewrite lookup_delete_ne by (intros ->; done). apply Al. by right. }
    exists s'. split; [done |]. split; [done |]. intros o. destruct (K o) as [K1 K2]. split.
    + intros H. apply elem_of_cons in H as [-> | H]; [| by apply K1]. unfold alive. rewrite K2 by done. cbn. rewrite lookup_delete. apply is_Some_None.
    + intros H. apply not_elem_of_cons in H as [N H]. rewrite K2 by done. cbn. by apply lookup_delete_ne.
Qed.
Lemma kills_exn {A} os s : NoDup os -> (forall o, o ∈ os -> alive s o) -> store_wf s ->
  exists s', finish os (RExn (A := A) s) = RExn s' /\ store_wf s' /\ forall o, (o ∈ os -> ~ alive s' o) /\ (o ∉ os -> s_obj s' !! o = s_obj s !! o).
Proof. intros a b c. destruct (kills_ok os s a b c) as (s' & K & ?). exists s'. cbn. by rewrite K. Qed.

(** ** All parameters *)
Lemma call_ok_cons s k ks d ds a args : call_ok s (k :: ks) (d :: ds) (a :: args) ->
  accepts k a /\ (forall o, names a = Some o -> alive s o) /\ call_ok s ks ds args /\
  (forall o j b, gives_away k d a o -> args !! j = Some b -> names b <> Some o) /\
  (forall o, given_away ks ds args o -> names a <> Some o).
Proof.
  intros [L1 L2 Ac Fi Al Na]. repeat match goal with |- _ /\ _ => split end.
  - by apply (Ac 0).
  - intros o. by apply (Al 0).
  - split; [by injection L1 | by injection L2 | | | |].
    + intros i. apply (Ac (S i)).
    + intros i. apply (Fi (S i)).
    + intros i. apply (Al (S i)).
    + intros i j k' d' a' b o H1 H2 H3 G Hb N. apply (Na (S i) (S j) k' d' a' b o); try done. congruence.
  - intros o j b G Hb. by apply (Na 0 (S j) k d a b o).
  - intros o (i & k' & d' & a' & H1 & H2 & H3 & G). by apply (Na (S i) 0 k' d' a' a o).
Qed.
Lemma gives_names k d a o : gives_away k d a o -> names a = Some o.
Proof. by intros [-> _]. Qed.
Lemma given_cons k ks d ds a args o : given_away (k :: ks) (d :: ds) (a :: args) o <-> gives_away k d a o \/ given_away ks ds args o.
Proof.
  split.
  - intros ([| i] & k' & d' & a' & H1 & H2 & H3 & G); cbn in *; simplify_eq; [by left | right]. by exists i, k', d', a'.
  - intros [G | (i & k' & d' & a' & H1 & H2 & H3 & G)]; [by exists 0, k, d, a | by exists (S i), k', d', a'].
Qed.
Lemma call_ok_alive s ks ds args s' : (forall o, alive s o -> alive s' o) -> call_ok s ks ds args -> call_ok s' ks ds args.
Proof. intros H [L1 L2 Ac Fi Al Na]. split; try done. intros i a o Ha No. eauto. Qed.

Lemma inits_ok E ks : forall args os s, store_wf s -> call_ok s ks (map amp ks) args -> NoDup os -> (forall o, o ∈ os -> alive s o) ->
  match inits E ks args os s with
  | ROk (ps, os') s' =>
      exists new, os' = new ++ os /\ NoDup new /\ (forall o, alive s' o <-> alive s o \/ o ∈ new) /\ (forall o, o ∈ new -> ~ alive s o) /\
      entry E s ks (map amp ks) args s' ps
  | RExn s' =>
      store_wf s' /\ (forall o, alive s' o <-> alive s o /\ o ∉ os) /\
      (forall o, alive s o -> o ∉ os -> ~ given_away ks (map amp ks) args o -> s_obj s' !! o = s_obj s !! o) /\
      exists t, te_throws E t = true
  | _ => False
  end.
Proof.
  induction ks as [| k ks IH]; intros args os s W C NDo Os.
  - destruct args as [| a args]; [| assert (X := co_lk _ _ _ _ C); done]. cbn. exists []. split; [done |]. split; [constructor |].
    split; [intros o; set_solver |]. split; [set_solver |]. split; try done.
    intros o v Ho (i & k & ? & ? & X & _). done.
  - destruct args as [| a args]; [assert (X := co_lk _ _ _ _ C); done |]. cbn [map] in C |- *.
    destruct (call_ok_cons _ _ _ _ _ _ _ C) as (Ac & Al & C1 & Na1 & Na2). cbn [inits].
    assert (I := init1_ok E k a s W Ac Al). destruct (init1 E k a s) as [[p w] s1 | s1 | |]; try done.
    + destruct I as (W1 & Arr & Al1 & Fr & Kp & Gv & Cp & Nw).
      assert (C2 : call_ok s1 ks (map amp ks) args) by (eapply call_ok_alive; [| exact C1]; intros o Ho; apply Al1; by left).
      assert (Vals : forall j b, args !! j = Some b -> value_of s1 b = value_of s b).
      { intros j b Hb. destruct b as [o c | o c | v]; cbn; try done.
        - apply Kp; [by apply (co_alive _ _ _ _ C1 j _ _ Hb) |]. intros G. by apply (Na1 o j _ G Hb).
        - apply Kp; [by apply (co_alive _ _ _ _ C1 j _ _ Hb) |]. intros G. by apply (Na1 o j _ G Hb). }
      assert (Gal : forall o, given_away ks (map amp ks) args o -> alive s o).
      { intros o (i & k' & d' & a' & H1 & H2 & H3 & G). apply (co_alive _ _ _ _ C1 i a' o H3). by eapply gives_names. }
      assert (Wal : forall o, o ∈ option_list w -> w = Some o) by (intros o; destruct w; cbn; set_solver).
      assert (Wal' : forall o, w = Some o -> o ∈ option_list w) by (intros o ->; cbn; set_solver).
      specialize (IH args (option_list w ++ os) s1 W1 C2). feed specialize IH.
      { apply NoDup_app. split; [destruct w; cbn; [apply NoDup_singleton | constructor] |]. split; [| done].
        intros o Ho Hw. apply Wal in Ho. apply (proj1 (Fr o Ho)). by apply Os. }
      { intros o Ho. apply elem_of_app in Ho as [Ho | Ho]; apply Al1; [right; by apply Wal | left; by apply Os]. }
      destruct (inits E ks args (option_list w ++ os) s1) as [[ps os'] s2 | s2 | |]; try done.
      * destruct IH as (new & -> & ND & Al2 & Fr2 & [L Ar2 Ow2 Kp2 Gv2 Cp2 W2]).
        exists (new ++ option_list w). rewrite <- app_assoc. split; [done |].
        assert (Pal : alive s1 (p_obj p)) by (destruct Arr as [[v [_ Hv]] _]; unfold alive; rewrite Hv; eauto).
        assert (Pkp : s_obj s2 !! p_obj p = s_obj s1 !! p_obj p).
        { apply Kp2; [done |]. intros G. destruct w as [x |] eqn:Hw.
          - destruct (Fr x eq_refl) as [Nx Px]. apply Nx. rewrite <- Px. by apply Gal.
          - apply (Na2 _ G). by apply Nw. }
        split.
        { apply NoDup_app. split; [done |]. split; [| destruct w; cbn; [apply NoDup_singleton | constructor]].
          intros o Ho Hw. apply (Fr2 o Ho). apply Al1. right. by apply Wal. }
        split; [intros o; rewrite Al2, Al1, elem_of_app; specialize (Wal o); specialize (Wal' o); tauto |].
        split. { intros o Ho A. apply elem_of_app in Ho as [Ho | Ho]; [apply (Fr2 o Ho), Al1; by left |]. by apply Wal, Fr in Ho as [? ?]. }
        split; [cbn; by rewrite L | | | | | |done].
        -- intros [| i] k' d' a' p' H1 H2 H3 H4; cbn in *; simplify_eq.
           ++ destruct Arr as ((v & V1 & V2) & R). split; [exists v; by rewrite Pkp | done].
           ++ destruct (Ar2 i k' d' a' p' H1 H2 H3 H4) as ((v & V1 & V2) & R1 & R2 & R3).
              split; [exists v; by rewrite <- (Vals i) |]. split; [done |]. split.
              ** intros B A. apply (R2 B), Al1. by left.
              ** intros B. specialize (R3 B). destruct (names a'); [done |]. intros A. apply R3, Al1. by left.
        -- assert (K : forall j q, ps !! j = Some q -> p_obj p = p_obj q -> alive s (p_obj p)).
           { intros j q Hq Eq. destruct w as [x |] eqn:Hw; [| apply Al; by apply Nw].
             assert (Lj := lookup_lt_Some _ _ _ Hq). rewrite L in Lj.
             destruct (lookup_lt_is_Some_2 args j) as [b Hb]; [done |].
             destruct (lookup_lt_is_Some_2 ks j) as [kj Hk]; [rewrite (co_lk _ _ _ _ C1); done |].
             destruct (lookup_lt_is_Some_2 (map amp ks) j) as [dj Hd]; [rewrite (co_ld _ _ _ _ C1); done |].
             destruct (Ar2 j kj dj b q Hk Hd Hb Hq) as (_ & _ & R2 & R3).
             assert (dj = amp kj) as -> by (rewrite list_lookup_fmap, Hk in Hd; by injection Hd).
             assert (B : ~ by_value kj (amp kj)) by (intros B; apply (R2 B); by rewrite <- Eq).
             specialize (R3 B). destruct (names b) as [o |] eqn:Nb; [rewrite Eq, R3; by apply (co_alive _ _ _ _ C1 j b) |].
             exfalso. apply R3. by rewrite <- Eq. }
           intros [| i] [| j] q r H1 H2 N Eq; cbn in *; simplify_eq.
           ++ by eapply K.
           ++ rewrite Eq. by eapply K.
           ++ assert (A := Ow2 i j q r H1 H2 (fun X => N (f_equal S X)) Eq). apply Al1 in A as [A | A]; [done |]. exfalso.
              (* an object made for the first parameter is not named by the others *)
              destruct (Fr _ A) as [Nx Px].
              apply Nx. rewrite <- Px. eapply (K i q H1). done.
        -- intros o A G. rewrite given_cons in G. rewrite Kp2; [apply Kp; tauto | apply Al1; by left | tauto].
        -- intros o v Ho G. apply given_cons in G as [G | G].
           ++ rewrite Kp2; [by apply Gv | apply Al1; left; unfold alive; rewrite Ho; eauto |]. intros G'. apply (Na2 o G'). by eapply gives_names.
           ++ apply Gv2; [| done]. rewrite Kp; [done | unfold alive; rewrite Ho; eauto |]. intros G'. apply (Na2 o G). by eapply gives_names.
        -- rewrite Cp2, Cp. unfold ncopies. cbn. lia.
      * destruct IH as (W2 & Al2 & Kp2 & T).
        split; [done |]. split; [| split; [| done]].
        -- intros o. rewrite Al2, Al1, not_elem_of_app. specialize (Wal o). specialize (Wal' o). specialize (Fr o). tauto.
        -- intros o A No G. rewrite given_cons in G. rewrite Kp2; [apply Kp; tauto | apply Al1; by left | | tauto].
           rewrite not_elem_of_app. split; [| done]. intros Hw. apply Wal, Fr in Hw as [? ?]. done.
    + destruct I as (W1 & Eq & T).
      assert (Al1 : forall o, alive s1 o <-> alive s o) by (intros o; unfold alive; by rewrite Eq).
      destruct (kills_exn (A := list param * list nat) os s1 NDo) as (s' & K & W' & Kl); [intros o Ho; by apply Al1, Os | done |].
      cbn in K. cbn. destruct (kills os s1) as [x |]; [| done]. injection K as <-. split; [done |]. split; [| split; [| done]].
      * intros o. destruct (Kl o) as [K1 K2]. destruct (decide (o ∈ os)) as [Ho | Ho]; [split; [intros A; by destruct (K1 Ho) | by intros [_ ?]] |].
        unfold alive. rewrite (K2 Ho), Eq. tauto.
      * intros o A Ho _. rewrite (proj2 (Kl o) Ho). by rewrite Eq.
Qed.

(** ** The order of initialisation does not matter *)
Lemma rev_lookup {A} (l : list A) n i x : length l = n -> reverse l !! i = Some x -> i < n /\ l !! (n - S i) = Some x.
Proof.
  intros <- H. assert (L := lookup_lt_Some _ _ _ H). rewrite reverse_length in L. split; [done |]. by rewrite <- reverse_lookup.
Qed.
Lemma lookup_rev {A} (l : list A) n i x : length l = n -> l !! i = Some x -> i < n /\ reverse l !! (n - S i) = Some x.
Proof. intros L H. apply rev_lookup; [by rewrite reverse_length |]. by rewrite reverse_involutive. Qed.
Lemma map_reverse {A B} (f : A -> B) l : map f (reverse l) = reverse (map f l).
Proof. induction l as [| x l IH]; [done |]. rewrite reverse_cons, map_app, IH. cbn [map]. by rewrite reverse_cons. Qed.
Lemma given_reverse ks ds args o : length ks = length args -> length ds = length args ->
  given_away (reverse ks) (reverse ds) (reverse args) o -> given_away ks ds args o.
Proof.
  intros L1 L2 (i & k & d & a & H1 & H2 & H3 & G).
  apply (rev_lookup _ _ _ _ L1) in H1 as [I H1]. apply (rev_lookup _ _ _ _ L2) in H2 as [_ H2]. apply (rev_lookup _ _ _ _ eq_refl) in H3 as [_ H3].
  by exists (length args - S i), k, d, a.
Qed.
Lemma call_ok_reverse s ks ds args : call_ok s ks ds args -> call_ok s (reverse ks) (reverse ds) (reverse args).
Proof.
  intros [L1 L2 Ac Fi Al Na]. split; rewrite ?reverse_length; try done.
  - intros i k a H1 H2. apply (rev_lookup _ _ _ _ L1) in H1 as [I H1]. apply (rev_lookup _ _ _ _ eq_refl) in H2 as [_ H2]. eauto.
  - intros i k d H1 H2. apply (rev_lookup _ _ _ _ L1) in H1 as [I H1]. apply (rev_lookup _ _ _ _ L2) in H2 as [_ H2]. eauto.
  - intros i a o H. apply (rev_lookup _ _ _ _ eq_refl) in H as [_ H]. eauto.
  - intros i j k d a b o H1 H2 H3 G H4 N.
    apply (rev_lookup _ _ _ _ L1) in H1 as [I H1]. apply (rev_lookup _ _ _ _ L2) in H2 as [_ H2].
    apply (rev_lookup _ _ _ _ eq_refl) in H3 as [_ H3]. apply (rev_lookup _ _ _ _ eq_refl) in H4 as [J H4].
    eapply (Na _ _ k d a b o H1 H2 H3 G H4). lia.
Qed.
Lemma zip_with_reverse {A B C} (f : A -> B -> C) l1 l2 : length l1 = length l2 -> zip_with f (reverse l1) (reverse l2) = reverse (zip_with f l1 l2).
Proof.
  revert l2. induction l1 as [| x l1 IH]; intros [| y l2] L; try done. cbn [zip_with]. rewrite !reverse_cons.
  rewrite zip_with_app by (rewrite !reverse_length; cbn in L; lia). rewrite IH by (cbn in L; lia). done.
Qed.
Lemma sum_reverse l : sum_list (reverse l) = sum_list l.
Proof. induction l as [| x l IH]; [done |]. rewrite reverse_cons, sum_list_with_app. cbn in *. lia. Qed.
Lemma entry_reverse E s ks ds args s' ps : length ks = length args -> length ds = length args ->
  entry E s (reverse ks) (reverse ds) (reverse args) s' ps -> entry E s ks ds args s' (reverse ps).
Proof.
  intros L1 L2 [L Ar Ow Kp Gv Cp W]. rewrite reverse_length in L. split; try done.
  - by rewrite reverse_length.
  - intros i k d a p H1 H2 H3 H4. apply (rev_lookup _ _ _ _ L) in H4 as [I H4].
    apply (lookup_rev _ _ _ _ L1) in H1 as [_ H1]. apply (lookup_rev _ _ _ _ L2) in H2 as [_ H2]. apply (lookup_rev _ _ _ _ eq_refl) in H3 as [_ H3].
    eauto.
  - intros i j p q H1 H2 N. apply (rev_lookup _ _ _ _ L) in H1 as [I H1]. apply (rev_lookup _ _ _ _ L) in H2 as [J H2]. apply (Ow _ _ _ _ H1 H2). lia.
  - intros o A G. apply Kp; [done |]. intros G'. by apply G, given_reverse.
  - intros o v Ho G. apply Gv; [done |]. apply given_reverse; rewrite ?reverse_length, ?reverse_involutive; done.
  - rewrite Cp. f_equal. unfold ncopies.
    rewrite (zip_with_reverse pair) by lia. rewrite zip_with_reverse; [| rewrite zip_with_length; lia].
    apply sum_reverse.
Qed.

(** ** One call *)
Definition halted {A} E (s : store) (gone : nat -> Prop) (r : cr A) : Prop := stopped s gone r /\ exists t, te_throws E t = true.
Lemma frame_ok {A} E ks args (body : list param -> store -> cr A) s : store_wf s -> call_ok s ks (map amp ks) args ->
  (exists ps os s', frame E ks args body s = finish os (body ps s') /\ NoDup os /\ (forall o, alive s' o <-> alive s o \/ o ∈ os) /\
     (forall o, o ∈ os -> ~ alive s o) /\ entry E s ks (map amp ks) args s' ps) \/
  halted E s (given_away ks (map amp ks) args) (frame E ks args body s).
Proof.
  intros W C. unfold frame. destruct (te_rtl E).
  - assert (Cr := call_ok_reverse _ _ _ _ C). rewrite <- map_reverse in Cr.
    assert (I := inits_ok E _ _ [] s W Cr (NoDup_nil_2) (fun o H => match not_elem_of_nil o H with end)).
    destruct (inits E (reverse ks) (reverse args) [] s) as [[ps os] s' | s' | |]; try done.
    + destruct I as (new & -> & ND & Al & Fr & En). left. exists (reverse ps), (new ++ []), s'. rewrite app_nil_r in *.
      split; [done |]. split; [done |]. split; [done |]. split; [done |]. rewrite map_reverse in En.
      apply entry_reverse in En; [done | apply C | apply C].
    + destruct I as (W' & Al & Kp & T). right. split; [| done]. cbn. split; [done |]. split; [intros o; rewrite Al; set_solver |].
      intros o A' G. apply Kp; [done | set_solver |]. intros G'. apply G. rewrite map_reverse in G'. apply given_reverse; [apply C | apply C | done].
  - assert (I := inits_ok E _ _ [] s W C (NoDup_nil_2) (fun o H => match not_elem_of_nil o H with end)).
    destruct (inits E ks args [] s) as [[ps os] s' | s' | |]; try done.
    + destruct I as (new & -> & ND & Al & Fr & En). left. exists ps, (new ++ []), s'. rewrite app_nil_r in *. done.
    + destruct I as (W' & Al & Kp & T). right. split; [| done]. cbn. split; [done |]. split; [intros o; rewrite Al; set_solver |].
      intros o A' G. apply Kp; [done | set_solver | done].
Qed.

(** ** From one call to the next *)
Lemma gives_same k a o d : gives_away k k a o \/ gives_away k (amp k) a o -> gives_away k d a o.
Proof. unfold gives_away. destruct k; cbn; intuition congruence. Qed.
Lemma fits_same k : fits k k. Proof. destruct k as [| [] | []]; cbn; tauto. Qed.
Lemma fits_amp k : fits (amp k) k. Proof. destruct k as [| [] | []]; cbn; tauto. Qed.
Lemma call_ok_same s ks ds args : call_ok s ks ds args -> call_ok s ks ks args.
Proof.
  intros [L1 L2 Ac Fi Al Na]. split; try done.
  - intros i k d H1 H2. simplify_eq. apply fits_same.
  - intros i j k d a b o H1 H2 H3 G H4 N. simplify_eq.
    destruct (lookup_lt_is_Some_2 ds i) as [e He]; [rewrite L2; by eapply lookup_lt_Some |].
    eapply (Na i j _ e); try done. apply gives_same. by left.
Qed.
Lemma call_ok_amp s ks ds args : call_ok s ks ds args -> call_ok s ks (map amp ks) args.
Proof.
  intros [L1 L2 Ac Fi Al Na]. split; try done.
  - by rewrite map_length.
  - intros i k d H1 H2. rewrite list_lookup_fmap, H1 in H2. injection H2 as <-. apply fits_amp.
  - intros i j k d a b o H1 H2 H3 G H4 N. rewrite list_lookup_fmap, H1 in H2. injection H2 as <-.
    destruct (lookup_lt_is_Some_2 ds i) as [e He]; [rewrite L2; by eapply lookup_lt_Some |].
    eapply (Na i j _ e); try done. apply gives_same. by right.
Qed.
Lemma entry_alive E s0 ks ds args s1 ps o : entry E s0 ks ds args s1 ps -> alive s0 o -> alive s1 o.
Proof.
  intros En A. destruct (given_away_dec ks ds args o) as [G | G].
  - destruct A as [v Hv]. unfold alive. rewrite (en_given _ _ _ _ _ _ _ En o v Hv G). eauto.
  - unfold alive. by rewrite (en_kept _ _ _ _ _ _ _ En o A G).
Qed.
Lemma casts_lookup ks ps i c : casts ks ps !! i = Some c -> exists k p, ks !! i = Some k /\ ps !! i = Some p /\ c = cast k p.
Proof. unfold casts. intros H. apply lookup_zip_with_Some in H as (k & p & -> & ? & ?). eauto. Qed.
Lemma lookup_casts ks ps i k p : ks !! i = Some k -> ps !! i = Some p -> casts ks ps !! i = Some (cast k p).
Proof. intros H1 H2. unfold casts. apply lookup_zip_with_Some. eauto. Qed.
Lemma names_cast k p : names (cast k p) = Some (p_obj p). Proof. by destruct k. Qed.
Lemma value_cast s k p : value_of s (cast k p) = s_obj s !! p_obj p. Proof. by destruct k. Qed.
Lemma sum_zip_ext {A B} (f g : A -> B -> nat) l m : (forall i x y, l !! i = Some x -> m !! i = Some y -> f x y = g x y) ->
  sum_list (zip_with f l m) = sum_list (zip_with g l m).
Proof.
  revert m. induction l as [| x l IH]; intros [| y m] H; try done. cbn. rewrite (H 0 x y), IH; try done. intros i a b. apply (H (S i)).
Qed.

Section Chain.
  Context (E : tenv) (s0 : store) (ks : list pkind) (args : list arg).
  Notation entered bs := (entry E s0 ks bs args).

  Lemma at_index bs s ps i : length ks = length args -> length bs = length args -> entered bs s ps -> i < length args ->
    exists k d a p, ks !! i = Some k /\ bs !! i = Some d /\ args !! i = Some a /\ ps !! i = Some p.
  Proof.
    intros L1 L2 En Hi. assert (L3 := en_len _ _ _ _ _ _ _ En).
    destruct (lookup_lt_is_Some_2 ks i) as [k Hk]; [lia |]. destruct (lookup_lt_is_Some_2 bs i) as [d Hd]; [lia |].
    destruct (lookup_lt_is_Some_2 args i) as [a Ha]; [lia |]. destruct (lookup_lt_is_Some_2 ps i) as [p Hp]; [lia |]. by exists k, d, a, p.
  Qed.
  Lemma entered_norm bs s ps : bs = ks \/ bs = map amp ks -> length ks = length args -> entered bs s ps -> entered (map amp ks) s ps.
  Proof.
    intros [-> | ->] L1; [| done]. intros [L Ar Ow Kp Gv Cp W].
    assert (Gs : forall o, given_away ks ks args o <-> given_away ks (map amp ks) args o).
    { intros o. split; intros (i & k & d & a & H1 & H2 & H3 & G).
      - exists i, k, (amp k), a. rewrite list_lookup_fmap, H1. split; [done |]. split; [done |]. split; [done |]. simplify_eq. apply gives_same. by left.
      - rewrite list_lookup_fmap, H1 in H2. injection H2 as <-. exists i, k, k, a. split; [done |]. split; [done |]. split; [done |].
        apply gives_same. by right. }
    split; try done.
    - intros i k d a p H1 H2 H3 H4. rewrite list_lookup_fmap, H1 in H2. injection H2 as <-.
      destruct (Ar i k k a p H1 H1 H3 H4) as (V & R1 & R2 & R3). split; [done |]. split; [by rewrite const_amp |].
      rewrite by_value_amp. unfold by_value in *. split; tauto.
    - intros o A G. apply Kp; [done | by rewrite Gs].
    - intros o v Ho G. apply Gv; [done | by rewrite Gs].
    - rewrite Cp. f_equal. unfold ncopies. clear. revert args. induction ks as [| k l IH]; intros [| a args]; cbn; try done.
      rewrite IH. f_equal. destruct k as [| [] | []], a as [| ? [] |]; done.
  Qed.

  (** the arguments of the next call *)
  Lemma cast_shape s ps i k a p : length ks = length args -> entered (map amp ks) s ps ->
    ks !! i = Some k -> args !! i = Some a -> ps !! i = Some p ->
    cast k p = match k with PVal => AXv (p_obj p) false | PLref c => ALv (p_obj p) c | PRref c => AXv (p_obj p) c end.
  Proof.
    intros L En H1 H2 H3. destruct (en_arrives _ _ _ _ _ _ _ En i k (amp k) a p) as (_ & R & _); try done; [by rewrite list_lookup_fmap, H1 |].
    rewrite const_amp in R. destruct k as [| c | c]; cbn in *; rewrite R; try done; by destruct c.
  Qed.
  Lemma cast_object s ps i k a p : length ks = length args -> entered (map amp ks) s ps ->
    ks !! i = Some k -> args !! i = Some a -> ps !! i = Some p ->
    (exists v, value_of s0 a = Some v /\ s_obj s !! p_obj p = Some v) /\
    (alive s0 (p_obj p) -> k <> PVal /\ names a = Some (p_obj p)) /\
    (k <> PVal -> forall o, names a = Some o -> p_obj p = o).
  Proof.
    intros L En H1 H2 H3. destruct (en_arrives _ _ _ _ _ _ _ En i k (amp k) a p) as (V & _ & R2 & R3); try done; [by rewrite list_lookup_fmap, H1 |].
    rewrite by_value_amp in *. split; [done |]. split.
    - intros A. assert (k <> PVal) as Nk by (intros ->; by apply R2). split; [done |]. specialize (R3 Nk). destruct (names a); congruence.
    - intros Nk o No. specialize (R3 Nk). by rewrite No in R3.
  Qed.

  Lemma next_ok bs s ps : call_ok s0 ks bs args -> entered (map amp ks) s ps -> call_ok s bs (map amp bs) (casts ks ps).
  Proof.
    intros C En. assert (L := en_len _ _ _ _ _ _ _ En). destruct C as [L1 L2 Ac Fi Al Na].
    assert (Lc : length (casts ks ps) = length args) by (unfold casts; rewrite zip_with_length; lia).
    assert (Get : forall i c, casts ks ps !! i = Some c -> exists k a p b, ks !! i = Some k /\ args !! i = Some a /\ ps !! i = Some p /\ bs !! i = Some b /\ c = cast k p).
    { intros i c H. apply casts_lookup in H as (k & p & H1 & H2 & ->).
      destruct (lookup_lt_is_Some_2 args i) as [a Ha]; [rewrite <- L1; by eapply lookup_lt_Some |].
      destruct (lookup_lt_is_Some_2 bs i) as [b Hb]; [rewrite L2, <- L1; by eapply lookup_lt_Some |]. by exists k, a, p, b. }
    split.
    - lia.
    - rewrite map_length. lia.
    - intros i b c Hb Hc. apply Get in Hc as (k & a & p & b' & H1 & H2 & H3 & H4 & ->). simplify_eq.
      rewrite (cast_shape s ps i k a p L1 En H1 H2 H3). assert (F := Fi i k b H1 Hb).
      destruct k, b; cbn in *; done.
    - intros i b d H1 H2. rewrite list_lookup_fmap, H1 in H2. injection H2 as <-. apply fits_amp.
    - intros i c o Hc No. apply Get in Hc as (k & a & p & b' & H1 & H2 & H3 & H4 & ->). rewrite names_cast in No. injection No as <-.
      destruct (cast_object s ps i k a p L1 En H1 H2 H3) as ((v & _ & Hv) & _). unfold alive. rewrite Hv. eauto.
    - intros i j b d c c' o Hb Hd Hc G Hc' N No.
      rewrite list_lookup_fmap, Hb in Hd. injection Hd as <-.
      apply Get in Hc as (k & a & p & b1 & H1 & H2 & H3 & H4 & ->). apply Get in Hc' as (k' & a' & p' & b2 & H1' & H2' & H3' & H4' & ->).
      rewrite (cast_shape s ps i k a p L1 En H1 H2 H3) in G. rewrite names_cast in No. injection No as No. simplify_eq.
      apply gives_amp in G as [G ->].
      assert (p_obj p = p_obj p') as Eq by (destruct k; cbn in G; congruence).
      assert (A := en_own _ _ _ _ _ _ _ En i j p p' H3 H3' N Eq).
      destruct (cast_object s ps i k a p L1 En H1 H2 H3) as (_ & R1 & _). destruct (R1 A) as [Nk Nm].
      rewrite Eq in A. destruct (cast_object s ps j k' a' p' L1 En H1' H2' H3') as (_ & R1' & _). destruct (R1' A) as [_ Nm'].
      assert (k = PRref false) as -> by (destruct k; cbn in *; congruence).
      assert (Aci := Ac i (PRref false) a H1 H2).
      assert (a = AXv (p_obj p) false) as ->.
      { destruct a as [| o c | ]; cbn in *; try done. injection Nm as ->. destruct c; [| done]. by specialize (Aci eq_refl). }
      apply (Na i j (PRref false) PVal (AXv (p_obj p) false) a' (p_obj p) H1 Hb H2); try done; [| congruence].
      split; [done |]. right. done.
  Qed.

  Lemma given_next bs s ps o : call_ok s0 ks bs args -> entered (map amp ks) s ps -> alive s0 o ->
    (given_away ks (map amp ks) args o -> given_away ks bs args o) /\
    (given_away bs (map amp bs) (casts ks ps) o -> given_away ks bs args o) /\
    (given_away ks bs args o -> given_away ks (map amp ks) args o \/ given_away bs (map amp bs) (casts ks ps) o) /\
    (given_away ks (map amp ks) args o -> ~ given_away bs (map amp bs) (casts ks ps) o).
  Proof.
    intros C En A. assert (L := en_len _ _ _ _ _ _ _ En). destruct C as [L1 L2 Ac Fi Al Na].
    assert (Snd : forall i c b d, bs !! i = Some b -> map amp bs !! i = Some d -> casts ks ps !! i = Some c -> gives_away b d c o ->
      exists k p, ks !! i = Some k /\ args !! i = Some (AXv o false) /\ ps !! i = Some p /\ k = PRref false /\ b = PVal /\ p_obj p = o).
    { intros i c b d H1 H2 H3 G. rewrite list_lookup_fmap, H1 in H2. injection H2 as <-. apply casts_lookup in H3 as (k & p & H4 & H5 & ->).
      destruct (lookup_lt_is_Some_2 args i) as [a Ha]; [rewrite <- L1; by eapply lookup_lt_Some |].
      rewrite (cast_shape s ps i k a p L1 En H4 Ha H5) in G. apply gives_amp in G as [G ->].
      destruct (cast_object s ps i k a p L1 En H4 Ha H5) as (_ & R1 & _).
      assert (p_obj p = o) as <- by (destruct k; cbn in G; congruence). destruct (R1 A) as [Nk Nm].
      assert (k = PRref false) as -> by (destruct k; cbn in *; congruence).
      assert (Aci := Ac i _ a H4 Ha).
      assert (a = AXv (p_obj p) false) as ->.
      { destruct a as [| o c | ]; cbn in *; try done. injection Nm as ->. destruct c; [| done]. by specialize (Aci eq_refl). }
      exists (PRref false), p. done. }
    split; [| split; [| split]].
    - intros (i & k & d & a & H1 & H2 & H3 & G). rewrite list_lookup_fmap, H1 in H2. injection H2 as <-.
      destruct (lookup_lt_is_Some_2 bs i) as [b Hb]; [rewrite L2, <- L1; by eapply lookup_lt_Some |].
      exists i, k, b, a. split; [done |]. split; [done |]. split; [done |]. apply gives_same. by right.
    - intros (i & b & d & c & H1 & H2 & H3 & G). destruct (Snd i c b d H1 H2 H3 G) as (k & p & ? & ? & ? & -> & -> & ?).
      exists i, (PRref false), PVal, (AXv o false). split; [done |]. split; [done |]. split; [done |]. split; [done |]. by right.
    - intros (i & k & b & a & H1 & H2 & H3 & G). destruct G as [-> [-> | [-> ->]]].
      + left. exists i, PVal, (PRref false), (AXv o false). rewrite list_lookup_fmap, H1. split; [done |]. split; [done |]. split; [done |]. split; [done |]. by left.
      + right. destruct (lookup_lt_is_Some_2 ps i) as [p Hp]; [rewrite L, <- L1; by eapply lookup_lt_Some |].
        exists i, PVal, (PRref false), (cast (PRref false) p). rewrite list_lookup_fmap, H2. split; [done |]. split; [done |].
        split; [by apply lookup_casts |]. rewrite (cast_shape s ps i _ _ p L1 En H1 H3 Hp).
        destruct (cast_object s ps i _ _ p L1 En H1 H3 Hp) as (_ & _ & R). rewrite (R ltac:(done) o eq_refl). split; [done | by left].
    - intros (i & k & d & a & H1 & H2 & H3 & G) (j & b & e & c & H4 & H5 & H6 & G').
      destruct (Snd j c b e H4 H5 H6 G') as (k' & p & H7 & H8 & H9 & -> & -> & Hp).
      rewrite list_lookup_fmap, H1 in H2. injection H2 as <-. apply gives_amp in G as [-> ->].
      destruct (decide (i = j)) as [-> | N]; [simplify_eq |].
      destruct (lookup_lt_is_Some_2 bs i) as [b Hb]; [rewrite L2, <- L1; by eapply lookup_lt_Some |].
      apply (Na i j PVal b (AXv o false) (AXv o false) o H1 Hb H3); try done. split; [done | by left].
  Qed.

  Lemma entered_next bs s ps s2 ps2 : call_ok s0 ks bs args -> entered (map amp ks) s ps ->
    entry E s bs (map amp bs) (casts ks ps) s2 ps2 -> entered bs s2 ps2.
  Proof.
    intros C En En2. assert (C' := C). destruct C' as [L1 L2 Ac Fi Al Na]. assert (L := en_len _ _ _ _ _ _ _ En).
    assert (Al1 := fun o => entry_alive _ _ _ _ _ _ _ o En).
    assert (Lc : length (casts ks ps) = length args) by (unfold casts; rewrite zip_with_length; lia).
    assert (L' := en_len _ _ _ _ _ _ _ En2). rewrite Lc in L'.
    assert (Get : forall i q, ps2 !! i = Some q -> exists k a p b, ks !! i = Some k /\ args !! i = Some a /\ ps !! i = Some p /\ bs !! i = Some b /\
      map amp bs !! i = Some (amp b) /\ casts ks ps !! i = Some (cast k p)).
    { intros i q H. assert (Hi := lookup_lt_Some _ _ _ H). rewrite L' in Hi.
      destruct (at_index (map amp ks) s ps i L1 ltac:(by rewrite map_length) En Hi) as (k & d & a & p & H1 & H2 & H3 & H4).
      destruct (lookup_lt_is_Some_2 bs i) as [b Hb]; [lia |].
      exists k, a, p, b. rewrite list_lookup_fmap, Hb. split; [done |]. split; [done |]. split; [done |]. split; [done |]. split; [done |]. by apply lookup_casts. }
    split.
    - done.
    - intros i k b a q H1 H2 H3 H4. destruct (Get i q H4) as (k1 & a1 & p & b1 & H5 & H6 & H7 & H8 & H9 & H10).
      assert (k1 = k) as -> by congruence. assert (a1 = a) as -> by congruence. assert (b1 = b) as -> by congruence. clear H5 H6 H8.
      destruct (en_arrives _ _ _ _ _ _ _ En2 i b (amp b) (cast k p) q H2 H9 H10 H4) as ((v & V1 & V2) & R1 & R2 & R3).
      rewrite value_cast in V1. rewrite names_cast in R3. rewrite by_value_amp in *. rewrite const_amp in R1.
      destruct (cast_object s ps i k a p L1 En H1 H3 H7) as ((v' & V3 & V4) & O1 & O2). assert (v' = v) as -> by congruence.
      split; [eauto |]. split; [done |]. split.
      + intros B A. assert (A' := Al1 _ A). assert (b <> PVal) as Nb by (intros ->; by apply R2).
        specialize (R3 Nb). rewrite R3 in A. destruct (O1 A) as [Nk _]. by destruct B.
      + intros B. assert (b <> PVal) as Nb by (intros ->; apply B; by right). assert (k <> PVal) as Nk by (intros ->; apply B; by left).
        specialize (R3 Nb). rewrite R3. destruct (names a) as [o |] eqn:No; [by apply O2 |]. intros A. by destruct (O1 A) as [_ ?].
    - intros i j q r H1 H2 N Eq. assert (A := en_own _ _ _ _ _ _ _ En2 i j q r H1 H2 N Eq).
      destruct (Get i q H1) as (k & a & p & b & I1 & I2 & I3 & I4 & I5 & I6). destruct (Get j r H2) as (k' & a' & p' & b' & J1 & J2 & J3 & J4 & J5 & J6).
      destruct (en_arrives _ _ _ _ _ _ _ En2 i b (amp b) (cast k p) q I4 I5 I6 H1) as (_ & _ & R2 & R3).
      destruct (en_arrives _ _ _ _ _ _ _ En2 j b' (amp b') (cast k' p') r J4 J5 J6 H2) as (_ & _ & S2 & S3).
      rewrite by_value_amp in *. rewrite names_cast in *.
      assert (b <> PVal) as Nb by (intros ->; by apply R2). specialize (R3 Nb).
      assert (b' <> PVal) as Nb' by (intros ->; apply S2; [done | by rewrite <- Eq]). specialize (S3 Nb').
      rewrite R3. apply (en_own _ _ _ _ _ _ _ En i j p p' I3 J3 N). congruence.
    - intros o A G. destruct (given_next bs s ps o C En A) as (G1 & G2 & G3 & G4).
      rewrite (en_kept _ _ _ _ _ _ _ En2 o (Al1 o A)) by tauto. apply (en_kept _ _ _ _ _ _ _ En o A). tauto.
    - intros o v Ho G. assert (A : alive s0 o) by (unfold alive; rewrite Ho; eauto). destruct (given_next bs s ps o C En A) as (G1 & G2 & G3 & G4).
      destruct (G3 G) as [G' | G'].
      + rewrite (en_kept _ _ _ _ _ _ _ En2 o (Al1 o A)) by tauto. by apply (en_given _ _ _ _ _ _ _ En).
      + apply (en_given _ _ _ _ _ _ _ En2); [| done]. rewrite (en_kept _ _ _ _ _ _ _ En o A); [done |]. tauto.
    - rewrite (en_copies _ _ _ _ _ _ _ En2), (en_copies _ _ _ _ _ _ _ En), <- Nat.add_assoc. f_equal.
      assert (Sh : forall i k a p, ks !! i = Some k -> args !! i = Some a -> ps !! i = Some p ->
        cast k p = match k with PVal => AXv (p_obj p) false | PLref c => ALv (p_obj p) c | PRref c => AXv (p_obj p) c end).
      { intros i k a p. by apply (cast_shape s ps). }
      revert Sh L1 L2 L Fi. clear. unfold ncopies, casts. revert ps bs args. induction ks as [| k l IH]; intros [| p ps] [| b bs] [| a args] Sh L1 L2 L Fi; try done.
      specialize (IH ps bs args (fun i => Sh (S i))). cbn in IH |- *. rewrite <- IH; [| by injection L1 | by injection L2 | by injection L | intros i; apply (Fi (S i))].
      specialize (Sh 0 k a p eq_refl eq_refl eq_refl). rewrite Sh. assert (F := Fi 0 k b eq_refl eq_refl).
      destruct k as [| [] | []], b as [| [] | []], a as [| ? [] |]; cbn in *; try lia; try (specialize (F eq_refl); done); done.
    - apply En2.
  Qed.
End Chain.

Section Paths.
  Context {A : Type} (E : tenv) (s0 : store) (ks ds : list pkind) (args : list arg) (body : list param -> store -> cr A).
  Context (W0 : store_wf s0) (C0 : call_ok s0 ks ds args) (B0 : body_ok body).
  Notation entered bs := (entry E s0 ks bs args).

  (** the outcome of the part of the call that started in [sb] *)
  Definition good (sb : store) (r : cr A) : Prop :=
    (exists ps s', entered ds s' ps /\ (forall o, alive sb o -> alive s' o) /\ ran sb s' ps body r) \/
    (match r with
     | RExn s' => store_wf s' /\ (forall o, alive s' o <-> alive sb o) /\ forall o, alive s0 o -> ~ given_away ks ds args o -> s_obj s' !! o = s_obj s0 !! o
     | _ => False end /\ exists t, te_throws E t = true).

  Lemma leaves_kills s s2 s3 sr os : NoDup os -> (forall o, alive s2 o <-> alive s o \/ o ∈ os) -> (forall o, o ∈ os -> ~ alive s o) ->
    (forall o, alive s2 o -> alive s3 o) -> leaves s2 s3 sr -> exists s', kills os sr = Some s' /\ leaves s s3 s'.
  Proof.
    intros ND Al Fr Al3 [Wr Lv].
    destruct (kills_ok os sr ND) as (s' & K & W' & Kl); [| done |].
    - intros o Ho. destruct (Lv o) as [L1 _]. assert (A2 : alive s2 o) by (apply Al; by right). unfold alive. rewrite (L1 A2). by apply Al3.
    - exists s'. split; [done |]. split; [done |]. intros o. destruct (Kl o) as [K1 K2]. destruct (Lv o) as [L1 L2]. split.
      + intros Ao. rewrite K2 by (intros Ho; by apply (Fr o)). apply L1, Al. by left.
      + intros Ao. destruct (decide (o ∈ os)) as [Ho | Ho]; [by apply K1 |]. unfold alive. rewrite K2 by done. apply L2. rewrite Al. tauto.
  Qed.
  Lemma good_finish s s2 os r : NoDup os -> (forall o, alive s2 o <-> alive s o \/ o ∈ os) -> (forall o, o ∈ os -> ~ alive s o) ->
    (forall o, alive s0 o -> alive s o) -> good s2 r -> good s (finish os r).
  Proof.
    intros ND Al Fr Als [(ps & s' & En & Al' & R) | [R T]].
    - left. exists ps, s'. split; [done |]. split; [intros o Ho; apply Al', Al; by left |].
      unfold ran in *. assert (B := B0 ps s' (en_wf _ _ _ _ _ _ _ En)). destruct (body ps s') as [x s3 | s3 | |]; try done; destruct r as [y sr | sr | |]; try done.
      + destruct R as [<- R]. destruct B as [B1 B2]. cbn.
        destruct (leaves_kills s s2 s3 sr os ND Al Fr) as (sf & -> & L); [intros o Ho; by apply B1, Al' | done | done].
      + destruct B as [B1 B2]. cbn.
        destruct (leaves_kills s s2 s3 sr os ND Al Fr) as (sf & -> & L); [intros o Ho; by apply B1, Al' | done | done].
    - right. split; [| done]. destruct r as [| sr | |]; try done. destruct R as (Wr & Alr & Kp). cbn.
      destruct (kills_ok os sr ND) as (sf & -> & Wf & Kl); [intros o Ho; apply Alr, Al; by right | done |].
      split; [done |]. split.
      + intros o. destruct (Kl o) as [K1 K2]. specialize (Alr o). specialize (Al o). specialize (Fr o).
        destruct (decide (o ∈ os)) as [Ho | Ho]; [tauto |]. unfold alive at 1. rewrite (K2 Ho). fold (alive sr o). tauto.
      + intros o Ao G. rewrite (proj2 (Kl o)); [by apply Kp |]. intros Ho. by apply (Fr o Ho), Als.
  Qed.

  Lemma mid_ok bs : bs = ks \/ bs = map amp ks \/ bs = ds -> call_ok s0 ks bs args.
  Proof. intros [-> | [-> | ->]]; [by eapply call_ok_same | by eapply call_ok_amp | done]. Qed.
  Lemma mid_given bs o : bs = ks \/ bs = map amp ks \/ bs = ds -> given_away ks bs args o -> given_away ks ds args o.
  Proof.
    intros H (i & k & d & a & H1 & H2 & H3 & G). destruct C0 as [L1 L2 _ _ _ _].
    destruct (lookup_lt_is_Some_2 ds i) as [e He]; [rewrite L2, <- L1; by eapply lookup_lt_Some |].
    exists i, k, e, a. split; [done |]. split; [done |]. split; [done |]. destruct H as [-> | [-> | ->]].
    - apply gives_same. left. congruence.
    - apply gives_same. right. rewrite list_lookup_fmap, H1 in H2. injection H2 as <-. done.
    - congruence.
  Qed.

  Lemma step bs s ps G : bs = ks \/ bs = map amp ks \/ bs = ds -> store_wf s -> entered (map amp ks) s ps ->
    (forall s2 ps2, store_wf s2 -> entered bs s2 ps2 -> good s2 (G ps2 s2)) -> good s (frame E bs (casts ks ps) G s).
  Proof.
    intros Hb W En H. assert (C := mid_ok bs Hb). assert (Cn := next_ok E s0 ks args bs s ps C En).
    assert (Als := fun o => entry_alive _ _ _ _ _ _ _ o En).
    destruct (frame_ok E bs (casts ks ps) G s W Cn) as [(ps2 & os & s2 & -> & ND & Al & Fr & En2) | [St T]].
    - apply (good_finish s s2 os); try done. apply H; [apply En2 |]. by eapply entered_next.
    - right. split; [| done]. unfold stopped in St. destruct (frame E bs (casts ks ps) G s) as [| s' | |]; try done.
      destruct St as (W' & Al & Kp). split; [done |]. split; [done |]. intros o Ao Go.
      destruct (given_next E s0 ks args bs s ps o C En Ao) as (G1 & G2 & G3 & G4). assert (Gm := mid_given bs o Hb).
      rewrite Kp; [| by apply Als | tauto]. apply (en_kept _ _ _ _ _ _ _ En o Ao). tauto.
  Qed.
  Lemma start G : (forall s ps, store_wf s -> entered (map amp ks) s ps -> good s (G ps s)) -> good s0 (frame E ks args G s0).
  Proof.
    intros H. destruct (frame_ok E ks args G s0 W0 (mid_ok (map amp ks) ltac:(tauto))) as [(ps & os & s2 & -> & ND & Al & Fr & En) | [St T]].
    - apply (good_finish s0 s2 os); try done. apply H; [apply En | done].
    - right. split; [| done]. unfold stopped in St. destruct (frame E ks args G s0) as [| s' | |]; try done.
      destruct St as (W' & Al & Kp). split; [done |]. split; [done |]. intros o Ao Go. apply Kp; [done |].
      intros X. apply Go. apply (mid_given (map amp ks)); [tauto | done].
  Qed.
  Lemma stop s ps : store_wf s -> entered (map amp ks) s ps -> good s (frame E ds (casts ks ps) body s).
  Proof.
    intros W En. apply step; [tauto | done | done |]. intros s2 ps2 W2 En2. left. exists ps2, s2. split; [done |]. split; [done |].
    unfold ran. assert (B := B0 ps2 s2 W2). destruct (body ps2 s2) as [x s3 | s3 | |]; try done; destruct B as [B1 B2]; [split; [done |] |];
      (split; [done |]; intros o; split; [done | by rewrite B1]).
  Qed.

  Lemma deduced_casts s ps : entered (map amp ks) s ps -> map deduced (casts ks ps) = map amp ks /\ forall ps', length ps' = length ks ->
    (forall i k p, ks !! i = Some k -> ps' !! i = Some p -> p_const p = const_of k) -> casts (map amp ks) ps' = casts ks ps'.
  Proof.
    intros En. assert (L := en_len _ _ _ _ _ _ _ En). destruct C0 as [L1 L2 _ _ _ _].
    assert (Sh := fun i k a p => cast_shape E s0 ks args s ps i k a p L1 En). split.
    - apply list_eq. intros i. rewrite !list_lookup_fmap. destruct (ks !! i) as [k |] eqn:Hk.
      + destruct (lookup_lt_is_Some_2 ps i) as [p Hp]; [rewrite L, <- L1; by eapply lookup_lt_Some |].
        destruct (lookup_lt_is_Some_2 args i) as [a Ha]; [rewrite <- L1; by eapply lookup_lt_Some |].
        rewrite (lookup_casts _ _ _ _ _ Hk Hp), (Sh i k a p Hk Ha Hp). by destruct k.
      + destruct (casts ks ps !! i) as [c |] eqn:Hc; [| done]. apply casts_lookup in Hc as (? & ? & ? & _). congruence.
    - clear. induction ks as [| k l IH]; intros [| p ps'] Lp H; try done. unfold casts. cbn. f_equal.
      + specialize (H 0 k p eq_refl eq_refl). destruct k as [| [] | []]; cbn in *; rewrite ?H; done.
      + apply IH; [by injection Lp |]. intros i. apply (H (S i)).
  Qed.

  Lemma vtable_good do_invoke s ps : store_wf s -> entered (map amp ks) s ps ->
    (forall s2 ps2, store_wf s2 -> entered (map amp ks) s2 ps2 -> good s2 (do_invoke (casts ks ps2) s2)) ->
    good s (vtable_invoke E ks do_invoke (casts ks ps) s).
  Proof.
    intros W En H. unfold vtable_invoke. destruct (deduced_casts s ps En) as [-> Q]. apply step; [tauto | done | done |].
    intros s2 ps2 W2 En2. assert (L := en_len _ _ _ _ _ _ _ En2). destruct C0 as [L1 L2 _ _ _ _].
    rewrite Q; [| lia |].
    - unfold invoker_value. apply step; [tauto | done | done |]. intros s3 ps3 W3 En3. by apply H.
    - intros i k p Hk Hp. destruct (lookup_lt_is_Some_2 args i) as [a Ha]; [rewrite <- L1; by eapply lookup_lt_Some |].
      destruct (en_arrives _ _ _ _ _ _ _ En2 i k (amp k) a p Hk ltac:(by rewrite list_lookup_fmap, Hk) Ha Hp) as (_ & R & _). by rewrite const_amp in R.
  Qed.
  Lemma norm s ps : entered ks s ps -> entered (map amp ks) s ps.
  Proof. apply entered_norm; [by left | apply C0]. Qed.
  Lemma invoke_good_ks do_invoke s ps : store_wf s -> entered (map amp ks) s ps ->
    (forall s2 ps2, store_wf s2 -> entered (map amp ks) s2 ps2 -> good s2 (do_invoke (casts ks ps2) s2)) ->
    good s (invoke_op E ks do_invoke (casts ks ps) s).
  Proof.
    intros W En H. unfold invoke_op. apply step; [tauto | done | done |]. intros s2 ps2 W2 En2. apply vtable_good; [done | by apply norm | done].
  Qed.

  Lemma good_passes r : good s0 r -> passes E s0 ks ds args body r.
  Proof.
    intros [(ps & s' & En & _ & R) | [R T]]; [left; eauto |]. right. split; [| done]. unfold stopped. destruct r; try done.
  Qed.
  Lemma direct_call_passes : passes E s0 ks ds args body (direct_call E ks ds body args s0).
  Proof.
    apply good_passes. unfold direct_call, invoke_op. apply start. intros s ps W En. apply vtable_good; [done | done |].
    intros s2 ps2 W2 En2. by apply stop.
  Qed.
  Lemma method_call_passes : passes E s0 ks ds args body (method_call E ks ds body args s0).
  Proof.
    apply good_passes. unfold method_call. apply start. intros s ps W En. apply invoke_good_ks; [done | done |].
    intros s2 ps2 W2 En2. by apply stop.
  Qed.
  Lemma call_call_passes : passes E s0 ks ds args body (call_call E ks ds body args s0).
  Proof.
    apply good_passes. unfold call_call. apply start. intros s ps W En. apply invoke_good_ks; [done | done |].
    intros s2 ps2 W2 En2. unfold call_do_invoke. apply step; [tauto | done | done |].
    intros s3 ps3 W3 En3. apply stop; [done | by apply norm].
  Qed.
End Paths.

(** ** Overloads of invoke *)
Lemma invoke_const_ok x : x <> XAny true true -> operand_const x = true -> forall m, invoke_compiles x m = true -> m = true.
Proof. destruct x as [[] [] | | | |]; intros N C [] H; try done; by vm_compute in H. Qed.
Lemma invoke_compiles_iff x m : x <> XAny true true -> invoke_compiles x m = true <-> (operand_const x = true -> m = true).
Proof. destruct x as [[] [] | | | |], m; intros N; vm_compute; intuition congruence. Qed.
Lemma invoke_const_rvalue m : invoke_compiles (XAny true true) m = true.
Proof. by destruct m. Qed.
Lemma const_method_self_ok selfref selfconst : is_const_method selfref selfconst = true <-> ~ (selfref = true /\ selfconst = false).
Proof. destruct selfref, selfconst; cbn; intuition congruence. Qed.
