(** Proofs about overload resolution. *)
From stdpp Require Import list list_numbers sets.
From Verif Require Import OverloadModel OverloadSpec.

Section Proofs.
  Context (K : classes).
  Notation vtype := (nat * bool)%type.

  Lemma in_candidates fs args i f : (i, f) ∈ candidates K fs args <-> fs !! i = Some f /\ viable K f args = true.
  Proof.
    unfold candidates. rewrite elem_of_list_filter, Is_true_true. cbn. split.
    - intros [Hv Hi]. apply elem_of_list_lookup in Hi as [j Hj]. rewrite list_lookup_imap in Hj. destruct (fs !! j) eqn:E; [|done]. cbn in Hj. by injection Hj as -> ->.
    - intros [Hi Hv]. split; [done|]. apply elem_of_list_lookup. exists i. by rewrite list_lookup_imap, Hi.
  Qed.
  Lemma better_fn_asym f g args : better_fn K f g args = true -> better_fn K g f args = true -> False.
  Proof.
    unfold better_fn. rewrite !andb_true_iff, !forallb_forall, !existsb_exists. intros [_ (x & Hx & Hb)] [Hn _].
    destruct x as (a & p & q). cbn in Hb. specialize (Hn (a, (q, p))). cbn in Hn.
    assert (H : In (a, (q, p)) (zip args (zip g f))); [|apply Hn in H; by rewrite Hb in H].
    clear -Hx. revert f g Hx. induction args as [|b args IH]; intros f g Hx; [done|]. destruct f as [|u f], g as [|v g]; cbn in *; try done.
    destruct Hx as [[= -> -> ->]|Hx]; [by left|right; by apply IH].
  Qed.
  Lemma candidates_nodup fs args : NoDup (candidates K fs args).
  Proof.
    apply NoDup_filter. apply NoDup_alt. intros i j x Hi Hj. rewrite list_lookup_imap in Hi, Hj.
    destruct (fs !! i); [|done]. destruct (fs !! j); [|done]. cbn in *. congruence.
  Qed.
  Lemma resolve_iff fs args i : resolve K fs args = Selected i <->
    exists f, fs !! i = Some f /\ viable K f args = true /\ forall j g, fs !! j = Some g -> j <> i -> viable K g args = true -> better_fn K f g args = true.
  Proof.
    unfold resolve. set (c := candidates K fs args).
    set (b := filter _ c).
    assert (Hb : forall x, x ∈ b <-> x ∈ c /\ forall y, y ∈ c -> fst y <> fst x -> better_fn K (snd x) (snd y) args = true).
    { intros x. unfold b. rewrite elem_of_list_filter, Is_true_true, forallb_forall, (and_comm _ (x ∈ c)). split; intros [H2 H1]; (split; [done|]).
      - intros y Hy Hne. apply elem_of_list_In in Hy. apply H1 in Hy. apply orb_true_iff in Hy as [Hy|Hy]; [|done]. by apply Nat.eqb_eq in Hy.
      - intros y Hy. apply elem_of_list_In in Hy. destruct (fst x =? fst y) eqn:E; [done|]. apply Nat.eqb_neq in E. cbn. by apply H1. }
    assert (Hc : forall x, x ∈ c <-> fs !! fst x = Some (snd x) /\ viable K (snd x) args = true) by (intros [j f]; apply in_candidates).
    assert (Hu : forall x y, x ∈ b -> y ∈ b -> x = y).
    { intros x y Hx Hy. apply Hb in Hx as [Hx Hx']. apply Hb in Hy as [Hy Hy']. destruct (decide (fst x = fst y)) as [E|E].
      - apply Hc in Hx as [Hx _]. apply Hc in Hy as [Hy _]. rewrite E in Hx. destruct x, y; cbn in *. congruence.
      - exfalso. apply (better_fn_asym (snd x) (snd y) args); [by apply Hx'|by apply Hy']. }
    assert (Hd : NoDup b) by (apply NoDup_filter, candidates_nodup).
    assert (Hs : (match b with [x] => Selected (fst x) | _ => Ambiguous end) = Selected i <-> exists f, (i, f) ∈ b).
    { destruct b as [|x [|y tl]].
      - split; [done|]. intros [f H]. by apply elem_of_nil in H.
      - split.
        + intros [= <-]. exists (snd x). destruct x. by apply elem_of_list_singleton.
        + intros [f H]. apply elem_of_list_singleton in H. by rewrite <-H.
      - exfalso. assert (x = y) as -> by (apply Hu; set_solver). apply NoDup_cons in Hd as [Hd _]. apply Hd. by left. }
    transitivity (exists f, (i, f) ∈ b).
    { destruct c as [|x tl] eqn:Ec; [|exact Hs]. split; [done|]. intros [f H]. apply Hb in H as [H _]. by apply elem_of_nil in H. }
    split.
    - intros [f H]. apply Hb in H as [H1 H2]. apply Hc in H1 as [H1 H3]. cbn in *. exists f. split; [done|]. split; [done|].
      intros j g Hj Hne Hv. apply (H2 (j, g)); [by apply Hc|done].
    - intros (f & H1 & H2 & H3). exists f. apply Hb. split; [by apply Hc|]. intros [j g] Hj Hne. apply Hc in Hj as [Hj Hv]. cbn in *. by apply (H3 j).
  Qed.
  (** without repeated functions *)
  Lemma selects_iff fs args f : NoDup fs ->
    (exists i, resolve K fs args = Selected i /\ fs !! i = Some f) <->
    f ∈ fs /\ viable K f args = true /\ forall g, g ∈ fs -> g <> f -> viable K g args = true -> better_fn K f g args = true.
  Proof.
    intros Hd. split.
    - intros (i & Hr & Hi). apply resolve_iff in Hr as (f' & Hi' & Hv & Hb). rewrite Hi in Hi'. injection Hi' as <-.
      split; [by eapply elem_of_list_lookup_2|]. split; [done|]. intros g Hg Hne Hvg. apply elem_of_list_lookup in Hg as [j Hj].
      apply (Hb j); [done| |done]. intros ->. congruence.
    - intros (Hf & Hv & Hb). apply elem_of_list_lookup in Hf as [i Hi]. exists i. split; [|done]. apply resolve_iff. exists f. split; [done|]. split; [done|].
      intros j g Hj Hne Hvg. apply Hb; [by eapply elem_of_list_lookup_2| |done]. intros ->. apply Hne. by eapply NoDup_lookup.
  Qed.

  (** ** Erased visitors *)
  Lemma visit_params_inj : forall Ts Us, visit_params Ts = visit_params Us -> Ts = Us.
  Proof.
    induction Ts as [|[t c] Ts IH]; intros [|[u d] Us] H; cbn in H; try done. injection H as -> -> H. f_equal. by apply IH.
  Qed.
  Lemma visitor_call_iff os args Ts : NoDup os ->
    visitor_call K os args = Some Ts <->
    call_declared args = true /\ body_compiles Ts = true /\ Ts ∈ os /\ viable K (visit_params Ts) args = true /\
    forall Us, Us ∈ os -> Us <> Ts -> viable K (visit_params Us) args = true -> better_fn K (visit_params Ts) (visit_params Us) args = true.
  Proof.
    intros Hd. unfold visitor_call.
    assert (Hd' : NoDup (map visit_params os)) by (apply (NoDup_fmap_2_strong visit_params); [intros ? ? _ _; apply visit_params_inj|done]).
    pose proof (selects_iff (map visit_params os) args (visit_params Ts) Hd') as Hs.
    assert (Hin : forall Us, visit_params Us ∈ map visit_params os <-> Us ∈ os).
    { intros Us. change (map visit_params os) with (visit_params <$> os). rewrite elem_of_list_fmap. split; [intros (y & H & Hy); apply visit_params_inj in H; by subst|eauto]. }
    assert (Hall : forall g, g ∈ map visit_params os -> exists Us, g = visit_params Us /\ Us ∈ os).
    { intros g Hg. change (map visit_params os) with (visit_params <$> os) in Hg. by apply elem_of_list_fmap in Hg. }
    split.
    - intros H. destruct (call_declared args); [|done]. destruct (resolve K (map visit_params os) args) as [i| |] eqn:Er; [|done|done].
      destruct (os !! i) as [Us|] eqn:Ei; [|done]. destruct (body_compiles Us) eqn:Eb; [|done]. injection H as ->.
      assert (Hi : map visit_params os !! i = Some (visit_params Ts)). { change (map visit_params os) with (visit_params <$> os). by rewrite list_lookup_fmap, Ei. }
      destruct (proj1 Hs) as (H1 & H2 & H3); [eauto|]. split; [done|]. split; [done|]. split; [by apply Hin|]. split; [done|].
      intros Us HU Hne Hv. apply H3; [by apply Hin| |done]. intros E. by apply visit_params_inj in E.
    - intros (Hc & Hbody & H1 & H2 & H3). rewrite Hc. destruct (proj2 Hs) as (i & Hr & Hi).
      + split; [by apply Hin|]. split; [done|]. intros g Hg Hne Hv. apply Hall in Hg as (Us & -> & HU). apply H3; [done| |done]. by intros ->.
      + rewrite Hr. change (map visit_params os) with (visit_params <$> os) in Hi. rewrite list_lookup_fmap in Hi. destruct (os !! i) as [Us|]; [|done].
        cbn in Hi. injection Hi as Hi. apply visit_params_inj in Hi as ->. by rewrite Hbody.
  Qed.

  Lemma viable1 p a : viable K [p] [a] = true <-> is_Some (bind_rank K p a).
  Proof. unfold viable. cbn. destruct (bind_rank K p a); cbn; split; intros H; first [done|by eexists|by destruct H]. Qed.
  Lemma viable2 p q a b : viable K [p; q] [a; b] = true <-> is_Some (bind_rank K p a) /\ is_Some (bind_rank K q b).
  Proof. unfold viable. cbn. destruct (bind_rank K p a), (bind_rank K q b); cbn; split; intros H; first [done|split; by eexists|by destruct H as [[] []]]. Qed.
  Lemma better1 p q a : better_fn K [p] [q] [a] = true <-> better K a p q = true /\ better K a q p = false.
  Proof. unfold better_fn. cbn. destruct (better K a p q), (better K a q p); cbn; naive_solver. Qed.
  Lemma better2 p p' q q' a b : better_fn K [p; q] [p'; q'] [a; b] = true <->
    better K a p' p = false /\ better K b q' q = false /\ (better K a p p' = true \/ better K b q q' = true).
  Proof. unfold better_fn. cbn. destruct (better K a p p'), (better K a p' p), (better K b q q'), (better K b q' q); cbn; naive_solver. Qed.

  Context (HK : sane K).
  Lemma base_irrefl c : base K c c = false. Proof. apply HK. Qed.
  Lemma base_asym a b : base K a b = true -> base K b a = false.
  Proof. intros H. destruct (base K b a) eqn:E; [|done]. destruct HK as (Hi & Ht & _). rewrite <-(Hi a). symmetry. by eapply Ht. Qed.
  Lemma better_irrefl a p : better K a p p = false.
  Proof.
    unfold better. destruct (bind_rank K p a) as [m|]; [|done]. rewrite Nat.ltb_irrefl, !Nat.eqb_refl, base_irrefl. cbn.
    rewrite andb_false_r. destruct (p_rref p), (p_const p); done.
  Qed.
  Lemma better_asym a p q : better K a p q = true -> better K a q p = false.
  Proof.
    unfold better. destruct (bind_rank K p a) as [m|], (bind_rank K q a) as [n|]; try done.
    destruct (m <? n) eqn:E1.
    - intros _. apply Nat.ltb_lt in E1. assert (n <? m = false) as -> by (apply Nat.ltb_ge; lia). assert (n =? m = false) as -> by (apply Nat.eqb_neq; lia). done.
    - destruct (m =? n) eqn:E2; [|done]. apply Nat.eqb_eq in E2 as ->. rewrite Nat.ltb_irrefl, Nat.eqb_refl, (Nat.eqb_sym (p_type q)). cbn.
      destruct ((n =? 3) && negb (p_type p =? p_type q)); [done|]. destruct (base K (p_type p) (p_type q)) eqn:E3; [by rewrite (base_asym _ _ E3)|].
      destruct (base K (p_type q) (p_type p)); [done|]. destruct (p_rref p), (p_rref q), (p_const p), (p_const q), (p_type p =? p_type q); done.
  Qed.

  Lemma in_overloads1 Ts os : os ∈ overloads1 Ts <-> exists T, os = [T] /\ T ∈ Ts.
  Proof. unfold overloads1. change (map ?f Ts) with (f <$> Ts). by rewrite elem_of_list_fmap. Qed.
  Lemma in_overloads2 Ts Us os : os ∈ overloads2 Ts Us <-> exists T U, os = [T; U] /\ T ∈ Ts /\ U ∈ Us.
  Proof.
    unfold overloads2. rewrite elem_of_list_In, in_concat. split.
    - intros (l & Hl & Ho). apply in_map_iff in Hl as (T & <- & HT). apply in_map_iff in Ho as (U & <- & HU). exists T, U. by rewrite !elem_of_list_In.
    - intros (T & U & -> & HT & HU). exists (map (fun U => [T; U]) Us). rewrite elem_of_list_In in HT, HU. split; apply in_map_iff; eauto.
  Qed.
  Lemma overloads1_nodup Ts : NoDup Ts -> NoDup (overloads1 Ts).
  Proof. intros H. unfold overloads1. apply (NoDup_fmap_2_strong (fun T : vtype => [T])); [|done]. intros ? ? _ _ [= ->]. done. Qed.
  Lemma overloads2_nodup Ts Us : NoDup Ts -> NoDup Us -> NoDup (overloads2 Ts Us).
  Proof.
    intros HT HU. induction HT as [|T Ts Hn HT IH]; [apply NoDup_nil_2|]. unfold overloads2 in *. cbn. apply NoDup_app. split; [|split; [|exact IH]].
    - apply (NoDup_fmap_2_strong (fun U : vtype => [T; U])); [|done]. intros ? ? _ _ [= ->]. done.
    - intros os Ho Ho'. apply in_overloads2 in Ho' as (T' & U' & -> & HT' & _). apply elem_of_list_In, in_map_iff in Ho as (U & [= -> ->] & _). done.
  Qed.

  (** one argument *)
  Lemma call1_iff Ts a T : NoDup Ts ->
    visitor_call K (overloads1 Ts) [a] = Some [T] <->
    snd T = false /\ T ∈ Ts /\ is_Some (bind_rank K (Param (fst T) (snd T) false) a) /\
    forall T', T' ∈ Ts -> T' <> T -> is_Some (bind_rank K (Param (fst T') (snd T') false) a) ->
      better K a (Param (fst T) (snd T) false) (Param (fst T') (snd T') false) = true.
  Proof.
    intros Hd. rewrite visitor_call_iff by by apply overloads1_nodup. cbn [call_declared visit_params map body_compiles forallb]. rewrite viable1. split.
    - intros (_ & Hb & Hin & Hv & H). apply in_overloads1 in Hin as (T0 & [= <-] & HT). split; [by destruct (snd T)|]. split; [done|]. split; [done|].
      intros T' HT' Hne Hv'. specialize (H [T']). cbn [visit_params map] in H. rewrite viable1, better1 in H. apply H; [|congruence|done]. apply in_overloads1. eauto.
    - intros (Hb & HT & Hv & H). split; [done|]. split; [by rewrite Hb|]. split; [apply in_overloads1; eauto|]. split; [done|].
      intros os Ho Hne. apply in_overloads1 in Ho as (T' & -> & HT'). cbn [visit_params map]. rewrite viable1, better1. intros Hv'.
      assert (HB := H T' HT' ltac:(congruence) Hv'). split; [done|]. by apply better_asym.
  Qed.
  Lemma call1_shape Ts a os : NoDup Ts -> visitor_call K (overloads1 Ts) [a] = Some os -> exists T, os = [T].
  Proof.
    intros Hd H. apply visitor_call_iff in H; [|by apply overloads1_nodup]. destruct H as (_ & _ & Hin & _). apply in_overloads1 in Hin as (T & -> & _). eauto.
  Qed.

  (** two arguments: each separately *)
  Theorem componentwise Ts Us a b T U : NoDup Ts -> NoDup Us ->
    visitor_call K (overloads2 Ts Us) [a; b] = Some [T; U] <->
    visitor_call K (overloads1 Ts) [a] = Some [T] /\ visitor_call K (overloads1 Us) [b] = Some [U].
  Proof.
    intros HT HU. rewrite visitor_call_iff by by apply overloads2_nodup. rewrite !call1_iff by done.
    cbn [call_declared visit_params map body_compiles forallb]. rewrite viable2. split.
    - intros (_ & Hb & Hin & [Hv1 Hv2] & H). apply in_overloads2 in Hin as (T0 & U0 & [= <- <-] & HT0 & HU0).
      assert (snd T = false /\ snd U = false) as [Ec1 Ec2] by (by destruct (snd T), (snd U)). split; (split; [done|]; split; [done|]; split; [done|]).
      + intros T' HT' Hne Hv'. specialize (H [T'; U]). cbn [visit_params map] in H. rewrite viable2, better2, better_irrefl in H.
        destruct H as (_ & _ & [H|H]); [apply in_overloads2; eauto|congruence|done|done|done].
      + intros U' HU' Hne Hv'. specialize (H [T; U']). cbn [visit_params map] in H. rewrite viable2, better2, !better_irrefl in H.
        destruct H as (_ & _ & [H|H]); [apply in_overloads2; eauto|congruence|done|done|done].
    - intros [(Hc1 & HT0 & Hv1 & H1) (Hc2 & HU0 & Hv2 & H2)]. split; [done|]. split; [by rewrite Hc1, Hc2|]. split; [apply in_overloads2; eauto|]. split; [done|].
      intros os Ho Hne. apply in_overloads2 in Ho as (T' & U' & -> & HT' & HU'). cbn [visit_params map]. rewrite viable2, better2. intros [Hv1' Hv2'].
      destruct (decide (T' = T)) as [->|HneT], (decide (U' = U)) as [->|HneU]; [done| | |].
      + rewrite !better_irrefl. assert (HB := H2 U' HU' HneU Hv2'). split; [done|]. split; [by apply better_asym|by right].
      + rewrite !better_irrefl. assert (HB := H1 T' HT' HneT Hv1'). split; [by apply better_asym|]. split; [done|by left].
      + assert (HB := H1 T' HT' HneT Hv1'). assert (HB' := H2 U' HU' HneU Hv2'). split; [by apply better_asym|]. split; [by apply better_asym|by left].
  Qed.

  Lemma bind_plain T a : is_Some (bind_rank K (Param T false false) a) <-> is_a K (a_type a) T /\ a_const a = false /\ a_lvalue a = true.
  Proof.
    unfold bind_rank, is_a. cbn. destruct (a_type a =? T) eqn:E; cbn.
    - apply Nat.eqb_eq in E. destruct (a_const a), (a_lvalue a); cbn; split; try (by intros [? ?]); try naive_solver.
    - apply Nat.eqb_neq in E. destruct (base K (a_type a) T) eqn:Eb; cbn.
      + destruct (a_const a), (a_lvalue a); cbn; split; try (by intros [? ?]); try naive_solver.
      + destruct (conv K (a_type a) T); split; try (by intros [? ?]); intros [[H|H] _]; congruence.
  Qed.
  (** what a call needs: a lvalue that is not const *)
  Theorem call_needs_lvalue os args Ts : NoDup os -> visitor_call K os args = Some Ts ->
    length Ts = length args /\ forall i T a, Ts !! i = Some T -> args !! i = Some a ->
      snd T = false /\ a_const a = false /\ a_lvalue a = true /\ is_a K (a_type a) (fst T).
  Proof.
    intros Hd H. apply visitor_call_iff in H; [|done]. destruct H as (_ & Hb & _ & Hv & _). unfold viable in Hv. apply andb_true_iff in Hv as [Hl Hv].
    apply Nat.eqb_eq in Hl. unfold visit_params in Hl. rewrite map_length in Hl. split; [done|]. clear Hl Hd. revert args Hb Hv.
    induction Ts as [|[t c] Ts IH]; intros [|a0 args] Hb Hv [|i] T a HT Ha; cbn in *; try done.
    - injection HT as <-. injection Ha as <-. apply andb_true_iff in Hb as [Hb _]. apply andb_true_iff in Hv as [Hv _]. destruct c; [done|]. cbn in *.
      split; [done|]. destruct (proj1 (bind_plain t a0)) as (H1 & H2 & H3); [|done]. destruct (bind_rank K (Param t false false) a0); [eauto|done].
    - apply andb_true_iff in Hb as [_ Hb]. apply andb_true_iff in Hv as [_ Hv]. by eapply (IH args).
  Qed.
  Lemma better_plain T T' a : is_a K (a_type a) T -> is_a K (a_type a) T' -> a_const a = false -> a_lvalue a = true -> T' <> T ->
    better K a (Param T false false) (Param T' false false) = true <-> base K T T' = true.
  Proof.
    intros H H' Hc Hl Hne. unfold better, bind_rank. cbn. rewrite Hc, Hl. cbn.
    assert (a_type a =? T' = true \/ a_type a =? T' = false /\ base K (a_type a) T' = true) as HT'.
    { destruct H' as [->|H']; [left; apply Nat.eqb_refl|]. right. split; [|done]. apply Nat.eqb_neq. intros <-. by rewrite base_irrefl in H'. }
    assert (a_type a =? T = true \/ a_type a =? T = false /\ base K (a_type a) T = true) as HT.
    { destruct H as [->|H]; [left; apply Nat.eqb_refl|]. right. split; [|done]. apply Nat.eqb_neq. intros <-. by rewrite base_irrefl in H. }
    assert (T =? T' = false) as Hf by by apply Nat.eqb_neq.
    destruct HT as [HT|[HT HT2]], HT' as [HT'|[HT' HT2']]; rewrite ?HT, ?HT', ?HT2, ?HT2', ?Hf; cbn.
    - apply Nat.eqb_eq in HT, HT'. congruence.
    - apply Nat.eqb_eq in HT. rewrite HT in HT2'. done.
    - apply Nat.eqb_eq in HT'. rewrite HT' in HT2. rewrite (base_asym _ _ HT2). done.
    - destruct (base K T T'); [done|]. destruct (base K T' T); done.
  Qed.
  Theorem call1_nearest Ts a T : NoDup Ts ->
    visitor_call K (overloads1 (map (fun T => (T, false)) Ts)) [a] = Some [(T, false)] <->
    a_const a = false /\ a_lvalue a = true /\ nearest_class K Ts (a_type a) T.
  Proof.
    intros Hd. assert (Hin : forall T, (T, false) ∈ map (fun T => (T, false)) Ts <-> T ∈ Ts).
    { intros T0. rewrite !elem_of_list_In, in_map_iff. split; [intros (? & [= ->] & ?); done|eauto]. }
    rewrite call1_iff. 2: { apply (NoDup_fmap_2_strong (fun T => (T, false))); [|done]. intros ? ? _ _ [= ->]. done. }
    cbn [fst snd]. rewrite Hin, bind_plain. unfold nearest_class. split.
    - intros (_ & HT & (H1 & Hc & Hl) & H). split; [done|]. split; [done|]. split; [done|]. split; [done|]. intros T' HT' H1'. 
      destruct (decide (T' = T)) as [->|Hne]; [by left|]. right. apply (better_plain T T' a); [done..|]. apply (H (T', false)); [by apply Hin|congruence|].
      by apply bind_plain.
    - intros (Hc & Hl & HT & H1 & H). split; [done|]. split; [done|]. split; [done|]. intros [T' c'] HT' Hne Hv'.
      apply elem_of_list_In, in_map_iff in HT' as (T2 & [= <- <-] & HT2). apply bind_plain in Hv' as (H1' & _). cbn. apply elem_of_list_In in HT2.
      assert (T2 <> T) by congruence. apply better_plain; [done..|]. destruct (H T2 HT2 H1') as [->|]; done.
  Qed.

  (** ** Insertion into a swarm *)
  Notation ins T r := (Param T (negb r) r).
  Lemma in_insert_params Ts f : f ∈ insert_params Ts <-> exists T r, f = [ins T r] /\ T ∈ Ts.
  Proof.
    unfold insert_params. rewrite elem_of_list_In, in_concat. split.
    - intros (l & Hl & Hf). apply in_map_iff in Hl as (T & <- & HT). apply elem_of_list_In in HT. destruct Hf as [<-|[<-|[]]]; [exists T, true|exists T, false]; done.
    - intros (T & r & -> & HT). exists [[ins T true]; [ins T false]]. split; [apply in_map_iff; exists T; split; [done|by apply elem_of_list_In]|].
      destruct r; [by left|right; by left].
  Qed.
  Lemma insert_params_nodup Ts : NoDup Ts -> NoDup (insert_params Ts).
  Proof.
    intros HT. induction HT as [|T Ts Hn HT IH]; [apply NoDup_nil_2|]. unfold insert_params in *. cbn.
    apply NoDup_cons. split; [|apply NoDup_cons; split; [|exact IH]].
    - intros H. apply elem_of_cons in H as [H|H]; [done|]. apply in_insert_params in H as (T' & r & [= -> _ _] & H). done.
    - intros H. apply in_insert_params in H as (T' & r & [= -> _ _] & H). done.
  Qed.
  Lemma insert_call_iff Ts a T r : NoDup Ts -> insert_call K Ts a = Some (T, r) <->
    T ∈ Ts /\ is_Some (bind_rank K (ins T r) a) /\
    forall T' r', T' ∈ Ts -> (T', r') <> (T, r) -> is_Some (bind_rank K (ins T' r') a) -> better K a (ins T r) (ins T' r') = true.
  Proof.
    intros Hd. transitivity (exists i, resolve K (insert_params Ts) [a] = Selected i /\ insert_params Ts !! i = Some [ins T r]).
    - unfold insert_call. split.
      + intros H. destruct (resolve K (insert_params Ts) [a]) as [i| |]; [|done|done]. destruct (insert_params Ts !! i) as [f|] eqn:E; [|done].
        assert (Hf := elem_of_list_lookup_2 _ _ _ E). apply in_insert_params in Hf as (T' & r' & -> & _). cbn in H. injection H as -> ->. eauto.
      + intros (i & -> & ->). done.
    - rewrite selects_iff by by apply insert_params_nodup. rewrite viable1. split.
      + intros (Hin & Hv & H). apply in_insert_params in Hin as (T0 & r0 & [= <- _ <-] & HT). split; [done|]. split; [done|]. intros T' r' HT' Hne Hv'.
        specialize (H [ins T' r']). rewrite viable1, better1 in H. apply H; [apply in_insert_params; eauto|congruence|done].
      + intros (HT & Hv & H). split; [apply in_insert_params; eauto|]. split; [done|]. intros g Hg Hne. apply in_insert_params in Hg as (T' & r' & -> & HT').
        rewrite viable1, better1. intros Hv'. assert (HB := H T' r' HT' ltac:(congruence) Hv'). split; [done|by apply better_asym].
  Qed.
  Definition drank (d : distance) : nat := match d with Same => 0 | Base => 2 | Converts r => rank_of r end.
  Lemma distant_fun A T d e : distant K A T d -> distant K A T e -> d = e.
  Proof. destruct d, e; cbn; intros; try done; try (destruct_and!; congruence); naive_solver congruence. Qed.
  Lemma bind_ins T r a m : bind_rank K (ins T r) a = Some m <->
    exists d, distant K (a_type a) T d /\ m = drank d /\ (r = true -> is_a K (a_type a) T -> a_const a = false /\ a_lvalue a = false).
  Proof.
    unfold bind_rank, is_a. cbn. destruct (a_type a =? T) eqn:E; cbn.
    - apply Nat.eqb_eq in E. subst T. split.
      + intros H. exists Same. split; [done|]. destruct r, (a_const a), (a_lvalue a); cbn in *; simplify_eq; naive_solver.
      + intros (d & Hd & -> & H). destruct d; cbn in *; [|by destruct Hd|by destruct Hd]. destruct r; cbn in *; [destruct H as [-> ->]; [done|by left|done]|].
        by rewrite implb_true_r, orb_true_r.
    - apply Nat.eqb_neq in E. destruct (base K (a_type a) T) eqn:Eb; cbn.
      + split.
        * intros H. exists Base. split; [done|]. destruct r, (a_const a), (a_lvalue a); cbn in *; simplify_eq; naive_solver.
        * intros (d & Hd & -> & H). destruct d; cbn in *; [congruence| |destruct_and!; congruence]. destruct r; cbn in *; [destruct H as [-> ->]; [done|by right|done]|].
          by rewrite implb_true_r, orb_true_r.
      + assert (r || negb r = true) as -> by by destruct r. split.
        * intros H. destruct (conv K (a_type a) T) as [c|] eqn:Ec; [|done]. injection H as <-. exists (Converts c). split; [done|]. split; [done|]. intros _ [H|H]; congruence.
        * intros (d & Hd & -> & H). destruct d; cbn in *; [congruence|destruct_and!; congruence|]. destruct Hd as (_ & _ & ->). done.
  Qed.
  Lemma closer_rank A T T' d e : distant K A T d -> distant K A T' e -> T' <> T -> closer d e <-> drank d < drank e.
  Proof.
    intros H H' Hne. destruct d as [| |[]], e as [| |[]]; cbn in *; split; try done; try lia; intros; subst; done.
  Qed.
  Lemma rank_eq A T T' d e : distant K A T d -> distant K A T' e -> T' <> T -> drank d = drank e ->
    d = Base /\ e = Base \/ exists r, d = Converts r /\ e = Converts r.
  Proof.
    intros H H' Hne. destruct HK as (_ & _ & HC). destruct d as [| |c], e as [| |c']; cbn in *; intros E; try lia; try (by left).
    - destruct c'; cbn in E; lia.
    - destruct c'; cbn in E; try lia. destruct H as [_ H], H' as (_ & _ & H'). rewrite (HC _ _ _ T H') in H; done.
    - destruct c; cbn in E; lia.
    - destruct c; cbn in E; try lia. destruct H as (_ & _ & H), H' as [_ H']. rewrite (HC _ _ _ T' H) in H'; done.
    - right. exists c. destruct c, c'; cbn in E; try lia; done.
  Qed.
  Lemma better_ins T r T' r' a d e : distant K (a_type a) T d -> distant K (a_type a) T' e -> T' <> T ->
    is_Some (bind_rank K (ins T r) a) -> is_Some (bind_rank K (ins T' r') a) ->
    better K a (ins T r) (ins T' r') = true <->
    closer d e \/ (d = Base /\ e = Base \/ exists c, c <> UserDefined /\ d = Converts c /\ e = Converts c) /\
      (base K T T' = true \/ base K T' T = false /\ r = true /\ r' = false).
  Proof.
    intros Hd He Hne [m Hm] [n Hn]. rewrite (closer_rank _ _ _ _ _ Hd He Hne). unfold better. rewrite Hm, Hn. cbn [p_type p_rref p_const].
    apply bind_ins in Hm as (d0 & Hd0 & -> & _). apply bind_ins in Hn as (e0 & He0 & -> & _).
    rewrite (distant_fun _ _ _ _ Hd0 Hd), (distant_fun _ _ _ _ He0 He). clear Hd0 He0 d0 e0.
    rewrite orb_true_iff, andb_true_iff, Nat.ltb_lt, Nat.eqb_eq.
    assert (T =? T' = false) as -> by (by apply Nat.eqb_neq). cbn [negb]. rewrite andb_true_r.
    assert (Hx : (if drank d =? 3 then false else if base K T T' then true else if base K T' T then false else if xorb r r' then r else false && negb (negb r) && negb r') = true
      <-> drank d <> 3 /\ (base K T T' = true \/ base K T' T = false /\ r = true /\ r' = false)).
    { destruct (drank d =? 3) eqn:E3; [apply Nat.eqb_eq in E3|apply Nat.eqb_neq in E3].
      - split; [done|]. intros [? _]. done.
      - destruct (base K T T') eqn:E1; [split; [auto|done]|]. destruct (base K T' T) eqn:E2, r, r'; cbn; naive_solver. }
    rewrite Hx. clear Hx. split.
    - intros [H|(Heq & H3 & H)]; [by left|]. right. split; [|done]. destruct (rank_eq _ _ _ _ _ Hd He Hne Heq) as [?|(c & -> & ->)]; [by left|].
      right. exists c. split; [|done]. intros ->. done.
    - intros [H|[H H']]; [by left|]. right. split; [|split; [|done]].
      + destruct H as [[-> ->]|(c & _ & -> & ->)]; done.
      + destruct H as [[-> ->]|(c & Hc & -> & ->)]; [done|]. destruct c; done.
  Qed.
  (** the rvalue overload is there whenever its type is reached from an rvalue, or a temporary is made *)
  Lemma rvalue_too T T' a d e : distant K (a_type a) T d -> distant K (a_type a) T' e ->
    (d = Base /\ e = Base \/ exists c, c <> UserDefined /\ d = Converts c /\ e = Converts c) ->
    is_Some (bind_rank K (ins T true) a) -> is_Some (bind_rank K (ins T' true) a).
  Proof.
    intros Hd He H [m Hm]. apply bind_ins in Hm as (d0 & Hd0 & -> & Hr). exists (drank e). apply bind_ins. exists e. split; [done|]. split; [done|].
    intros _ HA. destruct H as [[-> ->]|(c & _ & -> & ->)].
    - apply Hr; [done|]. right. apply Hd.
    - destruct He as (H1 & H2 & _). destruct HA as [|]; congruence.
  Qed.
  Theorem insert_nearest Ts a T r : NoDup Ts ->
    insert_call K Ts a = Some (T, r) <-> nearest_type K Ts (a_type a) T /\ (r = false <-> leaves_argument K a T).
  Proof.
    intros HN. rewrite insert_call_iff by done.
    assert (Hcp : forall T' d, distant K (a_type a) T' d -> is_Some (bind_rank K (ins T' false) a)).
    { intros T' d Hd. exists (drank d). apply bind_ins. exists d. done. }
    assert (Hsame : is_Some (bind_rank K (ins T true) a) -> is_Some (bind_rank K (ins T false) a) ->
      better K a (ins T true) (ins T false) = true /\ better K a (ins T false) (ins T true) = false).
    { intros H1 H2. assert (better K a (ins T true) (ins T false) = true); [|split; [done|by apply better_asym]].
      destruct H1 as [m Hm], H2 as [n Hn]. unfold better. rewrite Hm, Hn. apply bind_ins in Hm as (d & Hd & -> & _). apply bind_ins in Hn as (e & He & -> & _).
      rewrite (distant_fun _ _ _ _ He Hd), Nat.eqb_refl. cbn. rewrite Nat.eqb_refl, base_irrefl. cbn. by rewrite andb_false_r, orb_true_r. }
    split.
    - intros (HT & Hv & H). assert (exists d, distant K (a_type a) T d) as [d Hd] by (destruct Hv as [m Hm]; apply bind_ins in Hm as (d & Hd & _); eauto).
      split.
      + split; [done|]. exists d. split; [done|]. intros T' e HT' Hne He.
        assert (HB := H T' false HT' ltac:(congruence) (Hcp _ _ He)). apply (better_ins T r T' false a d e) in HB; [|done..|by eapply Hcp].
        destruct HB as [HB|[Hq HB]]; [by left|]. destruct HB as [HB|(HB1 & -> & _)]; [by right|]. right. split; [done|].
        assert (Hv' : is_Some (bind_rank K (ins T' true) a)) by by eapply (rvalue_too T).
        assert (HB := H T' true HT' ltac:(congruence) Hv'). apply (better_ins T true T' true a d e) in HB; [|done..].
        destruct HB as [HB|[_ HB]].
        * exfalso. apply (closer_rank _ _ _ _ _ Hd He Hne) in HB. destruct Hq as [[-> ->]|(c & _ & -> & ->)]; lia.
        * destruct HB as [HB|(_ & _ & HB)]; done.
      + destruct r.
        * split; [done|]. intros [HA Hl]. destruct Hv as [m Hm]. apply bind_ins in Hm as (d0 & _ & _ & Hr). destruct (Hr eq_refl HA). destruct Hl; congruence.
        * split; [|done]. intros _.
          assert (Hnv : ~ is_Some (bind_rank K (ins T true) a)).
          { intros Hv'. assert (HB := H T true HT ltac:(congruence) Hv'). destruct (Hsame Hv' Hv) as [_ HB']. congruence. }
          unfold leaves_argument. destruct (a_const a) eqn:Ec, (a_lvalue a) eqn:El.
          1-3: split; [|by auto]; destruct (decide (is_a K (a_type a) T)) as [HA|HA]; [done|]; exfalso; apply Hnv; exists (drank d); apply bind_ins; exists d; done.
          exfalso. apply Hnv. exists (drank d). apply bind_ins. exists d. done.
    - intros [(HT & d & Hd & H) Hr]. split; [done|].
      assert (Hv : is_Some (bind_rank K (ins T r) a)).
      { destruct r; [|by eapply Hcp]. exists (drank d). apply bind_ins. exists d. split; [done|]. split; [done|]. intros _ HA.
        unfold leaves_argument in Hr. destruct (a_const a), (a_lvalue a); try done; exfalso; assert (true = false) by (apply Hr; auto); done. }
      split; [done|]. intros T' r' HT' Hne Hv'. destruct (decide (T' = T)) as [->|HneT].
      + destruct r, r'; try done.
        * by apply Hsame.
        * exfalso. destruct Hv' as [m Hm]. apply bind_ins in Hm as (d0 & _ & _ & Hq). destruct (proj1 Hr eq_refl) as [HA Hl]. destruct (Hq eq_refl HA). destruct Hl; congruence.
      + assert (exists e, distant K (a_type a) T' e) as [e He] by (destruct Hv' as [m Hm]; apply bind_ins in Hm as (e & He & _); eauto).
        apply (better_ins T r T' r' a d e); [done..|]. destruct (H T' e HT' HneT He) as [Hc|[Hq Hb]]; [by left|]. right. split; [done|by left].
  Qed.
End Proofs.

(** ** Classes accepted as visitors *)
Lemma ordinary_accepted f : ordinary f ->
  (do_value f = NotAMethod <-> ~ callable_const f) /\ (do_value f = NoopFn <-> call_expr f true = Some true) /\
  (do_value f = VisitFn <-> call_expr f true = Some false).
Proof. intros [r ->]. unfold callable_const. destruct r as [[]|]; cbn; split_and!; split; try done; try naive_solver. Qed.
Lemma accepted_callable f : do_value f = VisitFn -> call_expr f true = Some false.
Proof. destruct f as [[[]|] [|]|[[]|]]; cbn; done. Qed.
