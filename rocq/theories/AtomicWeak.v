(** Proofs: loops of compare_exchange_weak. *)
From stdpp Require Import list.
From Verif Require Import AnyModel PolyModel PolySpec AtomicModel AtomicSpec AtomicProofs.

Definition weak (p : (words -> words) * list bool) : thread := update_weak (snd p) (fst p).
Lemma real_true l : real (true :: l) = real l. Proof. done. Qed.
Lemma real_false l : real (false :: l) = S (real l). Proof. done. Qed.

(** as upd_shape, counting the attempts that do not fail spuriously *)
Definition weak_shape (n : nat) (f : words -> words) (done : nat) (v : words) (t : thread) : Prop :=
  is_done t \/ (exists m, t = update_weak m f /\ n <= real m) \/
  exists b m e, t = weak_attempts (b :: m) f e /\ n <= real (b :: m) + done /\ (e <> v -> n < real (b :: m) + done).
Definition weak_inv (fs : list (words -> words)) (n : nat) (v0 : words) (v : words) (ts : list thread) : Prop :=
  length ts = length fs /\
  exists order, NoDup order /\ v = in_turn fs order v0 /\ (forall i, In i order -> i < length fs) /\
    (forall i t, ts !! i = Some t -> succeeded t <-> In i order) /\
    (forall i e, ts !! i = Some (TDone true e) -> exists before after, order = before ++ i :: after /\ e = in_turn fs before v0) /\
    (forall i e, ts !! i = Some (TDone false e) -> n <= length order) /\
    (forall i t f, ts !! i = Some t -> fs !! i = Some f -> weak_shape n f (length order) v t).
Lemma weak_not_succeeded m f e : ~ succeeded (weak_attempts m f e).
Proof. destruct m as [|[|] m]; intros [b H]; cbn in H; [by injection H|done|done]. Qed.
Lemma weak_attempts_shape m n f k v : n <= real m + k -> weak_shape n f k v (weak_attempts m f v).
Proof. intros H. destruct m as [|b m]; [left; by eexists _, _|right; right; exists b, m, v; split; [done|]; split; [done|done]]. Qed.
Lemma weak_gives_up m n f k e b : n <= real m + k -> weak_attempts m f e = TDone false b -> n <= k.
Proof. intros H. destruct m as [|[|] m]; [intros _; exact H|done|done]. Qed.
Lemma weak_shape_later n f k v v' t : weak_shape n f k v t -> weak_shape n f (S k) v' t.
Proof. intros [H|[H|(b & m & e & H & H1 & _)]]; [by left|right; by left|right; right; exists b, m, e; split; [done|]; lia]. Qed.
Lemma weak_run s v ps n : Forall (fun p => n <= real (snd p)) ps ->
  weak_inv (map fst ps) n v (fst (run s v (map weak ps))) (snd (run s v (map weak ps))).
Proof.
  intros Hen. set (fs := map fst ps).
  apply run_inv.
  - intros v1 ts i t v' t' (Hlen & order & Hnd & Hv & Hlt & Hsu & Hold & Hup & Hsh) Hi Hs.
    assert (exists f, fs !! i = Some f) as [f Hf].
    { apply lookup_lt_is_Some_2. rewrite <- Hlen. by eapply lookup_lt_Some. }
    assert (Hnew : forall j t1, <[i := t']> ts !! j = Some t1 -> (j = i /\ t1 = t') \/ (j <> i /\ ts !! j = Some t1)).
    { intros j t1 Hj. apply list_lookup_insert_Some in Hj as [(-> & <- & _)|[Hne Hj]]; [by left|right; split; [congruence|done]]. }
    (* a step that is no success *)
    assert (Hidle : forall m, v' = v1 -> ~ succeeded t -> t' = weak_attempts m f v1 -> n <= real m + length order -> weak_inv fs n v v' (<[i := t']> ts)).
    { intros m -> Hns -> Hm. split; [by rewrite insert_length|]. exists order. split; [done|]. split; [done|]. split; [done|].
      split; [|split; [|split]].
      - intros j t1 Hj. apply Hnew in Hj as [[-> ->]|[Hne Hj]]; [|by eapply Hsu]. rewrite <- (Hsu i t Hi). pose proof (weak_not_succeeded m f v1). tauto.
      - intros j e Hj. apply Hnew in Hj as [[-> Hj]|[Hne Hj]]; [|by eapply Hold]. exfalso. apply (weak_not_succeeded m f v1). by exists e.
      - intros j e Hj. apply Hnew in Hj as [[-> Hj]|[Hne Hj]]; [|by eapply Hup]. by eapply weak_gives_up.
      - intros j t1 f1 Hj Hf1. apply Hnew in Hj as [[-> ->]|[Hne Hj]]; [|by eapply Hsh]. rewrite Hf in Hf1. injection Hf1 as <-.
        by apply weak_attempts_shape. }
    destruct (Hsh i t f Hi Hf) as [(ok & b & ->)|[(m & -> & Hm)|([|] & m & e & -> & Hm & Hout)]]; cbn [tstep weak_attempts update_weak] in Hs.
    + done.
    + injection Hs as <- <-. apply (Hidle m); [done|intros [b Hb]; done|done|lia].
    + injection Hs as <- <-. rewrite real_true in Hm. apply (Hidle m); [done|intros [b Hb]; done|done|done].
    + rewrite real_false in Hm, Hout. case_bool_decide as E.
      * injection Hs as <- <-. subst e. split; [by rewrite insert_length|]. exists (order ++ [i]).
        assert (Hni : ~ In i order) by (rewrite <- (Hsu i _ Hi); intros [b Hb]; done).
        split. { apply NoDup_app. split; [done|]. split; [|apply NoDup_singleton]. intros x Hx Hx'. apply elem_of_list_singleton in Hx' as ->. apply Hni. by apply elem_of_list_In. }
        split. { rewrite in_turn_app. cbn. rewrite Hf. by rewrite Hv. }
        split. { intros j [Hj|[<-|[]]]%in_app_or; [by apply Hlt|]. by eapply lookup_lt_Some. }
        assert (Hl : length (order ++ [i]) = S (length order)) by (rewrite app_length; cbn; lia). rewrite Hl.
        split; [|split; [|split]].
        -- intros j t1 Hj. apply Hnew in Hj as [[-> ->]|[Hne Hj]].
           ++ split; [intros _; apply in_or_app; right; by left|intros _; by eexists].
           ++ rewrite (Hsu j t1 Hj). rewrite in_app_iff. cbn. split; [tauto|]. intros [H|[H|[]]]; [done|congruence].
        -- intros j e Hj. apply Hnew in Hj as [[-> Hj]|[Hne Hj]].
           ++ injection Hj as ->. exists order, []. done.
           ++ destruct (Hold j e Hj) as (b & a & -> & ->). exists b, (a ++ [i]). by rewrite <- app_assoc.
        -- intros j e Hj. apply Hnew in Hj as [[-> Hj]|[Hne Hj]]; [done|]. specialize (Hup j e Hj). lia.
        -- intros j t1 f1 Hj Hf1. apply Hnew in Hj as [[-> ->]|[Hne Hj]]; [left; by eexists _, _|]. eapply weak_shape_later. by eapply Hsh.
      * injection Hs as <- <-. assert (e <> v1) by congruence. apply (Hidle m); [done|intros [b Hb]; done|done|]. specialize (Hout H). lia.
  - split; [unfold fs; by rewrite !map_length|]. exists []. split; [constructor|]. split; [done|]. split; [done|].
    assert (H0 : forall i t, map weak ps !! i = Some t -> exists p, ps !! i = Some p /\ t = weak p).
    { intros i t Hi. apply list_lookup_fmap_Some in Hi as (p & Hp & ->). by exists p. }
    split; [|split; [|split]].
    + intros i t Hi. destruct (H0 i t Hi) as (f & _ & ->). split; [intros [b Hb]; done|done].
    + intros i e Hi. destruct (H0 i _ Hi) as (f & _ & H). done.
    + intros i e Hi. destruct (H0 i _ Hi) as (f & _ & H). done.
    + intros i t f Hi Hf. destruct (H0 i t Hi) as (p & Hp & ->). apply list_lookup_fmap_Some in Hf as (p' & Hp' & ->). rewrite Hp in Hp'. injection Hp' as <-.
      right. left. exists (snd p). split; [done|]. rewrite Forall_lookup in Hen. by apply (Hen i).
Qed.
Lemma weak_never_gives_up s v ps i e : Forall (fun p => length ps <= real (snd p)) ps -> snd (run s v (map weak ps)) !! i <> Some (TDone false e).
Proof.
  intros Hn Hi. destruct (weak_run s v ps (length ps) Hn) as (Hlen & order & Hnd & _ & Hlt & Hsu & _ & Hup & _). specialize (Hup i e Hi).
  assert (Hni : ~ In i order). { rewrite <- (Hsu i _ Hi). intros [b Hb]. by injection Hb. }
  rewrite map_length in Hlen. assert (Hil : i < length ps) by (rewrite <- Hlen; by eapply lookup_lt_Some).
  assert (H : length (i :: order) <= length (seq 0 (length ps))).
  { apply NoDup_incl_length.
    - apply NoDup_ListNoDup. constructor; [by rewrite elem_of_list_In|done].
    - intros j [<-|Hj]; apply in_seq; [lia|]. specialize (Hlt j Hj). rewrite map_length in Hlt. lia. }
  rewrite seq_length in H. cbn in H. lia.
Qed.
Lemma weak_within m f : forall c e, length m <= c -> within c (weak_attempts m f e).
Proof.
  induction m as [|[|] m IH]; intros c e Hc; cbn; [constructor| |]; (destruct c as [|c]; cbn in Hc; [lia|]); constructor.
  - intros b. apply IH. lia.
  - intros [|] b; [constructor|]. apply IH. lia.
Qed.
Lemma weak_finishes s v ps : (forall i p, ps !! i = Some p -> length (snd p) < turns i s) -> Forall is_done (snd (run s v (map weak ps))).
Proof.
  intros H. apply run_finishes. intros i t Hi. apply list_lookup_fmap_Some in Hi as (p & Hp & ->). specialize (H i p Hp).
  destruct (turns i s) as [|k]; [lia|]. constructor. intros b. apply weak_within. lia.
Qed.
Lemma weak_fair s v ps : Forall (fun p => length ps <= real (snd p)) ps ->
  (forall i p, ps !! i = Some p -> length (snd p) < length (filter (fun j => j = i) s)) ->
  let r := run s v (map (fun p => update_weak (snd p) (fst p)) ps) in
  exists order, order ≡ₚ seq 0 (length ps) /\ fst r = in_turn (map fst ps) order v /\
    forall i, i < length ps -> exists before after, order = before ++ i :: after /\ snd r !! i = Some (TDone true (in_turn (map fst ps) before v)).
Proof.
  intros Hn Ht. change (map (fun p => update_weak (snd p) (fst p)) ps) with (map weak ps). intros r.
  pose proof (weak_finishes s v ps Ht) as Hd. destruct (weak_run s v ps (length ps) Hn) as (Hlen & order & Hnd & Hv & Hlt & Hsu & Hold & _ & _). exists order.
  rewrite map_length in Hlen, Hlt. rewrite Forall_lookup in Hd.
  assert (Hall : forall i, i < length ps -> exists e, snd r !! i = Some (TDone true e)).
  { intros i Hi. rewrite <- Hlen in Hi. apply lookup_lt_is_Some_2 in Hi as [t Hi]. destruct (Hd i t Hi) as ([|] & e & ->); [by exists e|].
    exfalso. by eapply weak_never_gives_up. }
  split; [|split; [done|]].
  - apply NoDup_Permutation; [done|apply NoDup_ListNoDup, seq_NoDup|]. intros i. rewrite !elem_of_list_In, in_seq. split.
    + intros Hi. specialize (Hlt i Hi). lia.
    + intros Hi. destruct (Hall i) as [e He]; [lia|]. apply (Hsu i _ He). by eexists.
  - intros i Hi. destruct (Hall i Hi) as [e He]. destruct (Hold i e He) as (b & a & -> & ->). by exists b, a.
Qed.
(** however often attempts fail: those that succeeded did so one after the other *)
Lemma weak_serial s v ps : let r := run s v (map (fun p => update_weak (snd p) (fst p)) ps) in
  exists order, NoDup order /\ fst r = in_turn (map fst ps) order v /\
    (forall i, In i order <-> exists t, snd r !! i = Some t /\ succeeded t) /\
    forall i e, snd r !! i = Some (TDone true e) -> exists before after, order = before ++ i :: after /\ e = in_turn (map fst ps) before v.
Proof.
  change (map (fun p => update_weak (snd p) (fst p)) ps) with (map weak ps). intros r.
  destruct (weak_run s v ps 0) as (Hlen & order & Hnd & Hv & Hlt & Hsu & Hold & _ & _); [apply Forall_forall; intros; lia|].
  exists order. split; [done|]. split; [done|]. split; [|done]. intros i. split.
  - intros Hi. specialize (Hlt i Hi). rewrite <- Hlen in Hlt. apply lookup_lt_is_Some_2 in Hlt as [t Ht]. exists t. split; [done|]. by eapply Hsu.
  - intros (t & Ht & Hs). by eapply Hsu.
Qed.
