(** Proofs about atomic pointers. *)
From stdpp Require Import list.
From Verif Require Import AnyModel PolyModel PolySpec RebindModel RebindSpec AtomicModel AtomicSpec.

Lemma run_inv (I : words -> list thread -> Prop) :
  (forall v ts i t v' t', I v ts -> ts !! i = Some t -> tstep v t = Some (v', t') -> I v' (<[i := t']> ts)) ->
  forall s v ts, I v ts -> I (fst (run s v ts)) (snd (run s v ts)).
Proof.
  intros Hstep. induction s as [|i s IH]; intros v ts H; [done|]. cbn. destruct (ts !! i) as [t|] eqn:Ht; [|by apply IH].
  destruct (tstep v t) as [[v' t']|] eqn:Hs; [|by apply IH]. apply IH. by eapply Hstep.
Qed.

Lemma run_keeps (P : words -> Prop) s v ts : P v -> Forall (keeps P) ts -> P (fst (run s v ts)) /\ Forall (keeps P) (snd (run s v ts)).
Proof.
  intros Hv Hts. apply (run_inv (fun v ts => P v /\ Forall (keeps P) ts)); [|done]. clear. intros v ts i t v' t' [Hv Hts] Hi Hs.
  assert (Ht : keeps P t) by (rewrite Forall_lookup in Hts; by eapply Hts).
  assert (P v' /\ keeps P t') as [H1 H2]; [|split; [done|by apply Forall_insert]].
  destruct t as [ok b|k|b k|b k|e d k]; cbn in Hs, Ht.
  - done.
  - injection Hs as <- <-. auto.
  - injection Hs as <- <-. done.
  - injection Hs as <- <-. destruct Ht. auto.
  - destruct Ht as (Hd & H1 & H2). case_bool_decide as E; injection Hs as <- <-; [subst|]; auto.
Qed.

(** ** compare_exchange *)
Lemma points_inj w k ms b d d' : is_ptr k = true -> ms <> [] -> points w k ms b d -> points w k ms b d' -> d = d'.
Proof.
  intros Hk Hms (_ & _ & R & _ & _ & N & _ & H) (_ & _ & R' & _ & _ & N' & _ & H').
  destruct d as [[T q]|], d' as [[T' q']|]; [| |exfalso|done].
  - f_equal. rewrite R in R'. cbn in R'. injection R' as ->. f_equal. destruct ms as [|m ms]; [done|].
    destruct H as (r & Hr & [Hs _] & _). destruct H' as (r' & Hr' & [Hs' _] & _). rewrite Hr in Hr'. injection Hr' as <-.
    specialize (Hs m (or_introl eq_refl)). specialize (Hs' m (or_introl eq_refl)). rewrite Hs in Hs'. by injection Hs'.
  - exfalso. rewrite R in R'. done.
  - rewrite R in R'. done.
Qed.
Lemma cas_sound w k ms v e d dv de v' ok r : is_ptr k = true -> ms <> [] -> points w k ms v dv -> points w k ms e de ->
  tstep v (TCas e d TDone) = Some (v', TDone ok r) ->
  (ok = true -> dv = de /\ v' = d) /\ (ok = false -> v' = v /\ r = v /\ v <> e).
Proof.
  intros Hk Hms Hv He Hs. cbn in Hs. case_bool_decide as E.
  - subst e. injection Hs as <- <- <-. split; [|done]. intros _. split; [|done]. by eapply points_inj.
  - injection Hs as <- <- <-. split; done.
Qed.
Lemma cas_again v d k' : tstep v (TCas v d k') = Some (d, k' true v).
Proof. cbn. by rewrite bool_decide_eq_true_2. Qed.

(** ** Installing *)
Definition inst_inv (ps : list words) (v : words) (ts : list thread) : Prop :=
  length ts = length ps /\
  ((v = null_words /\ forall i p, ps !! i = Some p -> ts !! i = Some (install p)) \/
   exists i p, ps !! i = Some p /\ v = p /\ ts !! i = Some (TDone true p) /\
     forall j q, j <> i -> ps !! j = Some q -> ts !! j = Some (install q) \/ ts !! j = Some (TDone false p)).
Lemma install_run s ps : Forall (fun p => p <> null_words) ps ->
  inst_inv ps (fst (run s null_words (map install ps))) (snd (run s null_words (map install ps))).
Proof.
  intros Hps. apply run_inv.
  - intros v ts i t v' t' [Hlen H] Hi Hs. split; [by rewrite insert_length|].
    assert (exists p, ps !! i = Some p) as [p Hp].
    { apply lookup_lt_is_Some_2. rewrite <- Hlen. by eapply lookup_lt_Some. }
    right. destruct H as [[-> H]|(j & q & Hq & -> & Hj & H)].
    + rewrite (H i p Hp) in Hi. injection Hi as <-. cbn in Hs. injection Hs as <- <-.
      exists i, p. split; [done|]. split; [done|]. split; [by apply list_lookup_insert; eapply lookup_lt_Some; apply H|].
      intros j q Hne Hq. left. rewrite list_lookup_insert_ne by done. by apply H.
    + destruct (decide (i = j)) as [->|Hne].
      * rewrite Hj in Hi. injection Hi as <-. done.
      * destruct (H i p Hne Hp) as [Hi'|Hi']; rewrite Hi' in Hi; injection Hi as <-; [|done].
        cbn in Hs. rewrite bool_decide_eq_false_2 in Hs by (rewrite Forall_lookup in Hps; by eapply Hps). injection Hs as <- <-.
        exists j, q. split; [done|]. split; [done|]. split; [by rewrite list_lookup_insert_ne|].
        intros j' q' Hne' Hq'. destruct (decide (j' = i)) as [->|Hne2].
        -- right. apply list_lookup_insert. by eapply lookup_lt_Some.
        -- rewrite list_lookup_insert_ne by done. by apply H.
  - split; [by rewrite map_length|]. left. split; [done|]. intros i p Hp. apply list_lookup_fmap_Some. by exists p.
Qed.
Lemma install_once s ps : Forall (fun p => p <> null_words) ps -> ps <> [] ->
  Forall is_done (snd (run s null_words (map install ps))) ->
  exists i p, ps !! i = Some p /\ fst (run s null_words (map install ps)) = p /\ snd (run s null_words (map install ps)) !! i = Some (TDone true p) /\
    forall j, j < length ps -> j <> i -> snd (run s null_words (map install ps)) !! j = Some (TDone false p).
Proof.
  intros Hps Hne Hd. destruct (install_run s ps Hps) as [Hlen [[_ H]|(i & p & Hp & Hv & Hi & H)]].
  - exfalso. destruct ps as [|p ps]; [done|]. specialize (H 0 p eq_refl). rewrite Forall_lookup in Hd. destruct (Hd _ _ H) as (? & ? & ?). done.
  - exists i, p. split; [done|]. split; [done|]. split; [done|]. intros j Hj Hji. apply lookup_lt_is_Some_2 in Hj as [q Hq].
    destruct (H j q Hji Hq) as [Hx|Hx]; [|done]. exfalso. rewrite Forall_lookup in Hd. destruct (Hd _ _ Hx) as (? & ? & ?). done.
Qed.
Lemma install_never s v ps : v <> null_words -> let r := run s v (map install ps) in
  fst r = v /\ forall i t, snd r !! i = Some t -> ~ succeeded t.
Proof.
  intros Hv r. assert (H : fst r = v /\ forall i t, snd r !! i = Some t -> (exists p, t = install p) \/ t = TDone false v).
  { apply (run_inv (fun v' ts => v' = v /\ forall i t, ts !! i = Some t -> (exists p, t = install p) \/ t = TDone false v)).
    - intros v0 ts i t v' t' [-> H] Hi Hs. destruct (H i t Hi) as [[p ->]| ->]; [|done]. cbn in Hs.
      rewrite bool_decide_eq_false_2 in Hs by done. injection Hs as <- <-. split; [done|]. intros j t Hj.
      apply list_lookup_insert_Some in Hj as [(-> & <- & _)|[_ Hj]]; [by right|by eapply H].
    - split; [done|]. intros i t Hi. apply list_lookup_fmap_Some in Hi as (p & _ & ->). left. by exists p. }
  destruct H as [H1 H2]. split; [done|]. intros i t Hi [b ->]. destruct (H2 _ _ Hi) as [[p Hp]|Hp]; [done|]. by injection Hp.
Qed.

(** ** Updating *)
(** every thread is done, or has not begun, or has failed at most as often as others have succeeded, and less often if what
    it expects is outdated *)
Definition upd_shape (n : nat) (f : words -> words) (done : nat) (v : words) (t : thread) : Prop :=
  is_done t \/ t = update n f \/ exists m e, t = attempts (S m) f e /\ n <= S m + done /\ (e <> v -> n < S m + done).
Definition upd_inv (fs : list (words -> words)) (n : nat) (v0 : words) (v : words) (ts : list thread) : Prop :=
  length ts = length fs /\
  exists order, NoDup order /\ v = in_turn fs order v0 /\ (forall i, In i order -> i < length fs) /\
    (forall i t, ts !! i = Some t -> succeeded t <-> In i order) /\
    (forall i e, ts !! i = Some (TDone true e) -> exists before after, order = before ++ i :: after /\ e = in_turn fs before v0) /\
    (forall i e, ts !! i = Some (TDone false e) -> n <= length order) /\
    (forall i t f, ts !! i = Some t -> fs !! i = Some f -> upd_shape n f (length order) v t).
Lemma in_turn_app fs a b v : in_turn fs (a ++ b) v = in_turn fs b (in_turn fs a v).
Proof. revert v. induction a as [|i a IH]; intros v; [done|]. cbn. destruct (fs !! i); apply IH. Qed.
Lemma attempts_not_succeeded n f e : ~ succeeded (attempts n f e).
Proof. destruct n; intros [b H]; cbn in H; [by injection H|done]. Qed.
Lemma attempts_shape m n f k v : n <= m + k -> upd_shape n f k v (attempts m f v).
Proof. intros H. destruct m as [|m]; [left; by eexists _, _|right; right; exists m, v; split; [done|]; split; [lia|done]]. Qed.
Lemma attempts_gives_up m n f k e b : n <= m + k -> attempts m f e = TDone false b -> n <= k.
Proof. intros H. destruct m; [intros _; lia|done]. Qed.
Lemma upd_shape_later n f k v v' t : upd_shape n f k v t -> upd_shape n f (S k) v' t.
Proof. intros [H|[H|(m & e & H & H1 & _)]]; [by left|right; by left|right; right; exists m, e; split; [done|]; lia]. Qed.
Lemma update_run s v fs n : upd_inv fs n v (fst (run s v (map (update n) fs))) (snd (run s v (map (update n) fs))).
Proof.
  apply run_inv.
  - intros v1 ts i t v' t' (Hlen & order & Hnd & Hv & Hlt & Hsu & Hold & Hup & Hsh) Hi Hs.
    assert (exists f, fs !! i = Some f) as [f Hf].
    { apply lookup_lt_is_Some_2. rewrite <- Hlen. by eapply lookup_lt_Some. }
    assert (Hnew : forall j t1, <[i := t']> ts !! j = Some t1 -> (j = i /\ t1 = t') \/ (j <> i /\ ts !! j = Some t1)).
    { intros j t1 Hj. apply list_lookup_insert_Some in Hj as [(-> & <- & _)|[Hne Hj]]; [by left|right; split; [congruence|done]]. }
    (* a step that is no success *)
    assert (Hidle : forall m, v' = v1 -> ~ succeeded t -> t' = attempts m f v1 -> n <= m + length order -> upd_inv fs n v v' (<[i := t']> ts)).
    { intros m -> Hns -> Hm. split; [by rewrite insert_length|]. exists order. split; [done|]. split; [done|]. split; [done|].
      split; [|split; [|split]].
      - intros j t1 Hj. apply Hnew in Hj as [[-> ->]|[Hne Hj]]; [|by eapply Hsu]. rewrite <- (Hsu i t Hi). pose proof (attempts_not_succeeded m f v1). tauto.
      - intros j e Hj. apply Hnew in Hj as [[-> Hj]|[Hne Hj]]; [|by eapply Hold]. exfalso. apply (attempts_not_succeeded m f v1). by exists e.
      - intros j e Hj. apply Hnew in Hj as [[-> Hj]|[Hne Hj]]; [|by eapply Hup]. by eapply attempts_gives_up.
      - intros j t1 f1 Hj Hf1. apply Hnew in Hj as [[-> ->]|[Hne Hj]]; [|by eapply Hsh]. rewrite Hf in Hf1. injection Hf1 as <-.
        by apply attempts_shape. }
    destruct (Hsh i t f Hi Hf) as [(ok & b & ->)|[->|(m & e & -> & Hm & Hout)]]; cbn [tstep attempts update] in Hs.
    + done.
    + injection Hs as <- <-. apply (Hidle n); [done|intros [b Hb]; done|done|lia].
    + case_bool_decide as E.
      * injection Hs as <- <-. subst e. split; [by rewrite insert_length|]. exists (order ++ [i]).
        assert (Hni : ~ In i order) by (rewrite <- (Hsu i _ Hi); intros [b Hb]; done).
        split. { apply NoDup_app. split; [done|]. split; [|apply NoDup_singleton]. intros x Hx Hx'. apply elem_of_list_singleton in Hx' as ->. apply Hni. by apply elem_of_list_In. }
        split. { rewrite in_turn_app. cbn. rewrite Hf. by rewrite Hv. }
        split. { intros j [Hj|[<-|[]]]%in_app_or; [by apply Hlt|]. by eapply lookup_lt_Some. }
        assert (Hl : length (order ++ [i]) = S (length order)) by (rewrite app_length; cbn; lia). rewrite Hl.
        split; [|split; [|split]].
        -- intros j t1 Hj. apply Hnew in Hj as [[-> ->]|[Hne Hj]].
           ++ split; [intros _; apply in_or_app; right; by left|intros _; by eexists].
           ++ rewrite (Hsu j t1 Hj). rewrite in_app_iff. cbn. split; [tauto|]. intros [H|[H|[]]]; [done|congruence].
        -- intros j e Hj. apply Hnew in Hj as [[-> Hj]|[Hne Hj]].
           ++ injection Hj as ->. exists order, []. done.
           ++ destruct (Hold j e Hj) as (b & a & -> & ->). exists b, (a ++ [i]). by rewrite <- app_assoc.
        -- intros j e Hj. apply Hnew in Hj as [[-> Hj]|[Hne Hj]]; [done|]. specialize (Hup j e Hj). lia.
        -- intros j t1 f1 Hj Hf1. apply Hnew in Hj as [[-> ->]|[Hne Hj]]; [left; by eexists _, _|]. eapply upd_shape_later. by eapply Hsh.
      * injection Hs as <- <-. assert (e <> v1) by congruence. apply (Hidle m); [done|intros [b Hb]; done|done|]. specialize (Hout H). lia.
  - split; [by rewrite map_length|]. exists []. split; [constructor|]. split; [done|]. split; [done|].
    assert (H0 : forall i t, map (update n) fs !! i = Some t -> exists f, fs !! i = Some f /\ t = update n f).
    { intros i t Hi. apply list_lookup_fmap_Some in Hi as (f & Hf & ->). by exists f. }
    split; [|split; [|split]].
    + intros i t Hi. destruct (H0 i t Hi) as (f & _ & ->). split; [intros [b Hb]; done|done].
    + intros i e Hi. destruct (H0 i _ Hi) as (f & _ & H). done.
    + intros i e Hi. destruct (H0 i _ Hi) as (f & _ & H). done.
    + intros i t f Hi Hf. destruct (H0 i t Hi) as (f' & Hf' & ->). rewrite Hf in Hf'. injection Hf' as <-. right. by left.
Qed.
Lemma update_all s v fs n : Forall succeeded (snd (run s v (map (update n) fs))) ->
  exists order, order ≡ₚ seq 0 (length fs) /\ fst (run s v (map (update n) fs)) = in_turn fs order v /\
    forall i, i < length fs -> exists before after, order = before ++ i :: after /\
      snd (run s v (map (update n) fs)) !! i = Some (TDone true (in_turn fs before v)).
Proof.
  intros Hd. destruct (update_run s v fs n) as (Hlen & order & Hnd & Hv & Hlt & Hsu & Hold & _ & _). exists order.
  rewrite Forall_lookup in Hd.
  assert (Hall : forall i, i < length fs -> exists e, snd (run s v (map (update n) fs)) !! i = Some (TDone true e)).
  { intros i Hi. rewrite <- Hlen in Hi. apply lookup_lt_is_Some_2 in Hi as [t Ht]. destruct (Hd i t Ht) as [e ->]. by exists e. }
  split; [|split; [done|]].
  - apply NoDup_Permutation; [done|apply NoDup_ListNoDup, seq_NoDup|]. intros i. rewrite !elem_of_list_In, in_seq. split.
    + intros Hi. specialize (Hlt i Hi). lia.
    + intros Hi. destruct (Hall i) as [e He]; [lia|]. apply (Hsu i _ He). by eexists.
  - intros i Hi. destruct (Hall i Hi) as [e He]. destruct (Hold i e He) as (b & a & -> & ->). by exists b, a.
Qed.
Lemma update_never_gives_up s v fs n i e : length fs <= n -> snd (run s v (map (update n) fs)) !! i <> Some (TDone false e).
Proof.
  intros Hn Hi. destruct (update_run s v fs n) as (Hlen & order & Hnd & _ & Hlt & Hsu & _ & Hup & _). specialize (Hup i e Hi).
  assert (Hni : ~ In i order). { rewrite <- (Hsu i _ Hi). intros [b Hb]. by injection Hb. }
  assert (Hil : i < length fs) by (rewrite <- Hlen; by eapply lookup_lt_Some).
  assert (H : length (i :: order) <= length (seq 0 (length fs))).
  { apply NoDup_incl_length.
    - apply NoDup_ListNoDup. constructor; [by rewrite elem_of_list_In|done].
    - intros j [<-|Hj]; apply in_seq; [lia|]. specialize (Hlt j Hj). lia. }
  rewrite seq_length in H. cbn in H. lia.
Qed.

(** ** Turns *)
Lemma update_serial s v fs n : length fs <= n -> Forall is_done (snd (run s v (map (update n) fs))) ->
  exists order, order ≡ₚ seq 0 (length fs) /\ fst (run s v (map (update n) fs)) = in_turn fs order v /\
    forall i, i < length fs -> exists before after, order = before ++ i :: after /\
      snd (run s v (map (update n) fs)) !! i = Some (TDone true (in_turn fs before v)).
Proof.
  intros Hn Hd. apply update_all. rewrite Forall_lookup in Hd |- *. intros i t Ht. destruct (Hd i t Ht) as ([|] & b & ->); [by exists b|].
  exfalso. by eapply update_never_gives_up.
Qed.
(** the thread is done after at most n further operations, whatever it reads *)
Inductive within : nat -> thread -> Prop :=
| wi_done n ok b : within n (TDone ok b)
| wi_load n k : (forall b, within n (k b)) -> within (S n) (TLoad k)
| wi_exchange n b k : (forall b, within n (k b)) -> within (S n) (TExchange b k)
| wi_cas n e d k : (forall ok b, within n (k ok b)) -> within (S n) (TCas e d k).
Definition turns (i : nat) (s : list nat) : nat := length (filter (fun j => j = i) s).
Lemma turns_cons i j s : turns i (j :: s) = (if decide (j = i) then 1 else 0) + turns i s.
Proof. unfold turns. rewrite filter_cons. destruct (decide (j = i)); done. Qed.
Lemma run_finishes s : forall v ts, (forall i t, ts !! i = Some t -> within (turns i s) t) -> Forall is_done (snd (run s v ts)).
Proof.
  induction s as [|j s IH]; intros v ts H.
  - apply Forall_lookup. intros i t Hi. specialize (H i t Hi). inversion H; subst. by eexists _, _.
  - assert (Hother : forall i t, i <> j -> ts !! i = Some t -> within (turns i s) t).
    { intros i t Hne Hi. specialize (H i t Hi). rewrite turns_cons in H. rewrite decide_False in H by done. done. }
    cbn. destruct (ts !! j) as [t|] eqn:Ht.
    + specialize (H j t Ht). rewrite turns_cons, decide_True in H by done.
      destruct (tstep v t) as [[v' t']|] eqn:Hs.
      * apply IH. intros i t1 Hi. apply list_lookup_insert_Some in Hi as [(<- & <- & _)|[Hne Hi]]; [|by apply Hother].
        inversion H as [|? k Hk|? b k Hk|? e d k Hk]; subst; cbn in Hs; [done|injection Hs as <- <-; done|injection Hs as <- <-; done|].
        case_bool_decide; injection Hs as <- <-; apply Hk.
      * apply IH. intros i t1 Hi. destruct (decide (i = j)) as [->|Hne]; [|by apply Hother]. rewrite Ht in Hi. injection Hi as <-.
        inversion H; subst; cbn in Hs; [constructor|done|done|]. by case_bool_decide.
    + apply IH. intros i t1 Hi. apply Hother; [|done]. intros ->. congruence.
Qed.
Lemma update_finishes s v fs n : (forall i, i < length fs -> n < turns i s) -> Forall is_done (snd (run s v (map (update n) fs))).
Proof.
  intros H. apply run_finishes. intros i t Hi. assert (Hl : i < length fs) by (rewrite <- (map_length (update n)); by eapply lookup_lt_Some).
  apply list_lookup_fmap_Some in Hi as (f & _ & ->). specialize (H i Hl). destruct (turns i s) as [|k]; [lia|].
  constructor. intros b. assert (Hw : forall a c e, a <= c -> within c (attempts a f e)); [|apply Hw; lia].
  clear. intros a. induction a as [|a IH]; intros c e Hc; cbn; [constructor|]. destruct c as [|c]; [lia|]. constructor. intros [|] b; [constructor|].
  apply IH. lia.
Qed.
Lemma install_finishes s v ps : (forall i, i < length ps -> 0 < turns i s) -> Forall is_done (snd (run s v (map install ps))).
Proof.
  intros H. apply run_finishes. intros i t Hi. assert (Hl : i < length ps) by (rewrite <- (map_length install); by eapply lookup_lt_Some).
  apply list_lookup_fmap_Some in Hi as (p & _ & ->). specialize (H i Hl). destruct (turns i s) as [|k]; [lia|]. constructor. constructor.
Qed.

(** ** Handing over *)
Definition holds (t : thread) (b : words) : Prop := t = hand_over b \/ t = TDone true b.
Lemma swap_in (l : list words) (i : nat) b v : l !! i = Some b -> b :: <[i := v]> l ≡ₚ v :: l.
Proof.
  revert i. induction l as [|x l IH]; intros [|i] H; cbn in *; try done.
  - injection H as ->. apply Permutation_swap.
  - rewrite Permutation_swap. rewrite (IH i H). apply Permutation_swap.
Qed.
Lemma exchange_run s v ps : let r := run s v (map hand_over ps) in exists bs, Forall2 holds (snd r) bs /\ fst r :: bs ≡ₚ v :: ps.
Proof.
  apply (run_inv (fun v' ts => exists bs, Forall2 holds ts bs /\ v' :: bs ≡ₚ v :: ps)).
  - intros v1 ts i t v' t' (bs & Hh & Hp) Hi Hs. destruct (Forall2_lookup_l _ _ _ _ _ Hh Hi) as (b & Hb & Ht).
    destruct Ht as [->| ->]; cbn in Hs; [|done]. injection Hs as <- <-. exists (<[i := v1]> bs). split.
    + apply Forall2_insert; [done|by right].
    + rewrite <- Hp. by apply swap_in.
  - exists ps. split; [|done]. clear. induction ps; cbn; constructor; [by left|done].
Qed.
Lemma exchange_finishes s v ps : (forall i, i < length ps -> 0 < turns i s) -> Forall is_done (snd (run s v (map hand_over ps))).
Proof.
  intros H. apply run_finishes. intros i t Hi. assert (Hl : i < length ps) by (rewrite <- (map_length hand_over); by eapply lookup_lt_Some).
  apply list_lookup_fmap_Some in Hi as (p & _ & ->). specialize (H i Hl). destruct (turns i s) as [|k]; [lia|]. constructor. constructor.
Qed.

(** ** The properties *)
Lemma exchange_fair s v ps : (forall i, i < length ps -> 0 < length (filter (fun j => j = i) s)) ->
  let r := run s v (map hand_over ps) in exists qs, snd r = map (TDone true) qs /\ fst r :: qs ≡ₚ v :: ps.
Proof.
  intros Hs r. destruct (exchange_run s v ps) as (bs & Hh & Hp). exists bs. split; [|exact Hp]. pose proof (exchange_finishes s v ps Hs) as Hd.
  fold r in Hh, Hd. clear -Hh Hd. induction Hh as [|t b ts bs Ht _ IH]; [done|]. inversion Hd as [|? ? (ok & c & Hx) Hd']; subst. cbn. f_equal; [|by apply IH].
  destruct Ht as [Ht|Ht]; [done|done].
Qed.
Lemma pointers_whole (P : words -> Prop) s v ts : P v -> Forall (keeps P) ts ->
  P (fst (run s v ts)) /\ forall i ok b, snd (run s v ts) !! i = Some (TDone ok b) -> P b.
Proof.
  intros Hv Hts. destruct (run_keeps P s v ts Hv Hts) as [H1 H2]. split; [done|]. intros i ok b Hi. rewrite Forall_lookup in H2. apply (H2 _ _ Hi).
Qed.
Lemma install_fair w k ms s ps : Forall (fun b => exists d, points w k ms b (Some d)) ps -> ps <> [] ->
  (forall i, i < length ps -> 0 < length (filter (fun j => j = i) s)) ->
  let r := run s null_words (map install ps) in
  exists i p, ps !! i = Some p /\ fst r = p /\ snd r !! i = Some (TDone true p) /\
    forall j, j < length ps -> j <> i -> snd r !! j = Some (TDone false p).
Proof.
  intros Hps Hne Hs r. apply install_once; [|done|by apply install_finishes]. eapply Forall_impl; [exact Hps|]. cbn. intros b [d Hd] ->.
  destruct Hd as (_ & _ & H & _). destruct d. done.
Qed.
Lemma update_fair s v fs n : length fs <= n -> (forall i, i < length fs -> n < length (filter (fun j => j = i) s)) ->
  let r := run s v (map (update n) fs) in
  exists order, order ≡ₚ seq 0 (length fs) /\ fst r = in_turn fs order v /\
    forall i, i < length fs -> exists before after, order = before ++ i :: after /\ snd r !! i = Some (TDone true (in_turn fs before v)).
Proof. intros Hn Hs r. apply update_serial; [done|by apply update_finishes]. Qed.
