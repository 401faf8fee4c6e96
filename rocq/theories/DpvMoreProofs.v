(** Proofs about data_parallel_vector: exceptions, moving ranges, comparison, iterators. *)
From Coq Require Import ZArith.
From stdpp Require Import gmap list.
From Verif Require Import AnyModel DpvModel DpvSpec DpvProofs DpvIterModel.

(** ** Exceptions *)
Lemma each_from_throw f g todo : forall j dn k, k < length todo -> (forall i col, i < k -> todo !! i = Some col -> f (j + i) col = Some (g (j + i))) ->
  each_from j f dn todo (Some k) = DThrow (dn ++ map g (seq j k) ++ drop k todo).
Proof.
  induction todo as [|col tl IH]; intros j dn k Hk H; [cbn in Hk; lia|]. destruct k as [|k]; [done|]. cbn. pose proof (H 0 col ltac:(lia) eq_refl) as H0. rewrite Nat.add_0_r in H0. rewrite H0.
  rewrite IH.
  - cbn. by rewrite <- app_assoc.
  - cbn in Hk. lia.
  - intros i c Hi Hc. specialize (H (S i) c ltac:(lia) Hc). by rewrite Nat.add_succ_r in H.
Qed.
Lemma each_throw_invalid N f c v v' k : holds N c v -> 0 < k < N -> length v' <> length v -> (forall j, j < N -> f j (column j v) = Some (column j v')) ->
  exists c', each f c (Some k) = DThrow c' /\ ~ valid_vec N c'.
Proof.
  intros Hc Hk Hl H. exists (map (fun j => column j v') (seq 0 k) ++ drop k c). split.
  - unfold each. rewrite (each_from_throw f (fun j => column j v')); [done|by rewrite (holds_length N c v Hc); lia|].
    intros i col Hi Hcol. rewrite (holds_lookup N c v i Hc) in Hcol by lia. injection Hcol as <-. apply H. cbn. lia.
  - intros [_ (n & Hf)]. rewrite Forall_lookup in Hf.
    assert (Hn : length v' = n). { rewrite <- (Hf 0 (column 0 v')); [by rewrite column_length|]. destruct k; [lia|done]. }
    assert (Hn' : length v = n). { rewrite <- (Hf k (column k v)); [by rewrite column_length|]. rewrite lookup_app_r by (rewrite map_length, seq_length; lia). rewrite map_length, seq_length, Nat.sub_diag, lookup_drop, Nat.add_0_r. apply (holds_lookup N); [done|lia]. }
    lia.
Qed.

(** an exception of the very first column operation *)
Definition first_safe {A} (m : dM A) : Prop := forall c, match m c (Some 0) with DThrow c' => c' = c | DOk _ c' t => c' = c /\ t = Some 0 | DBad _ => True end.
Lemma first_safe_bind {A B} (m : dM A) (k : A -> dM B) : first_safe m -> (forall a, first_safe (k a)) -> first_safe (dbind m k).
Proof.
  intros Hm Hk c. unfold dbind. specialize (Hm c). destruct (m c (Some 0)) as [a c1 t1|c1|r]; [|done|done]. destruct Hm as [-> ->]. apply Hk.
Qed.
Lemma first_safe_each f : first_safe (each f).
Proof. intros c. unfold each. destruct c as [|col tl]; cbn; done. Qed.
Lemma first_safe_size : first_safe d_size. Proof. by intros [|? ?]. Qed.
Lemma first_safe_empty : first_safe d_empty. Proof. by intros [|? ?]. Qed.
Lemma first_safe_ret {A} (a : A) : first_safe (dret a). Proof. by intros c. Qed.
Lemma first_safe_bad {A} r : first_safe (@dbad A r). Proof. by intros c. Qed.
Lemma first_safe_iter i : first_safe (d_iter i).
Proof. unfold d_iter. apply first_safe_bind; [apply first_safe_size|]. intros n. destruct (i <=? n); [apply first_safe_ret|apply first_safe_bad]. Qed.
Lemma first_safe_ref i : first_safe (d_ref i).
Proof. unfold d_ref. apply first_safe_bind; [apply first_safe_size|]. intros n. destruct (i <? n); [apply first_safe_ret|apply first_safe_bad]. Qed.
Lemma first_safe_from_last i : first_safe (d_from_last i).
Proof. intros c. unfold d_from_last. destruct (last c); [apply first_safe_iter|done]. Qed.
Lemma first_safe_emplace i r : first_safe (d_emplace i r).
Proof. apply first_safe_bind; [apply first_safe_each|]. intros. apply first_safe_iter. Qed.
Lemma first_safe_emplace_back r : first_safe (d_emplace_back r).
Proof.
  apply first_safe_bind; [apply first_safe_each|]. intros. apply first_safe_bind; [apply first_safe_empty|]. intros []; [apply first_safe_bad|].
  apply first_safe_bind; [apply first_safe_size|]. intros. apply first_safe_ref.
Qed.
Lemma first_safe_append rs : first_safe (d_append rs).
Proof. induction rs; cbn; [apply first_safe_ret|]. apply first_safe_bind; [apply first_safe_emplace_back|]. done. Qed.
Lemma first_safe_more pos rs : first_safe (d_insert_more pos rs).
Proof.
  revert pos. induction rs as [|r rs IH]; intros pos; cbn; [apply first_safe_ret|]. apply first_safe_bind; [apply first_safe_size|]. intros n. destruct (pos =? n); [apply first_safe_bad|].
  apply first_safe_bind; [apply first_safe_emplace|]. done.
Qed.
Lemma first_safe_range mf mv rnd ord pos rs : first_safe (d_insert_range mf mv rnd ord pos rs).
Proof.
  apply first_safe_bind; [apply first_safe_size|]. intros n. destruct (pos =? n).
  - apply first_safe_bind; [apply first_safe_append|]. intros. apply first_safe_iter.
  - apply first_safe_bind; [destruct rnd; [apply first_safe_each|apply first_safe_ret]|]. intros. destruct rs as [|r rs]; [apply first_safe_iter|].
    destruct (first_row mf mv ord r); [|apply first_safe_bad]. apply first_safe_bind; [apply first_safe_emplace|]. intros. apply first_safe_bind; [apply first_safe_more|]. intros. apply first_safe_iter.
Qed.
Lemma first_safe_member {A} x (m : dM A) ret w w' : first_safe m -> member x m ret w (Some 0) = WThrow w' -> w' = w.
Proof.
  intros Hm. unfold member. destruct (w !! x) as [c|] eqn:E; [|done]. specialize (Hm c). destruct (m c (Some 0)); try done. subst. intros [= <-]. by apply insert_id.
Qed.
Lemma construct_throw {A} N x (m : dM A) w t w' : construct N x m w t = WThrow w' -> w' = w.
Proof. unfold construct. destruct (m (d_none N) t); try done. by intros [= <-]. Qed.
Lemma renew_throw {A} N x (m : dM A) w t w' : renew N x m w t = WThrow w' -> w' = w.
Proof. unfold renew. destruct (w !! x); [apply construct_throw|done]. Qed.
Lemma two_refs_throw x i y j k w t w' : two_refs x i y j k w t = WThrow w' -> k w t = WThrow w'.
Proof. unfold two_refs. destruct (w !! x) as [c|], (w !! y) as [d|]; try done. destruct (d_ref i c None), (d_ref j d None); done. Qed.
Lemma noexcept_throw f c t c' : each_noexcept f c t <> DThrow c'.
Proof.
  unfold each_noexcept. assert (H : forall todo j dn, each_from j f dn todo None <> DThrow c').
  { induction todo as [|col tl IH]; intros j dn; cbn; [done|]. destruct (f j col); [apply IH|done]. }
  specialize (H c 0 []). destruct (each_from 0 f [] c None) as [[] c1 t1|c1|r]; [done|congruence|done].
Qed.
Lemma noexcept_member x f w t w' : member x (each_noexcept f) nores w t <> WThrow w'.
Proof. unfold member. destruct (w !! x) as [c|]; [|done]. pose proof (noexcept_throw f c t). destruct (each_noexcept f c t) as [a c1 t1|c1|r]; [done| |done]. naive_solver. Qed.

Theorem first_throw N dfl mf o w w' : dstep N dfl mf o w (Some 0) = WThrow w' -> w' = w.
Proof.
  destruct o; cbn [dstep]; intros H; try discriminate; try (by apply construct_throw in H); try (by apply renew_throw in H).
  all: try (destruct (w !! y); [|done]).
  all: try (by apply construct_throw in H).
  all: try (destruct (w !! x); done).
  all: try (destruct (w !! x), (w !! y); done).
  all: try (eapply first_safe_member; [|exact H]).
  - apply first_safe_each.
  - apply first_safe_bind; [apply first_safe_emplace_back|intros; apply first_safe_ret].
  - apply first_safe_emplace_back.
  - apply first_safe_emplace.
  - apply first_safe_bind; [apply first_safe_each|intros; apply first_safe_from_last].
  - apply first_safe_range.
  - apply first_safe_bind; [apply first_safe_each|intros; apply first_safe_from_last].
  - apply first_safe_bad.
  - by apply noexcept_member in H.
  - by apply noexcept_member in H.
  - apply first_safe_each.
  - apply first_safe_each.
  - apply first_safe_each.
  - apply first_safe_each.
  - apply first_safe_bind; [apply first_safe_ref|intros; apply first_safe_each].
  - apply two_refs_throw in H. destruct N; cbn in H; [done|]. by injection H.
  - apply two_refs_throw in H. destruct N; cbn in H; [done|]. by injection H.
Qed.

(** the sizes of the columns *)
Definition lengths (c : dpv) : list nat := map length c.
Lemma valid_lengths N c c' : lengths c' = lengths c -> valid_vec N c -> valid_vec N c'.
Proof.
  unfold lengths. intros H [Hl (n & Hn)]. split; [rewrite <- Hl, <- (map_length length c'), H; apply map_length|]. exists n. rewrite Forall_lookup in Hn |- *. intros i col Hi.
  assert (Hm : map length c' !! i = Some (length col)) by (rewrite list_lookup_fmap, Hi; done). rewrite H, list_lookup_fmap in Hm. destruct (c !! i) as [col'|] eqn:E; [|done]. cbn in Hm. injection Hm as <-. by eapply Hn.
Qed.
Lemma each_from_lengths f todo : (forall j col col', f j col = Some col' -> length col' = length col) -> forall j dn t c',
  (each_from j f dn todo t = DThrow c' -> lengths c' = lengths (dn ++ todo)) /\ (forall a t', each_from j f dn todo t = DOk a c' t' -> lengths c' = lengths (dn ++ todo)).
Proof.
  intros Hf. induction todo as [|col tl IH]; intros j dn t c'; cbn.
  - split; [done|]. intros a t' [= _ <- _]. by rewrite app_nil_r.
  - destruct (tick_next t) as [t1|]; [|split; [by intros [= <-]|done]]. destruct (f j col) as [col'|] eqn:E; [|done]. apply Hf in E.
    destruct (IH (S j) (dn ++ [col']) t1 c') as [H1 H2]. assert (Hl : lengths ((dn ++ [col']) ++ tl) = lengths (dn ++ col :: tl)) by (unfold lengths; rewrite <- app_assoc, !map_app; cbn; by rewrite E).
    rewrite Hl in *. done.
Qed.
Lemma set_cell_valid N x i k v w : all_valid N w -> all_valid N (set_cell x i k v w).
Proof.
  intros H z c Hz. unfold set_cell in Hz. destruct (decide (z = x)) as [->|?].
  - rewrite lookup_alter in Hz. destruct (w !! x) as [c0|] eqn:E; [|done]. cbn in Hz. injection Hz as <-. eapply valid_lengths; [|by eapply H]. unfold lengths. apply list_eq. intros j. rewrite !list_lookup_fmap.
    destruct (decide (j = k)) as [->|?]; [|by rewrite list_lookup_alter_ne]. rewrite list_lookup_alter. destruct (c0 !! k); [cbn|done]. by rewrite insert_length.
  - rewrite lookup_alter_ne in Hz by done. by eapply H.
Qed.
Lemma swap_cells_valid N x i y j cols : forall w t w', all_valid N w -> swap_cells x i y j cols w t = WThrow w' -> all_valid N w'.
Proof.
  induction cols as [|k tl IH]; intros w t w' Hv H; cbn in H; [done|]. destruct (tick_next t); [|by injection H as <-]. destruct (get_cell x i k w); [|done]. destruct (get_cell y j k w); [|done].
  eapply IH; [|exact H]. by repeat apply set_cell_valid.
Qed.
Lemma copy_cells_valid N x i y j cols : forall w t w', all_valid N w -> copy_cells x i y j cols w t = WThrow w' -> all_valid N w'.
Proof.
  induction cols as [|k tl IH]; intros w t w' Hv H; cbn in H; [done|]. destruct (tick_next t); [|by injection H as <-]. destruct (get_cell y j k w); [|done].
  eapply IH; [|exact H]. by apply set_cell_valid.
Qed.
Lemma member_valid {A} N x (m : dM A) ret w t w' : all_valid N w -> (forall c c', m c t = DThrow c' -> valid_vec N c -> valid_vec N c') -> member x m ret w t = WThrow w' -> all_valid N w'.
Proof.
  intros Hv Hm H. unfold member in H. destruct (w !! x) as [c|] eqn:E; [|done]. destruct (m c t) as [| |] eqn:Em; try done. injection H as <-. intros z d Hz. destruct (decide (z = x)) as [->|?].
  - rewrite lookup_insert in Hz. injection Hz as <-. eapply Hm; [done|by eapply Hv].
  - rewrite lookup_insert_ne in Hz by done. by eapply Hv.
Qed.
Lemma each_valid N f t c c' : (forall j col col', f j col = Some col' -> length col' = length col) -> each f c t = DThrow c' -> valid_vec N c -> valid_vec N c'.
Proof. intros Hf H. apply valid_lengths. by apply (each_from_lengths f c Hf 0 [] t c'). Qed.

Theorem keeps_size_throw N dfl mf o w t w' : keeps_size o = true -> all_valid N w -> dstep N dfl mf o w t = WThrow w' -> all_valid N w'.
Proof.
  intros Ho Hv H. destruct o; try discriminate Ho; cbn [dstep] in H.
  all: try (apply construct_throw in H; by subst).
  all: try (apply renew_throw in H; by subst).
  - done.
  - destruct (w !! y); [|done]. apply construct_throw in H; by subst.
  - by destruct (w !! y).
  - by destruct (w !! x), (w !! y).
  - by destruct (w !! x), (w !! y).
  - eapply member_valid; [done| |exact H]. intros c c'. apply each_valid. by intros j col col' [= ->].
  - eapply member_valid; [done| |exact H]. intros c c'. apply each_valid. by intros j col col' [= ->].
  - eapply member_valid; [done| |exact H]. intros c c' Hc. unfold d_set, dbind, d_ref, dbind in Hc. destruct (d_size c t) as [n c1 t1|c1|] eqn:E; [|by destruct c|done].
    assert (c1 = c) as -> by (destruct c; by inversion E). destruct (i <? n); [|done]. unfold dret in Hc. eapply each_valid; [|exact Hc]. intros j col col'. unfold field. destruct (r !! j); [|done]. case_match; [|done]. intros [= <-]. by rewrite insert_length.
  - apply two_refs_throw in H. by eapply copy_cells_valid.
  - apply two_refs_throw in H. by eapply swap_cells_valid.
Qed.

(** *** The number of columns never changes *)
Definition keeps {A} (m : dM A) : Prop := forall c t, match m c t with DOk _ c' _ | DThrow c' => length c' = length c | DBad _ => True end.
Lemma keeps_bind {A B} (m : dM A) (k : A -> dM B) : keeps m -> (forall a, keeps (k a)) -> keeps (dbind m k).
Proof.
  intros Hm Hk c t. unfold dbind. specialize (Hm c t). destruct (m c t) as [a c1 t1|c1|r]; [|done|done]. specialize (Hk a c1 t1). destruct (k a c1 t1); [congruence|congruence|done].
Qed.
Lemma keeps_each_from f todo : forall j dn t, match each_from j f dn todo t with DOk _ c' _ | DThrow c' => length c' = length dn + length todo | DBad _ => True end.
Proof.
  induction todo as [|col tl IH]; intros j dn t; cbn; [lia|]. destruct (tick_next t) as [t0|]; [|rewrite app_length; cbn; lia]. destruct (f j col) as [col'|]; [|done]. specialize (IH (S j) (dn ++ [col']) t0).
  destruct (each_from _ _ _ _ _); try done; rewrite app_length in IH; cbn in IH; lia.
Qed.
Lemma keeps_each f : keeps (each f).
Proof. intros c t. apply (keeps_each_from f c 0 [] t). Qed.
Lemma keeps_noexcept f : keeps (each_noexcept f).
Proof. intros c t. unfold each_noexcept. pose proof (keeps_each_from f c 0 [] None) as H. by destruct (each_from 0 f [] c None) as [[] ? ?|?|?]. Qed.
Lemma keeps_size_ : keeps d_size. Proof. by intros [|? ?] t. Qed.
Lemma keeps_empty : keeps d_empty. Proof. by intros [|? ?] t. Qed.
Lemma keeps_ret {A} (a : A) : keeps (dret a). Proof. by intros c. Qed.
Lemma keeps_bad {A} r : keeps (@dbad A r). Proof. by intros c. Qed.
Lemma keeps_iter i : keeps (d_iter i).
Proof. unfold d_iter. apply keeps_bind; [apply keeps_size_|]. intros n. destruct (i <=? n); [apply keeps_ret|apply keeps_bad]. Qed.
Lemma keeps_ref i : keeps (d_ref i).
Proof. unfold d_ref. apply keeps_bind; [apply keeps_size_|]. intros n. destruct (i <? n); [apply keeps_ret|apply keeps_bad]. Qed.
Lemma keeps_from_last i : keeps (d_from_last i).
Proof. intros c t. unfold d_from_last. destruct (last c); [apply keeps_iter|done]. Qed.
Lemma keeps_emplace i r : keeps (d_emplace i r).
Proof. apply keeps_bind; [apply keeps_each|]. intros. apply keeps_iter. Qed.
Lemma keeps_emplace_back r : keeps (d_emplace_back r).
Proof. apply keeps_bind; [apply keeps_each|]. intros. apply keeps_bind; [apply keeps_empty|]. intros []; [apply keeps_bad|]. apply keeps_bind; [apply keeps_size_|]. intros. apply keeps_ref. Qed.
Lemma keeps_append rs : keeps (d_append rs).
Proof. induction rs; cbn; [apply keeps_ret|]. apply keeps_bind; [apply keeps_emplace_back|]. done. Qed.
Lemma keeps_more pos rs : keeps (d_insert_more pos rs).
Proof.
  revert pos. induction rs as [|r rs IH]; intros pos; cbn; [apply keeps_ret|]. apply keeps_bind; [apply keeps_size_|]. intros n. destruct (pos =? n); [apply keeps_bad|]. apply keeps_bind; [apply keeps_emplace|]. done.
Qed.
Lemma keeps_range mf mv rnd ord pos rs : keeps (d_insert_range mf mv rnd ord pos rs).
Proof.
  apply keeps_bind; [apply keeps_size_|]. intros n. destruct (pos =? n).
  - apply keeps_bind; [apply keeps_append|]. intros. apply keeps_iter.
  - apply keeps_bind; [destruct rnd; [apply keeps_each|apply keeps_ret]|]. intros. destruct rs as [|r rs]; [apply keeps_iter|].
    destruct (first_row mf mv ord r); [|apply keeps_bad]. apply keeps_bind; [apply keeps_emplace|]. intros. apply keeps_bind; [apply keeps_more|]. intros. apply keeps_iter.
Qed.
(** with one field: every vector has one column *)
Lemma one_valid c : valid_vec 1 c <-> length c = 1.
Proof. split; [by intros [? _]|]. intros H. split; [done|]. destruct c as [|col [|? ?]]; try done. exists (length col). by repeat constructor. Qed.
Lemma keeps_member {A} x (m : dM A) ret w t : keeps m -> all_valid 1 w -> match member x m ret w t with WOk w' _ _ | WThrow w' => all_valid 1 w' | WBad _ => True end.
Proof.
  intros Hm Hv. unfold member. destruct (w !! x) as [c|] eqn:E; [|done]. specialize (Hm c t). assert (Hc : length c = 1) by (apply one_valid; by eapply Hv).
  destruct (m c t) as [a c1 t1|c1|r]; [| |done]; intros z d Hz; (destruct (decide (z = x)) as [->|?]; [rewrite lookup_insert in Hz; injection Hz as <-; apply one_valid; lia|rewrite lookup_insert_ne in Hz by done; by eapply Hv]).
Qed.
Lemma keeps_construct {A} x (m : dM A) w t : keeps m -> all_valid 1 w -> match construct 1 x m w t with WOk w' _ _ | WThrow w' => all_valid 1 w' | WBad _ => True end.
Proof.
  intros Hm Hv. unfold construct. specialize (Hm (d_none 1) t). destruct (m (d_none 1) t) as [a c1 t1|c1|r]; [|done|done].
  intros z d Hz. destruct (decide (z = x)) as [->|?]; [rewrite lookup_insert in Hz; injection Hz as <-; by apply one_valid|rewrite lookup_insert_ne in Hz by done; by eapply Hv].
Qed.
Lemma insert_all_valid N x c w : valid_vec N c -> all_valid N w -> all_valid N (<[x := c]> w).
Proof. intros Hc Hv z d Hz. destruct (decide (z = x)) as [->|?]; [rewrite lookup_insert in Hz; by injection Hz as <-|rewrite lookup_insert_ne in Hz by done; by eapply Hv]. Qed.
Lemma swap_cells_valid_ok N x i y j cols : forall w t w' ret t', all_valid N w -> swap_cells x i y j cols w t = WOk w' ret t' -> all_valid N w'.
Proof.
  induction cols as [|k tl IH]; intros w t w' ret t' Hv H; cbn in H; [by injection H as <-|]. destruct (tick_next t); [|done]. destruct (get_cell x i k w); [|done]. destruct (get_cell y j k w); [|done].
  eapply IH; [|exact H]. by repeat apply set_cell_valid.
Qed.
Lemma copy_cells_valid_ok N x i y j cols : forall w t w' ret t', all_valid N w -> copy_cells x i y j cols w t = WOk w' ret t' -> all_valid N w'.
Proof.
  induction cols as [|k tl IH]; intros w t w' ret t' Hv H; cbn in H; [by injection H as <-|]. destruct (tick_next t); [|done]. destruct (get_cell y j k w); [|done].
  eapply IH; [|exact H]. by apply set_cell_valid.
Qed.
Lemma one_none : valid_vec 1 (d_none 1). Proof. by apply one_valid. Qed.
Theorem one_field dfl mf o w t : all_valid 1 w -> match dstep 1 dfl mf o w t with WOk w' _ _ | WThrow w' => all_valid 1 w' | WBad _ => True end.
Proof.
  intros Hv. destruct o; cbn [dstep].
  - apply insert_all_valid; [apply one_none|done].
  - apply keeps_construct; [apply keeps_each|done].
  - apply keeps_construct; [apply keeps_each|done].
  - apply keeps_construct; [apply keeps_range|done].
  - destruct (w !! y); [|done]. apply keeps_construct; [apply keeps_each|done].
  - destruct (w !! y) eqn:E; [|done]. apply insert_all_valid; [by eapply Hv|]. apply insert_all_valid; [apply one_none|done].
  - destruct (w !! y); [|done]. apply keeps_member; [apply keeps_each|done].
  - destruct (w !! x); [|done]. destruct (w !! y) eqn:E; [|done]. case_bool_decide; [done|]. apply insert_all_valid; [by eapply Hv|]. apply insert_all_valid; [apply one_none|done].
  - destruct (w !! x) eqn:E'; [|done]. destruct (w !! y) eqn:E; [|done]. apply insert_all_valid; [by eapply Hv|]. apply insert_all_valid; [by eapply Hv|done].
  - apply keeps_member; [|done]. apply keeps_bind; [apply keeps_emplace_back|intros; apply keeps_ret].
  - apply keeps_member; [|done]. apply keeps_emplace_back.
  - apply keeps_member; [|done]. apply keeps_emplace.
  - apply keeps_member; [|done]. apply keeps_bind; [apply keeps_each|intros; apply keeps_from_last].
  - apply keeps_member; [|done]. apply keeps_range.
  - apply keeps_member; [|done]. apply keeps_bind; [apply keeps_each|intros; apply keeps_from_last].
  - apply keeps_member; [|done]. apply keeps_bad.
  - apply keeps_member; [|done]. apply keeps_noexcept.
  - apply keeps_member; [|done]. apply keeps_noexcept.
  - apply keeps_member; [|done]. apply keeps_each.
  - apply keeps_member; [|done]. apply keeps_each.
  - apply keeps_member; [|done]. apply keeps_each.
  - apply keeps_member; [|done]. apply keeps_each.
  - unfold renew. destruct (w !! x); [|done]. apply keeps_construct; [apply keeps_each|done].
  - unfold renew. destruct (w !! x); [|done]. apply keeps_construct; [apply keeps_range|done].
  - apply keeps_member; [|done]. apply keeps_bind; [apply keeps_ref|intros; apply keeps_each].
  - unfold two_refs. destruct (w !! x) as [c|], (w !! y) as [d|]; try done. destruct (d_ref i c None), (d_ref j d None); try done.
    destruct (copy_cells x i y j (seq 0 1) w t) eqn:E; [by eapply copy_cells_valid_ok|by eapply copy_cells_valid|done].
  - unfold two_refs. destruct (w !! x) as [c|], (w !! y) as [d|]; try done. destruct (d_ref i c None), (d_ref j d None); try done.
    destruct (swap_cells x i y j (seq 0 1) w t) eqn:E; [by eapply swap_cells_valid_ok|by eapply swap_cells_valid|done].
Qed.

(** ** Growth of several columns that throws between two of them *)
Section Torn.
  Context (N : nat) (HN : 2 <= N) (dfl mf : nat -> nat).
  Lemma torn_member {A} x f (rest : unit -> dM A) ret w m v v' k : sim N w m -> m !! x = Some v -> 0 < k < N -> length v' <> length v ->
    (forall j, j < N -> f j (column j v) = Some (column j v')) -> exists w' c', member x (dbind (each f) rest) ret w (Some k) = WThrow w' /\ w' !! x = Some c' /\ ~ valid_vec N c'.
  Proof.
    intros Hs Hx Hk Hl Hf. destruct (sim_some N w m x v Hs Hx) as (c & Hc & Hh). destruct (each_throw_invalid N f c v v' k Hh Hk Hl Hf) as (c' & He & Hi).
    unfold member, dbind. rewrite Hc, He. eexists _, c'. split; [done|]. by rewrite lookup_insert.
  Qed.
  Theorem torn l m w x v r k : vec_history N dfl l m -> dexec N dfl mf l ∅ = WOk w None None -> m !! x = Some v -> is_row N r -> 0 < k < N ->
    (exists w' c', dstep N dfl mf (DPush x r) w (Some k) = WThrow w' /\ w' !! x = Some c' /\ ~ valid_vec N c') /\
    (forall i, i <= length v -> exists w' c', dstep N dfl mf (DInsert x i r) w (Some k) = WThrow w' /\ w' !! x = Some c' /\ ~ valid_vec N c') /\
    (forall i n, i <= length v -> 0 < n -> exists w' c', dstep N dfl mf (DInsertN x i n r) w (Some k) = WThrow w' /\ w' !! x = Some c' /\ ~ valid_vec N c').
  Proof.
    intros Hh He Hx Hr Hk. destruct (history_ok N ltac:(lia) dfl mf l m Hh) as (w0 & He0 & Hs). rewrite He in He0. injection He0 as <-. split; [|split].
    - cbn [dstep]. unfold d_push_back.
      assert (Heq : forall (mm : dM nat) ret ww t, member x (dbind mm (fun _ => dret tt)) ret ww t = match member x mm (fun _ => ret tt) ww t with e => e end).
      { intros mm ret ww t. unfold member, dbind. destruct (ww !! x) as [c|]; [|done]. by destruct (mm c t). }
      rewrite Heq. eapply (torn_member x _ _ _ w m v (v ++ [r]) k); [done|done|done|rewrite app_length; cbn; lia|]. intros j Hj. 
rewrite (field_ok N) by (done || lia). rewrite column_app. reflexivity.
    - intros i Hi. cbn [dstep]. eapply (torn_member x _ _ _ w m v (vec_insert i [r] v) k); [done|done|done|unfold vec_insert; rewrite !app_length, take_length, drop_length; cbn; lia|].
      intros j Hj. rewrite (field_ok N) by (done || lia). by apply (column_vec_insert j i [r] v).
    - intros i n Hi Hn. cbn [dstep]. eapply (torn_member x _ _ _ w m v (vec_insert i (replicate n r) v) k); [done|done|done|unfold vec_insert; rewrite !app_length, replicate_length, take_length, drop_length; lia|].
      intros j Hj. rewrite (field_ok N) by (done || lia). rewrite <- column_replicate. by apply column_vec_insert.
  Qed.
End Torn.
