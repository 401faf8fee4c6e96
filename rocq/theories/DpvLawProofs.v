(** Proofs about data_parallel_vector: moving ranges, comparison, iterators, rows. *)
From Coq Require Import ZArith.
From stdpp Require Import gmap list.
From Verif Require Import AnyModel DpvModel DpvSpec DpvProofs DpvMoreProofs DpvIterModel.

(** ** Rows *)
Lemma sim_row_at N (HN : 0 < N) w m z k : sim N w m -> row_at w z k = rowm m z k.
Proof.
  intros Hs. unfold row_at, rowm. destruct (m !! z) as [v|] eqn:E.
  - destruct (sim_some N w m z v Hs E) as (c & -> & Hh). destruct (v !! k) as [r|] eqn:Ek.
    + by rewrite (read_ok N HN c v k r Hh Ek).
    + unfold d_read, dbind, d_ref, dbind. rewrite (size_ok N HN c v None Hh). apply lookup_ge_None in Ek. by destruct (Nat.ltb_spec k (length v)); [lia|].
  - by rewrite (sim_none N w m z Hs E).
Qed.
Lemma sim_size_at N (HN : 0 < N) w m z : sim N w m -> size_at w z = length <$> m !! z.
Proof.
  intros Hs. unfold size_at. destruct (m !! z) as [v|] eqn:E.
  - destruct (sim_some N w m z v Hs E) as (c & -> & Hh). by rewrite (size_ok N HN c v None Hh).
  - by rewrite (sim_none N w m z Hs E).
Qed.
Lemma setrow_size x i r m z : length <$> (setrow x i r m !! z) = length <$> (m !! z).
Proof. unfold setrow. destruct (decide (z = x)) as [->|?]; [|by rewrite lookup_alter_ne]. rewrite lookup_alter. destruct (m !! x); [cbn|done]. by rewrite insert_length. Qed.

Section Rows.
  Context (N : nat) (HN : 0 < N) (dfl mf : nat -> nat) (l : list dop) (m : gmap nat (list row)) (w : dworld).
  Context (Hh : vec_history N dfl l m) (He : dexec N dfl mf l ∅ = WOk w None None).
  Lemma run_sim : sim N w m.
  Proof. destruct (history_ok N HN dfl mf l m Hh) as (w0 & He0 & Hs). rewrite He in He0. by injection He0 as <-. Qed.
  Lemma row_at_inside z k r : row_at w z k = Some r -> inside m z k /\ rowm m z k = Some r.
  Proof.
    rewrite (sim_row_at N HN w m z k run_sim). intros H. split; [|done]. unfold rowm in H. destruct (m !! z) as [v|] eqn:E; [|done]. exists v. split; [done|]. by eapply lookup_lt_Some.
  Qed.
  Theorem swap_rows_ok x i y j a b : row_at w x i = Some a -> row_at w y j = Some b ->
    exists w', dstep N dfl mf (DSwapRows x i y j) w None = WOk w' None None /\
      (forall z, size_at w' z = size_at w z) /\
      (forall z k, row_at w' z k = if decide (z = y /\ k = j) then Some a else if decide (z = x /\ k = i) then Some b else row_at w z k).
  Proof.
    intros Ha Hb. pose proof run_sim as Hs. destruct (row_at_inside x i a Ha) as [Hx Hra]. destruct (row_at_inside y j b Hb) as [Hy Hrb].
    destruct (step_ok N HN dfl mf (DSwapRows x i y j) w m Hs ltac:(done)) as (w' & Hst & Hs'). exists w'. split; [exact Hst|].
    cbn [vec_step fst] in Hs'. destruct Hx as (v & Hv & Hi). destruct Hy as (u & Hu & Hj). unfold rowm in Hra, Hrb. rewrite Hv in Hra. rewrite Hu in Hrb. rewrite Hv, Hu, Hra, Hrb in Hs'.
    change (sim N w' (setrow y j a (setrow x i b m))) in Hs'. split.
    - intros z. by rewrite (sim_size_at N HN _ _ z Hs'), (sim_size_at N HN _ _ z Hs), !setrow_size.
    - intros z k. rewrite (sim_row_at N HN _ _ z k Hs'), (sim_row_at N HN _ _ z k Hs). rewrite !rowm_setrow.
      destruct (decide (z = y /\ k = j)) as [[-> ->]|Hn1].
      + rewrite decide_True by done. destruct (decide (x = y /\ i = j)); unfold rowm; by rewrite Hu, Hrb.
      + rewrite decide_False by naive_solver. destruct (decide (z = x /\ k = i)) as [[-> ->]|Hn2].
        * rewrite decide_True by done. unfold rowm. by rewrite Hv, Hra.
        * by rewrite decide_False by naive_solver.
  Qed.
  Lemma set_one m' w' x i r z k : sim N w' m' -> m' = setrow x i r m -> inside m x i -> 
    size_at w' z = size_at w z /\ row_at w' z k = if decide (z = x /\ k = i) then Some r else row_at w z k.
  Proof.
    intros Hs' -> (v & Hv & Hi). pose proof run_sim as Hs. split.
    - by rewrite (sim_size_at N HN _ _ z Hs'), (sim_size_at N HN _ _ z Hs), !setrow_size.
    - rewrite (sim_row_at N HN _ _ z k Hs'), (sim_row_at N HN _ _ z k Hs). rewrite !rowm_setrow. destruct (decide (z = x /\ k = i)) as [[-> ->]|Hn].
      + rewrite decide_True by done. unfold rowm. rewrite Hv. by destruct (lookup_lt_is_Some_2 v i Hi) as [? ->].
      + by rewrite decide_False by naive_solver.
  Qed.
  Theorem set_row_ok x i a r : row_at w x i = Some a -> is_row N r ->
    exists w', dstep N dfl mf (DSet x i r) w None = WOk w' None None /\
      forall z k, size_at w' z = size_at w z /\ row_at w' z k = if decide (z = x /\ k = i) then Some r else row_at w z k.
  Proof.
    intros Ha Hr. pose proof run_sim as Hs. destruct (row_at_inside x i a Ha) as [Hx _].
    destruct (step_ok N HN dfl mf (DSet x i r) w m Hs ltac:(done)) as (w' & Hst & Hs'). exists w'. split; [exact Hst|]. intros z k. by eapply set_one.
  Qed.
  Theorem set_from_ok x i y j a b : row_at w x i = Some a -> row_at w y j = Some b ->
    exists w', dstep N dfl mf (DSetFrom x i y j) w None = WOk w' None None /\
      forall z k, size_at w' z = size_at w z /\ row_at w' z k = if decide (z = x /\ k = i) then Some b else row_at w z k.
  Proof.
    intros Ha Hb. pose proof run_sim as Hs. destruct (row_at_inside x i a Ha) as [Hx _]. destruct (row_at_inside y j b Hb) as [Hy Hrb].
    destruct (step_ok N HN dfl mf (DSetFrom x i y j) w m Hs ltac:(done)) as (w' & Hst & Hs'). exists w'. split; [exact Hst|]. intros z k. eapply set_one; [done| |done].
    cbn [vec_step fst]. unfold rowm in Hrb. destruct (m !! y) as [u|]; [|done]. rewrite Hrb. done.
  Qed.
  (** range insertion *)
  Theorem range_ok x v pos moving random ord rs : m !! x = Some v -> pos <= length v -> Forall (is_row N) rs -> ord ≡ₚ seq 0 N ->
    moving = false \/ pos = length v \/ (forall r n, r ∈ rs -> n ∈ r -> mf n = n) ->
    exists w' c', dstep N dfl mf (DInsertRange x pos moving random ord rs) w None = WOk w' (Some pos) None /\ w' !! x = Some c' /\
      same_contents c' (take pos v ++ rs ++ drop pos v) /\ (forall z, z <> x -> w' !! z = w !! z).
  Proof.
    intros Hx Hpos Hrs Ho Hmv. pose proof run_sim as Hs. destruct (sim_some N w m x v Hs Hx) as (c & Hc & Hho).
    destruct (insert_range_ok N HN mf moving random ord pos rs c v Hho Hrs Hpos Ho) as (c' & Hi & Hh').
    - destruct Hmv as [?|[?|Hf]]; [by left|by right; left|]. right. right. apply Forall_forall. intros r Hr. rewrite <- (map_id r) at 2. apply map_ext_in. intros n Hn. apply (Hf r); [done|]. by apply elem_of_list_In.
    - exists (<[x := c']> w), c'. cbn [dstep]. unfold member. rewrite Hc, Hi. split; [done|]. rewrite lookup_insert. split; [done|]. split; [by apply (holds_contents N HN)|]. intros z Hz. by rewrite lookup_insert_ne.
  Qed.
End Rows.

(** ** What a moving range gives its first row *)
Lemma first_fields_moving mf (ord : list nat) : forall r acc, NoDup ord -> Forall (fun j => j < length r) ord ->
  exists m, first_fields mf true ord r acc = Some m /\
    (forall p j v, ord !! p = Some j -> r !! j = Some v -> m !! j = Some (Nat.iter p mf v)) /\ (forall j, j ∉ ord -> m !! j = acc !! j).
Proof.
  induction ord as [|i ord IH]; intros r acc Hnd Ho.
  - exists acc. split; [done|]. split; [by intros p j v Hp|done].
  - inversion Ho as [|? ? Hi Ho']; subst. apply NoDup_cons in Hnd as [Hni Hnd]. destruct (lookup_lt_is_Some_2 r i Hi) as (x & Hx). cbn. rewrite Hx.
    destruct (IH (map mf r) (<[i := x]> acc) Hnd) as (m & Hm & Hl & Hout). { eapply Forall_impl; [done|]. intros j. cbn. by rewrite map_length. }
    exists m. split; [done|]. split.
    + intros [|p] j v Hp Hv.
      * injection Hp as ->. rewrite Hout by done. rewrite lookup_insert. rewrite Hx in Hv. by injection Hv as ->.
      * cbn in Hp. assert (Hmv : map mf r !! j = Some (mf v)) by (rewrite list_lookup_fmap, Hv; done). rewrite (Hl p j (mf v) Hp Hmv). by rewrite Nat.iter_succ_r.
    + intros j Hj. apply not_elem_of_cons in Hj as [Hne Hj]. rewrite Hout by done. by rewrite lookup_insert_ne.
Qed.
Lemma first_row_moving N mf ord r : is_row N r -> ord ≡ₚ seq 0 N ->
  exists r', first_row mf true ord r = Some r' /\ is_row N r' /\ forall p j v, ord !! p = Some j -> r !! j = Some v -> r' !! j = Some (Nat.iter p mf v).
Proof.
  intros Hr Ho. unfold first_row. destruct (first_fields_moving mf ord r ∅) as (m & -> & Hl & _).
  - rewrite Ho. apply NoDup_seq.
  - rewrite Ho. apply Forall_forall. intros j Hj. apply elem_of_seq in Hj. unfold is_row in Hr. lia.
  - assert (Hin : forall j, j < N -> exists p, ord !! p = Some j). { intros j Hj. apply elem_of_list_lookup_1. rewrite Ho. apply elem_of_seq. lia. }
    assert (Hs : is_Some (mapM (fun j => m !! j) (seq 0 (length r)))).
    { apply mapM_is_Some. apply Forall_forall. intros j Hj. apply elem_of_seq in Hj. unfold is_row in Hr. destruct (Hin j) as [p Hp]; [lia|]. destruct (lookup_lt_is_Some_2 r j) as [v Hv]; [lia|]. exists (Nat.iter p mf v). exact (Hl p j v Hp Hv). }
    destruct Hs as [r' Hr']. exists r'. split; [done|]. apply mapM_Some in Hr'. split.
    + apply Forall2_length in Hr'. rewrite seq_length in Hr'. unfold is_row in *. lia.
    + intros p j v Hp Hv. pose proof (lookup_lt_Some _ _ _ Hv) as Hj. destruct (Forall2_lookup_l _ _ _ j j Hr') as (y & Hy & Hmy). { by rewrite lookup_seq_lt. } rewrite Hy. rewrite <- Hmy. by eapply Hl.
Qed.

Section Moving.
  Context (N : nat) (HN : 0 < N) (dfl mf : nat -> nat) (l : list dop) (m : gmap nat (list row)) (w : dworld).
  Context (Hh : vec_history N dfl l m) (He : dexec N dfl mf l ∅ = WOk w None None).
  Theorem range_moving x v pos random ord r rs : m !! x = Some v -> pos < length v -> is_row N r -> Forall (is_row N) rs -> ord ≡ₚ seq 0 N ->
    exists w' r', dstep N dfl mf (DInsertRange x pos true random ord (r :: rs)) w None = WOk w' (Some pos) None /\
      (forall k, row_at w' x k = (take pos v ++ (r' :: rs) ++ drop pos v) !! k) /\
      forall p j u, ord !! p = Some j -> r !! j = Some u -> r' !! j = Some (Nat.iter p mf u).
  Proof.
    intros Hx Hpos Hr Hrs Ho. pose proof (run_sim N HN dfl mf l m w Hh He) as Hs. destruct (sim_some N w m x v Hs Hx) as (c & Hc & Hho).
    destruct (first_row_moving N mf ord r Hr Ho) as (r' & Hf & Hr' & Hl).
    (* the same as inserting r' :: rs from a range that copies *)
    destruct (insert_range_ok N HN mf false random ord pos (r' :: rs) c v Hho ltac:(by constructor) ltac:(lia) Ho ltac:(by left)) as (c' & Hi & Hh').
    assert (Hi' : d_insert_range mf true random ord pos (r :: rs) c None = DOk pos c' None).
    { rewrite <- Hi. unfold d_insert_range, dbind. rewrite (size_ok N HN c v None Hho). destruct (Nat.eqb_spec pos (length v)); [lia|].
      destruct ((if random then d_reserve else dret tt) c None) as [[] c1 t1|c1|?]; [|done|done]. rewrite Hf. rewrite (first_row_ok N HN mf false ord r' Hr' Ho) by by left. done. }
    exists (<[x := c']> w), r'. cbn [dstep]. unfold member. rewrite Hc, Hi'. split; [done|]. split; [|done].
    assert (Hs' : sim N (<[x := c']> w) (<[x := vec_insert pos (r' :: rs) v]> m)) by by apply sim_insert.
    intros k. rewrite (sim_row_at N HN _ _ x k Hs'). unfold rowm. by rewrite lookup_insert.
  Qed.
End Moving.

(** ** Comparison *)
Section Cmp.
  Context (cmp : nat -> nat -> nat -> option comparison).
  Lemma cmp_found a b : forall j res, cmp_fields cmp j a b true res = res.
  Proof. revert b. induction a as [|x a IH]; intros [|y b] j res; cbn; [done..|]. apply IH. Qed.
  Lemma cmp_fields_first a b : length a = length b -> forall j,
    (cmp_fields cmp j a b false (Some Eq) = Some Eq /\ forall n x y, a !! n = Some x -> b !! n = Some y -> cmp (j + n) x y = Some Eq) \/
    exists n x y, a !! n = Some x /\ b !! n = Some y /\ cmp (j + n) x y = cmp_fields cmp j a b false (Some Eq) /\ cmp (j + n) x y <> Some Eq /\
      forall k x y, k < n -> a !! k = Some x -> b !! k = Some y -> cmp (j + k) x y = Some Eq.
  Proof.
    revert b. induction a as [|x a IH]; intros [|y b] Hl j; try discriminate.
    - left. done.
    - cbn. case_bool_decide as Heq.
      + rewrite Heq. destruct (IH b ltac:(by injection Hl) (S j)) as [[H1 H2]|(n & u & v & Hu & Hv & H1 & H2 & H3)].
        * left. split; [done|]. intros [|n] u v Hu Hv; cbn in Hu, Hv; [injection Hu as <-; injection Hv as <-; by rewrite Nat.add_0_r|]. rewrite Nat.add_succ_r. by apply H2.
        * right. exists (S n), u, v. cbn. rewrite Nat.add_succ_r. cbn in H1, H2. split; [done|]. split; [done|]. split; [done|]. split; [done|].
          intros [|k] u' v' Hk Hu' Hv'; cbn in Hu', Hv'; [injection Hu' as <-; injection Hv' as <-; by rewrite Nat.add_0_r|]. rewrite Nat.add_succ_r. apply (H3 k); [lia|done|done].
      + right. exists 0, x, y. rewrite cmp_found, Nat.add_0_r. split; [done|]. split; [done|]. split; [done|]. split; [done|]. intros k ? ? Hk. lia.
  Qed.
  Theorem compare_first a b : length a = length b ->
    (all_equal cmp a b /\ compare_by_fields cmp a b = Some Eq) \/ exists n, first_unequal cmp a b n (compare_by_fields cmp a b).
  Proof.
    intros Hl. destruct (cmp_fields_first a b Hl 0) as [[H1 H2]|(n & u & v & Hu & Hv & H1 & H2 & H3)].
    - left. split; [|done]. intros n x y. apply H2.
    - right. exists n. split; [|intros k x y Hk; by apply H3]. exists u, v. split; [done|]. split; [done|]. split; [done|]. unfold compare_by_fields. by rewrite <- H1.
  Qed.
  Theorem proxy_eq_iff a b : length a = length b -> proxy_eq cmp a b = true <-> all_equal cmp a b.
  Proof.
    intros Hl. unfold proxy_eq. rewrite bool_decide_eq_true. destruct (compare_first a b Hl) as [[H1 H2]|(n & (x & y & Hx & Hy & Hc & Hne) & _)]; [done|]. split; [done|].
    intros Ha. exfalso. apply Hne. rewrite <- Hc. by eapply Ha.
  Qed.
  Lemma all_equal_eq a b : length a = length b -> (forall j x y, cmp j x y = Some Eq <-> x = y) -> all_equal cmp a b <-> a = b.
  Proof.
    intros Hl Hc. split.
    - intros Ha. apply list_eq. intros i. destruct (a !! i) as [x|] eqn:Ex.
      + destruct (lookup_lt_is_Some_2 b i) as [y Hy]; [rewrite <- Hl; by eapply lookup_lt_Some|]. rewrite Hy. f_equal. symmetry. rewrite <- (Hc i y x). rewrite (Hc i). symmetry. rewrite <- (Hc i). by eapply Ha.
      + symmetry. apply lookup_ge_None. apply lookup_ge_None in Ex. lia.
    - intros ->. intros i x y Hx Hy. rewrite Hx in Hy. injection Hy as ->. by apply Hc.
  Qed.
  Lemma rows_equal_ok N (HN : 0 < N) c d v u n : holds N c v -> holds N d u -> forall i, i + n = length v -> length v = length u ->
    exists b, rows_equal cmp c d n i = Some b /\ (b = true <-> forall k x y, i <= k -> v !! k = Some x -> u !! k = Some y -> all_equal cmp x y).
  Proof.
    intros Hc Hd. induction n as [|n IH]; intros i Hi Hl; cbn.
    - exists true. split; [done|]. split; [|done]. intros _ k x y Hk Hx. apply lookup_lt_Some in Hx. lia.
    - destruct (lookup_lt_is_Some_2 v i) as [x Hx]; [lia|]. destruct (lookup_lt_is_Some_2 u i) as [y Hy]; [lia|]. rewrite (gather_ok N c v i x Hc Hx), (gather_ok N d u i y Hd Hy).
      assert (Hxy : length x = length y). { destruct Hc as [Hv _], Hd as [Hu _]. rewrite Forall_lookup in Hv, Hu. pose proof (Hv _ _ Hx). pose proof (Hu _ _ Hy). unfold is_row in *. lia. }
      destruct (proxy_eq cmp x y) eqn:E.
      + destruct (IH (S i)) as (b & Hb & Hiff); [lia|done|]. exists b. split; [done|]. rewrite Hiff. apply proxy_eq_iff in E; [|done]. split.
        * intros H k x' y' Hk Hx' Hy'. destruct (decide (k = i)) as [->|?]; [rewrite Hx in Hx'; injection Hx' as <-; rewrite Hy in Hy'; by injection Hy' as <-|]. apply (H k); [lia|done|done].
        * intros H k x' y' Hk Hx' Hy'. apply (H k); [lia|done|done].
      + exists false. split; [done|]. split; [done|]. intros H. exfalso. assert (proxy_eq cmp x y = true); [|congruence]. apply proxy_eq_iff; [done|]. by apply (H i).
  Qed.
  Theorem d_eq_ok N (HN : 0 < N) c d v u : holds N c v -> holds N d u ->
    exists b, d_eq cmp c d = Some b /\ (b = true <-> length v = length u /\ forall k x y, v !! k = Some x -> u !! k = Some y -> all_equal cmp x y).
  Proof.
    intros Hc Hd. destruct (holds_head N HN c v Hc) as [tc Etc]. destruct (holds_head N HN d u Hd) as [td Etd]. unfold d_eq. rewrite Etc, Etd, !column_length. rewrite <- Etc, <- Etd.
    destruct (Nat.eqb_spec (length v) (length u)) as [Hl|Hl].
    - destruct (rows_equal_ok N HN c d v u (length v) Hc Hd 0 eq_refl Hl) as (b & Hb & Hiff). exists b. split; [done|]. rewrite Hiff. split; [intros H; split; [done|]; intros k x y; apply H; lia|intros [_ H] k x y _; apply H].
    - exists false. split; [done|]. split; [done|]. by intros [? _].
  Qed.
End Cmp.

(** ** Iterators *)
Local Open Scope Z_scope.
Lemma to_s_add i n : is_s64 n -> to_s (to_u (to_u (i + n) - i)) = n.
Proof.
  intros Hn. unfold to_s, to_u. rewrite Zmod_mod. rewrite Zminus_mod_idemp_l. replace (i + n - i) with n by lia. unfold is_s64, two64 in *.
  destruct (Z_lt_le_dec n 0).
  - replace (n mod 2 ^ 64) with (n + 2 ^ 64); [destruct (Z.ltb_spec (n + 2 ^ 64) (2 ^ 63)); lia|]. symmetry. rewrite <- (Z_mod_plus_full n 1). rewrite Z.mod_small; lia.
  - rewrite Z.mod_small by lia. destruct (Z.ltb_spec n (2 ^ 63)); lia.
Qed.
Lemma it_add_diff it n : is_s64 n -> it_diff (it_add it n) it = n.
Proof. intros Hn. unfold it_diff, it_add. cbn. by apply to_s_add. Qed.
Lemma to_s_mod z : exists k, to_s z = z + k * two64.
Proof.
  unfold to_s. assert (to_u z = z + - (z / two64) * two64) as ->. { unfold to_u. rewrite Zmod_eq_full by done. lia. }
  case_match; [by eexists|]. exists (- (z / two64) - 1). lia.
Qed.
Lemma to_u_idem z k : to_u (z + k * two64) = to_u z.
Proof. unfold to_u. by rewrite Z_mod_plus_full. Qed.
Lemma to_u_small z : is_u64 z -> to_u z = z.
Proof. intros. unfold to_u. apply Z.mod_small. done. Qed.
Lemma to_u_s x a : to_u (x + to_s (to_u a)) = to_u (x + a).
Proof.
  destruct (to_s_mod (to_u a)) as [k ->]. assert (Ha : to_u a = a + - (a / two64) * two64). { unfold to_u. rewrite Zmod_eq_full by done. lia. } rewrite Ha.
  replace (x + (a + - (a / two64) * two64 + k * two64)) with (x + a + (- (a / two64) + k) * two64) by lia. apply to_u_idem.
Qed.
Lemma it_diff_add a b : is_u64 (idx a) -> it_add b (it_diff a b) = a.
Proof. intros Ha. destruct a as [a], b as [b]. unfold it_add, it_diff. cbn in *. f_equal. rewrite to_u_s. replace (b + (a - b)) with a by lia. by apply to_u_small. Qed.
Lemma it_sub_ndebug it n : is_u64 (idx it) -> it_sub true (it_add it n) n = Some it.
Proof. intros Hi. destruct it as [i]. unfold it_sub, it_add, asserting. cbn in *. do 2 f_equal. unfold to_u. rewrite Zminus_mod_idemp_l. replace (i + n - n) with i by lia. by apply Z.mod_small. Qed.
Lemma it_sub_nonneg nd it n : 0 <= idx it -> 0 <= n -> idx it + n < 2 ^ 64 -> it_sub nd (it_add it n) n = Some it.
Proof.
  intros Hi Hn Hb. destruct it as [i]. unfold it_sub, it_add, asserting, to_u, two64. cbn [idx] in *. rewrite (Z.mod_small n), (Z.mod_small (i + n)) by lia. destruct (Z.leb_spec n (i + n)); [|lia]. rewrite orb_true_r.
  rewrite Z.mod_small by lia. do 2 f_equal. lia.
Qed.
Lemma it_sub_neg it n : is_u64 (idx it) -> is_s64 n -> n < 0 -> 0 <= idx it + n -> it_sub false (it_add it n) n = None.
Proof.
  intros Hi Hn Hneg Hb. destruct it as [i]. unfold is_u64, is_s64 in *. unfold it_sub, it_add, asserting, to_u, two64. cbn [idx orb] in *. rewrite (Z.mod_small (i + n)) by lia.
  assert (n mod 2 ^ 64 = n + 2 ^ 64) as ->. { rewrite <- (Z_mod_plus_full n 1). rewrite Z.mod_small; lia. } destruct (Z.leb_spec (n + 2 ^ 64) (i + n)); [lia|done].
Qed.
Lemma it_diff_small a b : 0 <= idx a < 2 ^ 63 -> 0 <= idx b < 2 ^ 63 -> it_diff a b = idx a - idx b.
Proof.
  intros Ha Hb. destruct a as [a], b as [b]. cbn in *. unfold it_diff. cbn. replace (to_u (a - b)) with (to_u (to_u (b + (a - b)) - b)); [apply to_s_add; unfold is_s64; lia|].
  unfold to_u. rewrite Zminus_mod_idemp_l. f_equal. lia.
Qed.
Lemma it_cmp_diff a b : 0 <= idx a < 2 ^ 63 -> 0 <= idx b < 2 ^ 63 -> it_cmp a b = (it_diff a b ?= 0) /\ (it_eq a b = true <-> it_diff a b = 0).
Proof.
  intros Ha Hb. rewrite it_diff_small by done. unfold it_cmp, it_eq. split.
  - by rewrite <- Z.compare_sub.
  - rewrite Z.eqb_eq. lia.
Qed.
Lemma it_inc_add nd sz it : 0 <= idx it < sz -> it_inc nd sz it = Some (it_add it 1) .
Proof. intros Hi. unfold it_inc, asserting. destruct (Z.eqb_spec (idx it) sz); [lia|]. by rewrite orb_true_r. Qed.
Lemma it_inc_dec nd it : 0 <= idx it < 2 ^ 64 - 1 -> it_dec nd (it_add it 1) = Some it.
Proof.
  intros Hi. destruct it as [i]. unfold it_dec, it_add, asserting, to_u, two64. cbn [idx] in *. rewrite (Z.mod_small (i + 1)) by lia. destruct (Z.eqb_spec (i + 1) 0); [lia|]. rewrite orb_true_r. rewrite Z.mod_small by lia. do 2 f_equal. lia.
Qed.
Lemma it_at_row N (HN : (0 < N)%nat) c v it n r : holds N c v -> is_u64 (idx it) -> 0 <= idx it + n < 2 ^ 64 -> v !! Z.to_nat (idx it + n) = Some r -> it_at it n c None = DOk r c None.
Proof. intros Hc Hi Hn Hr. unfold it_at, it_read, it_add. cbn [idx]. rewrite to_u_small by done. by eapply read_ok. Qed.

(** ** Sizes *)
Local Open Scope nat_scope.
Definition sizes (m : gmap nat (list row)) : gmap nat nat := length <$> m.
Lemma sizes_insert x v m : sizes (<[x := v]> m) = <[x := length v]> (sizes m).
Proof. apply fmap_insert. Qed.
Lemma sizes_alter f g x m : (forall v, m !! x = Some v -> length (f v) = g (length v)) -> sizes (alter f x m) = alter g x (sizes m).
Proof.
  intros H. apply map_eq. intros z. unfold sizes. rewrite lookup_fmap. destruct (decide (z = x)) as [->|?].
  - rewrite !lookup_alter, lookup_fmap. destruct (m !! x) as [v|] eqn:E; [cbn|done]. by rewrite H.
  - by rewrite !lookup_alter_ne, lookup_fmap by done.
Qed.
Lemma sizes_some x v m : m !! x = Some v -> sizes m !! x = Some (length v).
Proof. intros H. unfold sizes. by rewrite lookup_fmap, H. Qed.
Lemma sizes_inv x n m : sizes m !! x = Some n -> exists v, m !! x = Some v /\ length v = n.
Proof. unfold sizes. rewrite lookup_fmap. destruct (m !! x) as [v|]; [|done]. intros [= <-]. eauto. Qed.
Lemma sizes_none x m : sizes m !! x = None -> m !! x = None.
Proof. unfold sizes. rewrite lookup_fmap. by destruct (m !! x). Qed.
Lemma sizes_is_some x m : is_Some (sizes m !! x) -> is_Some (m !! x).
Proof. intros [n H]. destruct (sizes_inv x n m H) as (v & Hv & _). eauto. Qed.
Lemma sizes_below x i m : below (sizes m) x i -> inside m x i.
Proof. intros (n & H & Hi). destruct (sizes_inv x n m H) as (v & Hv & <-). by exists v. Qed.
Lemma sizes_within x i m : within (sizes m) x i -> upto m x i.
Proof. intros (n & H & Hi). destruct (sizes_inv x n m H) as (v & Hv & <-). by exists v. Qed.
Lemma alter_out {A} (f : A -> A) x (m : gmap nat A) : m !! x = None -> alter f x m = m.
Proof. intros H. apply map_eq. intros z. destruct (decide (z = x)) as [->|?]; [by rewrite lookup_alter, H|by rewrite lookup_alter_ne]. Qed.
Lemma insert_rows_length i rs v : i <= length v -> length (vec_insert i rs v) = length v + length rs.
Proof. intros. unfold vec_insert. rewrite !app_length, take_length, drop_length. lia. Qed.
Lemma size_step_ok N dfl o m : vec_legal N o m -> sizes (fst (vec_step N dfl o m)) = size_step o (sizes m).
Proof.
  destruct o; cbn [vec_legal vec_step size_step fst]; intros Hl.
  - apply sizes_insert.
  - by rewrite sizes_insert, replicate_length.
  - by rewrite sizes_insert, replicate_length.
  - apply sizes_insert.
  - destruct Hl as [_ [v Hv]]. by rewrite Hv, (sizes_some y v m Hv), sizes_insert.
  - destruct Hl as [_ [v Hv]]. by rewrite Hv, (sizes_some y v m Hv), !sizes_insert.
  - destruct Hl as [_ [v Hv]]. by rewrite Hv, (sizes_some y v m Hv), sizes_insert.
  - destruct Hl as [_ [[v Hv] _]]. by rewrite Hv, (sizes_some y v m Hv), !sizes_insert.
  - destruct Hl as [[u Hu] [v Hv]]. by rewrite Hu, Hv, (sizes_some y v m Hv), (sizes_some x u m Hu), !sizes_insert.
  - apply sizes_alter. intros v _. rewrite app_length. cbn. lia.
  - apply sizes_alter. intros v _. rewrite app_length. cbn. lia.
  - destruct Hl as [(v & Hv & Hi) _]. apply sizes_alter. intros v' Hv'. rewrite Hv in Hv'. injection Hv' as <-. rewrite insert_rows_length by done. cbn. lia.
  - destruct Hl as [(v & Hv & Hi) _]. apply sizes_alter. intros v' Hv'. rewrite Hv in Hv'. injection Hv' as <-. by rewrite insert_rows_length, replicate_length by done.
  - destruct Hl as ((v & Hv & Hi) & _). apply sizes_alter. intros v' Hv'. rewrite Hv in Hv'. injection Hv' as <-. by rewrite insert_rows_length by done.
  - destruct Hl as (v & Hv & Hi). apply sizes_alter. intros v' Hv'. rewrite Hv in Hv'. injection Hv' as <-. rewrite app_length, take_length, drop_length. lia.
  - done.
  - destruct Hl as (v & Hv & Hi). apply sizes_alter. intros v' Hv'. rewrite take_length. lia.
  - by apply sizes_alter.
  - done.
  - done.
  - apply sizes_alter. intros v _. unfold vec_resize. rewrite app_length, take_length, replicate_length. lia.
  - apply sizes_alter. intros v _. unfold vec_resize. rewrite app_length, take_length, replicate_length. lia.
  - by rewrite sizes_insert, replicate_length.
  - apply sizes_insert.
  - rewrite (sizes_alter _ id); [|intros; by rewrite insert_length]. apply map_eq. intros z. destruct (decide (z = x)) as [->|?]; [rewrite lookup_alter; by destruct (sizes m !! x)|by rewrite lookup_alter_ne].
  - destruct (m !! y) as [u|]; [|done]. destruct (u !! j); [|done]. rewrite (sizes_alter _ id); [|intros; by rewrite insert_length]. apply map_eq. intros z. destruct (decide (z = x)) as [->|?]; [rewrite lookup_alter; by destruct (sizes m !! x)|by rewrite lookup_alter_ne].
  - destruct (m !! x) as [v|]; [|done]. destruct (m !! y) as [u|]; [|done]. destruct (v !! i) as [a|]; [|done]. destruct (u !! j) as [b|]; [|done]. change (sizes (setrow y j a (setrow x i b m)) = sizes m).
    apply map_eq. intros z. unfold sizes. by rewrite !lookup_fmap, !setrow_size.
Qed.
Section SizeHistory.
  Context (N : nat) (HN : 0 < N) (dfl mf : nat -> nat).
  Lemma size_step_any o w m : sim N w m -> size_legal N o (sizes m) -> exists w' ret m', dstep N dfl mf o w None = WOk w' ret None /\ sim N w' m' /\ sizes m' = size_step o (sizes m).
  Proof.
    intros Hs Hl.
    assert (Hdone : vec_legal N o m -> exists w' ret m', dstep N dfl mf o w None = WOk w' ret None /\ sim N w' m' /\ sizes m' = size_step o (sizes m)).
    { intros Hv. destruct (step_ok N HN dfl mf o w m Hs Hv) as (w' & Hst & Hs'). eexists w', _, _. split; [exact Hst|]. split; [done|]. by apply size_step_ok. }
    destruct o; cbn [size_legal vec_legal] in *; try (apply Hdone; by apply sizes_none);
      try (apply Hdone; destruct Hl as [H1 H2]; split; [by apply sizes_none|by (done || apply sizes_is_some)]);
      try (apply Hdone; destruct Hl as [H1 H2]; split; by (done || apply sizes_is_some));
      try (apply Hdone; destruct Hl as [H1 H2]; split; by (done || apply sizes_within || apply sizes_below));
      try (apply Hdone; by (apply sizes_is_some || apply sizes_below)).
    - apply Hdone. destruct Hl as (H1 & H2 & H3). split; [by apply sizes_is_some|]. split; [by apply sizes_is_some|done].
    - destruct Hl as (H1 & H2 & H3). apply sizes_within in H1. pose proof H1 as (v & Hv & Hi). destruct moving; [|by apply Hdone].
      destruct (decide (i = length v)) as [Hi'|Hne]; [apply Hdone; naive_solver|]. destruct rs as [|r rs].
      + destruct (step_ok N HN dfl mf (DInsertRange x i false random ord []) w m Hs ltac:(done)) as (w' & Hst & Hs'). eexists w', _, _. split; [|split; [exact Hs'|by apply (size_step_ok N dfl (DInsertRange x i false random ord []))]].
        rewrite <- Hst. cbn [dstep]. done.
      + inversion H2 as [|? ? Hr Hrs]; subst. destruct (first_row_moving N mf ord r Hr H3) as (r' & Hf & Hr' & _).
        destruct (step_ok N HN dfl mf (DInsertRange x i false random ord (r' :: rs)) w m Hs) as (w' & Hst & Hs').
        { cbn. split; [done|]. split; [by constructor|]. done. }
        eexists w', _, _. split; [|split; [exact Hs'|]].
        * rewrite <- Hst. cbn [dstep]. unfold member. destruct (sim_some N w m x v Hs Hv) as (c & Hc & Hho). rewrite Hc. unfold d_insert_range, dbind. rewrite (size_ok N HN c v None Hho). destruct (Nat.eqb_spec i (length v)); [lia|].
          destruct ((if random then d_reserve else dret tt) c None) as [[] c1 t1|c1|?]; [|done|done]. rewrite Hf. by rewrite (first_row_ok N HN mf false ord r' Hr' H3) by by left.
        * rewrite (size_step_ok N dfl (DInsertRange x i false random ord (r' :: rs))); [done|]. cbn. split; [done|]. split; [by constructor|]. done.
    - done.
  Qed.
  Theorem size_history_ok l s : size_history N l s -> exists w m, dexec N dfl mf l ∅ = WOk w None None /\ sim N w m /\ sizes m = s.
  Proof.
    induction 1 as [|l o s Hh IH Hl].
    - exists ∅, ∅. split; [done|]. split; [intros x; rewrite !lookup_empty; constructor|]. apply fmap_empty.
    - destruct IH as (w & m & He & Hs & <-). destruct (size_step_any o w m Hs Hl) as (w' & ret & m' & Hst & Hs' & Hsz). exists w', m'. rewrite dexec_snoc, He, Hst. done.
  Qed.
  Theorem columns_ok l s : size_history N l s -> exists w, dexec N dfl mf l ∅ = WOk w None None /\
    forall x n, s !! x = Some n -> exists c, w !! x = Some c /\ length c = N /\ d_size c None = DOk n c None /\
      (forall j, j < N -> exists col, d_view j c None = DOk col c None /\ length col = n) /\
      forall i, i < n -> exists r, d_read i c None = DOk r c None /\ length r = N /\ forall j col, d_view j c None = DOk col c None -> col !! i = r !! j.
  Proof.
    intros Hh. destruct (size_history_ok l s Hh) as (w & m & He & Hs & Hsz). exists w. split; [done|]. intros x n Hx. rewrite <- Hsz in Hx. destruct (sizes_inv x n m Hx) as (v & Hv & <-).
    destruct (sim_some N w m x v Hs Hv) as (c & Hc & Hho). exists c. split; [done|]. split; [by eapply holds_length|]. split; [by eapply (size_ok N HN)|]. split.
    - intros j Hj. destruct (holds_columns N c v Hho j Hj) as (col & H1 & H2 & _). eauto.
    - intros i Hi. destruct (lookup_lt_is_Some_2 v i Hi) as [r Hr]. exists r. split; [by eapply (read_ok N HN)|]. split. { destruct Hho as [Hok _]. rewrite Forall_lookup in Hok. by eapply Hok. }
      intros j col Hcol. destruct (decide (j < N)) as [Hj|Hj].
      + destruct (holds_columns N c v Hho j Hj) as (col' & H1 & _ & H3). rewrite Hcol in H1. injection H1 as <-. by apply H3.
      + exfalso. unfold d_view in Hcol. rewrite lookup_ge_None_2 in Hcol; [done|]. rewrite (holds_length N c v Hho). lia.
  Qed.
End SizeHistory.

Theorem behaves_as_vector N dfl mf l m : 0 < N -> vec_history N dfl l m ->
  exists w, dexec N dfl mf l ∅ = WOk w None None /\
    (forall x, is_Some (w !! x) <-> is_Some (m !! x)) /\
    (forall x c v, w !! x = Some c -> m !! x = Some v -> same_contents c v) /\
    (forall o, vec_legal N o m -> exists w', dstep N dfl mf o w None = WOk w' (snd (vec_step N dfl o m)) None).
Proof.
  intros HN Hh. destruct (history_ok N HN dfl mf l m Hh) as (w & He & Hs). exists w. split; [done|]. split; [|split].
  - intros x. specialize (Hs x). destruct Hs; split; intros [? ?]; done || by eexists.
  - intros x c v Hc Hv. destruct (sim_some N w m x v Hs Hv) as (c' & Hc' & Hho). rewrite Hc in Hc'. injection Hc' as <-. by apply (holds_contents N HN).
  - intros o Hl. destruct (step_ok N HN dfl mf o w m Hs Hl) as (w' & Hst & _). eauto.
Qed.
Theorem erase_range_bad N dfl mf x b e w t : is_Some (w !! x) -> dstep N dfl mf (DEraseRange x b e) w t = WBad UbIllFormed.
Proof. intros [c Hc]. cbn. unfold member. by rewrite Hc. Qed.

Theorem moving_range_refuted : exists N dfl mf l m w x v pos rs w', vec_history N dfl l m /\ dexec N dfl mf l ∅ = WOk w None None /\ m !! x = Some v /\ pos <= length v /\ Forall (is_row N) rs /\
  dstep N dfl mf (DInsertRange x pos true true (seq 0 N) rs) w None = WOk w' (Some pos) None /\ row_at w' x pos <> head rs.
Proof.
  set (p := [DNew 1; DPush 1 [1; 2; 3]]).
  exists 3, (fun _ => 0), (fun _ => 0), p, (<[1 := [[1; 2; 3]]]> ∅), (<[1 := [[1]; [2]; [3]]]> (<[1 := [[]; []; []]]> ∅)), 1, [[1; 2; 3]], 0, [[4; 5; 6]; [7; 8; 9]], (<[1 := [[4; 7; 1]; [0; 8; 2]; [0; 9; 3]]]> (<[1 := [[1]; [2]; [3]]]> (<[1 := [[]; []; []]]> ∅))).
  split; [|split; [vm_compute; reflexivity|]; split; [by vm_compute|]; split; [cbn; lia|]; split; [by repeat constructor|]; split; [by vm_compute|by vm_compute]].
  replace (<[1 := [[1; 2; 3]]]> (∅ : gmap nat (list row))) with (fst (vec_step 3 (fun _ => 0) (DPush 1 [1; 2; 3]) (fst (vec_step 3 (fun _ => 0) (DNew 1) ∅)))) by (cbn; by rewrite alter_insert).
  apply (vh_snoc 3 _ [DNew 1]); [apply (vh_snoc 3 _ []); [constructor|done]|]. split; [by eexists|done].
Qed.

Theorem vector_equality N dfl mf cmp l m w x y c d v u : 0 < N -> vec_history N dfl l m -> dexec N dfl mf l ∅ = WOk w None None ->
  w !! x = Some c -> w !! y = Some d -> m !! x = Some v -> m !! y = Some u ->
  exists b, d_eq cmp c d = Some b /\ (b = true <-> length v = length u /\ forall k a a', v !! k = Some a -> u !! k = Some a' -> all_equal cmp a a').
Proof.
  intros HN Hh He Hx Hy Hv Hu. pose proof (run_sim N HN dfl mf l m w Hh He) as Hs. destruct (sim_some N w m x v Hs Hv) as (c' & Hc' & H1). destruct (sim_some N w m y u Hs Hu) as (d' & Hd' & H2).
  rewrite Hx in Hc'. injection Hc' as <-. rewrite Hy in Hd'. injection Hd' as <-. by apply (d_eq_ok cmp N HN).
Qed.
Theorem fields_equal_iff cmp eqf a b : length a = length b -> (forall j x y, cmp j x y = Some Eq <-> eqf j x y = true) -> proxy_eq cmp a b = true <-> fields_equal eqf a b.
Proof. intros Hl Hc. rewrite proxy_eq_iff by done. unfold all_equal, fields_equal. split; intros H j x y Hx Hy; apply Hc; by apply H. Qed.
Theorem fields_equal_refuted : exists cmp eqf a b, length a = length b /\ (forall j x y, cmp j x y <> None) /\ (forall j x y, eqf j x y = true <-> x = y) /\ (forall j x, cmp j x x = Some Eq) /\
  (forall j x y z, cmp j x y = Some Eq -> cmp j y z = Some Eq -> cmp j x z = Some Eq) /\ proxy_eq cmp a b = true /\ ~ fields_equal eqf a b.
Proof.
  exists (fun _ a b => Some (Nat.compare (Nat.div2 a) (Nat.div2 b))), (fun _ a b => a =? b), [2; 4], [2; 5]. split; [done|]. split; [done|]. split; [intros; apply Nat.eqb_eq|]. split.
  - intros j x. by rewrite Nat.compare_refl.
  - split; [|split; [done|]].
    + intros j x y z [= H1%Nat.compare_eq] [= H2%Nat.compare_eq]. f_equal. apply Nat.compare_eq_iff. lia.
    + intros H. by specialize (H 1 4 5 eq_refl eq_refl).
Qed.

Theorem subscript_ok N dfl mf l m w x c v it n r : 0 < N -> vec_history N dfl l m -> dexec N dfl mf l ∅ = WOk w None None -> w !! x = Some c -> m !! x = Some v ->
  is_u64 (idx it) -> (0 <= idx it + n < 2 ^ 64)%Z -> v !! Z.to_nat (idx it + n) = Some r -> it_at it n c None = DOk r c None.
Proof.
  intros HN Hh He Hx Hv Hi Hn Hr. pose proof (run_sim N HN dfl mf l m w Hh He) as Hs. destruct (sim_some N w m x v Hs Hv) as (c' & Hc' & H1). rewrite Hx in Hc'. injection Hc' as <-. by eapply (it_at_row N HN).
Qed.
Theorem begin_end_ok N dfl mf l m w x c v : 0 < N -> vec_history N dfl l m -> dexec N dfl mf l ∅ = WOk w None None -> w !! x = Some c -> m !! x = Some v -> (Z.of_nat (length v) < 2 ^ 63)%Z ->
  exists b e, it_begin c None = DOk b c None /\ it_end c None = DOk e c None /\ it_diff e b = Z.of_nat (length v) /\
    forall i, i <= length v -> it_at_end (it_add b (Z.of_nat i)) c None = DOk (bool_decide (i = length v)) c None.
Proof.
  intros HN Hh He Hx Hv Hlen. pose proof (run_sim N HN dfl mf l m w Hh He) as Hs. destruct (sim_some N w m x v Hs Hv) as (c' & Hc' & H1). rewrite Hx in Hc'. injection Hc' as <-.
  exists (Iter 0), (Iter (Z.of_nat (length v))). unfold it_end, it_begin, dbind. rewrite (size_ok N HN c v None H1). split; [done|]. split; [done|]. split; [rewrite it_diff_small; cbn; lia|].
  intros i Hi. unfold it_at_end, dbind. rewrite (size_ok N HN c v None H1). unfold dret. f_equal. unfold it_add. cbn [idx]. rewrite to_u_small by (unfold is_u64; lia). case_bool_decide as Hd; [subst; apply Z.eqb_refl|]. apply Z.eqb_neq. lia.
Qed.
Theorem exceptions_ok N dfl mf o w w' :
  (dstep N dfl mf o w (Some 0) = WThrow w' -> w' = w) /\
  (forall t, keeps_size o = true -> all_valid N w -> dstep N dfl mf o w t = WThrow w' -> all_valid N w') /\
  (forall t, N = 1 -> all_valid N w -> dstep N dfl mf o w t = WThrow w' -> all_valid N w').
Proof.
  split; [apply first_throw|]. split; [intros t; apply keeps_size_throw|]. intros t -> Hv H. pose proof (one_field dfl mf o w t Hv) as Ho. by rewrite H in Ho.
Qed.
