(** Proofs for C93. *)
From stdpp Require Import list list_numbers.
From Coq Require Import Lia.
From Verif Require Import LayoutModel LayoutSpec.

Lemma up_ge n a : 0 < a -> n <= up n a.
Proof.
  intros H. unfold up. pose proof (Nat.div_mod (n + (a - 1)) a ltac:(lia)) as D.
  pose proof (Nat.mod_upper_bound (n + (a - 1)) a ltac:(lia)). nia.
Qed.
Lemma up_lt n a : 0 < a -> up n a < n + a.
Proof.
  intros H. unfold up. pose proof (Nat.div_mod (n + (a - 1)) a ltac:(lia)) as D. nia.
Qed.
Lemma up_divide n a : Nat.divide a (up n a).
Proof. unfold up. eexists. reflexivity. Qed.
Lemma up_id n a : 0 < a -> Nat.divide a n -> up n a = n.
Proof.
  intros H [k ->]. unfold up. rewrite Nat.add_comm, Nat.div_add by lia.
  rewrite Nat.div_small by lia. lia.
Qed.
Lemma pow2_pos k : 0 < 2 ^ k.
Proof. induction k; cbn; lia. Qed.
Lemma pow2_max a b : exists c, Nat.max (2 ^ a) (2 ^ b) = 2 ^ c /\ Nat.divide (2 ^ a) (2 ^ c) /\ Nat.divide (2 ^ b) (2 ^ c).
Proof.
  destruct (Nat.le_ge_cases a b) as [H|H].
  - exists b. pose proof (Nat.pow_le_mono_r 2 a b ltac:(lia) H). split; [lia|]. split; [|apply Nat.divide_refl].
    exists (2 ^ (b - a)). rewrite <- Nat.pow_add_r. f_equal. lia.
  - exists a. pose proof (Nat.pow_le_mono_r 2 b a ltac:(lia) H). split; [lia|]. split; [apply Nat.divide_refl|].
    exists (2 ^ (a - b)). rewrite <- Nat.pow_add_r. f_equal. lia.
Qed.

Lemma conflict_true e ts off : conflict e ts off = true <-> exists t, (t, off) ∈ e /\ t ∈ ts.
Proof.
  unfold conflict. rewrite existsb_exists. split.
  - intros ([t o] & Hi & H). apply andb_true_iff in H as [H1 H2]. cbn in *. apply Nat.eqb_eq in H1 as ->.
    apply existsb_exists in H2 as (t' & Ht & He). apply Nat.eqb_eq in He as ->. exists t'. split; by apply elem_of_list_In.
  - intros (t & Hi & Ht). exists (t, off). split; [by apply elem_of_list_In|]. cbn. rewrite Nat.eqb_refl. cbn.
    apply existsb_exists. exists t. split; [by apply elem_of_list_In|apply Nat.eqb_refl].
Qed.
Lemma search_ok n e ts a off o : search n e ts a off = Some o -> conflict e ts o = false /\ exists k, o = off + k * a.
Proof.
  revert off. induction n as [|n IH]; intros off; cbn; destruct (conflict e ts off) eqn:C; try discriminate.
  - intros [= <-]. split; [done|]. exists 0. lia.
  - intros H. apply IH in H as [? [k ->]]. split; [done|]. exists (S k). lia.
  - intros [= <-]. split; [done|]. exists 0. lia.
Qed.
(** the search ends: the places tried differ, and each conflict takes one of the placed subobjects *)
Lemma search_none n e ts a off : 0 < a -> search n e ts a off = None -> forall k, k <= n -> conflict e ts (off + k * a) = true.
Proof.
  intros Ha. revert off. induction n as [|n IH]; intros off; cbn; destruct (conflict e ts off) eqn:C; try discriminate.
  - intros _ k Hk. replace k with 0 by lia. by rewrite Nat.add_0_r.
  - intros H [|k] Hk; [by rewrite Nat.add_0_r|]. replace (off + S k * a) with (off + a + k * a) by lia. apply IH; [done|lia].
Qed.
Lemma search_found e ts a off : 0 < a -> is_Some (search (length e) e ts a off).
Proof.
  intros Ha. destruct (search (length e) e ts a off) as [o|] eqn:S; [by eexists|]. exfalso.
  pose proof (search_none _ _ _ _ _ Ha S) as H.
  assert (Hin : (fun k => off + k * a) <$> seq 0 (Datatypes.S (length e)) ⊆ (fun x : nat * nat => x.2) <$> e).
  { intros o Ho. apply elem_of_list_fmap in Ho as (k & -> & Hk). apply elem_of_seq in Hk.
    destruct (proj1 (conflict_true _ _ _) (H k ltac:(lia))) as (t & Ht & _). apply elem_of_list_fmap. by exists (t, off + k * a). }
 
  assert (NoDup ((fun k => off + k * a) <$> seq 0 (Datatypes.S (length e)))) as Hnd.
  { apply NoDup_fmap_2_strong; [|apply NoDup_seq]. intros x y _ _ E. nia. }
  pose proof (NoDup_incl_length (l:=(fun k => off + k * a) <$> seq 0 (Datatypes.S (length e))) (l':=(fun x : nat * nat => x.2) <$> e)) as L.
  rewrite !fmap_length, seq_length in L.
  enough (Datatypes.S (length e) <= length e) by lia. apply L.
  - by apply NoDup_ListNoDup.
  - intros x Hx. apply elem_of_list_In. apply Hin. by apply elem_of_list_In.
Qed.

(** the state after placing some members *)
Definition placed (ms : list member) (offs : list nat) (st : state) : Prop :=
  length offs = length ms /\ (exists k, s_align st = 2 ^ k) /\
  (forall i m off, ms !! i = Some m -> offs !! i = Some off ->
     aligned (m_align m) off /\ aligned (m_align m) (s_align st) /\ off + m_size m <= s_size st /\
     (0 < occupies m -> off + occupies m <= s_data st) /\ (m_empty m && m_shares m = true -> forall t, t ∈ m_types m -> (t, off) ∈ s_empties st)) /\
  (forall i j m m' off off', i <> j -> ms !! i = Some m -> ms !! j = Some m' -> offs !! i = Some off -> offs !! j = Some off' ->
     apart off (occupies m) off' (occupies m')) /\
  (forall i j m m' off t, i <> j -> ms !! i = Some m -> ms !! j = Some m' -> offs !! i = Some off -> offs !! j = Some off ->
     m_empty m && m_shares m = true -> m_empty m' && m_shares m' = true -> t ∈ m_types m -> t ∉ m_types m').

Lemma lookup_last {A} (l : list A) x i y : (l ++ [x]) !! i = Some y -> l !! i = Some y \/ (i = length l /\ y = x).
Proof.
  intros H. apply lookup_app_Some in H as [H|[Hl H]]; [by left|]. right. destruct (i - length l) eqn:D; [|done].
  cbn in H. injection H as ->. split; [lia|done].
Qed.

Lemma place_placed ms offs st m off st' : placed ms offs st -> sensible m -> place st m = Some (off, st') ->
  placed (ms ++ [m]) (offs ++ [off]) st' /\ s_data st <= s_data st'.
Proof.
  intros (Hl & [ka Hka] & Hin & Hap & Hty) ([km Hkm] & Hds & Hsz & Hdl & Hem) Hp.
  assert (Ham : 0 < m_align m) by (rewrite Hkm; apply pow2_pos).
  destruct (pow2_max ka km) as (kc & Hmax & Hd1 & Hd2).
  assert (Hfacts : aligned (m_align m) off /\ s_align st' = 2 ^ kc /\ s_size st <= s_size st' /\ off + m_size m <= s_size st' /\
    s_data st <= s_data st' /\ (0 < occupies m -> s_data st <= off /\ off + occupies m <= s_data st') /\
    s_empties st ⊆ s_empties st' /\
    (m_empty m && m_shares m = true -> forall t, t ∈ m_types m -> (t, off) ∈ s_empties st' /\ (t, off) ∉ s_empties st)).
  { unfold place in Hp. unfold occupies. destruct (m_shares m && m_empty m) eqn:Sh.
    - assert (m_empty m && m_shares m = true) as Sh' by (by rewrite andb_comm). rewrite Sh'.
      destruct (if conflict (s_empties st) (m_types m) 0 then _ else _) as [o|] eqn:F; [|done]. injection Hp as -> <-. cbn.
      assert (Hc : conflict (s_empties st) (m_types m) off = false /\ aligned (m_align m) off).
      { destruct (conflict (s_empties st) (m_types m) 0) eqn:C0.
        - apply search_ok in F as [? [k ->]]. split; [done|]. apply Nat.divide_add_r; [apply up_divide|]. by exists k.
        - injection F as <-. split; [done|]. by exists 0. }
      destruct Hc as [Hc Hal]. split_and!; try lia; try done.
      + intros x Hx. apply elem_of_app. by right.
      + intros _ t Ht. split.
        * apply elem_of_app. left. apply elem_of_list_fmap. by exists t.
        * intros Hi. assert (conflict (s_empties st) (m_types m) off = true) by (apply conflict_true; by exists t). congruence.
    - assert (m_empty m && m_shares m = false) as Sh' by (by rewrite andb_comm). rewrite Sh'.
      injection Hp as <- <-. cbn. pose proof (up_ge (s_data st) (m_align m) Ham). split_and!; try lia; try done.
      apply up_divide. }
  destruct Hfacts as (Fal & Fa & Fs & Fin & Fd & Fo & Fe & Ft). split; [|done]. unfold placed. split_and!.
  - rewrite !app_length; cbn; lia.
  - by exists kc.
  - intros i m0 off0 H1 H2. apply lookup_last in H1 as [H1|[-> ->]]; apply lookup_last in H2 as [H2|[Hi ->]].
    + destruct (Hin _ _ _ H1 H2) as (A1 & A2 & A3 & A4 & A5). split_and!; [done| |lia| |].
      * rewrite Fa. etransitivity; [exact A2|]. by rewrite Hka.
      * intros P. specialize (A4 P). lia.
      * intros P t Ht. apply Fe. by apply A5.
    + apply lookup_lt_Some in H1. lia.
    + apply lookup_lt_Some in H2. lia.
    + split_and!; [done| |lia| |].
      * rewrite Fa, Hkm. done.
      * intros P. apply Fo in P. lia.
      * intros P t Ht. by apply Ft.
  - intros i j m0 m1 o0 o1 Hij H1 H2 H3 H4.
    apply lookup_last in H1 as [H1|[-> ->]]; apply lookup_last in H3 as [H3|[? ->]]; try (apply lookup_lt_Some in H1; lia); try (apply lookup_lt_Some in H3; lia);
    apply lookup_last in H2 as [H2|[-> ->]]; apply lookup_last in H4 as [H4|[? ->]]; try (apply lookup_lt_Some in H2; lia); try (apply lookup_lt_Some in H4; lia).
    + by eapply Hap.
    + intros k Hk1 Hk2. destruct (Hin _ _ _ H1 H3) as (_ & _ & _ & A4 & _).
      specialize (A4 ltac:(lia)). specialize (Fo ltac:(lia)). lia.
    + intros k Hk1 Hk2. destruct (Hin _ _ _ H2 H4) as (_ & _ & _ & A4 & _).
      specialize (A4 ltac:(lia)). specialize (Fo ltac:(lia)). lia.
    + done.
  - intros i j m0 m1 o0 t Hij H1 H2 H3 H4 E1 E2 T1 T2.
    apply lookup_last in H1 as [H1|[-> ->]]; apply lookup_last in H3 as [H3|[? Ho]]; try (apply lookup_lt_Some in H1; lia); try (apply lookup_lt_Some in H3; lia);
    apply lookup_last in H2 as [H2|[-> ->]]; apply lookup_last in H4 as [H4|[? Ho']]; try (apply lookup_lt_Some in H2; lia); try (apply lookup_lt_Some in H4; lia).
    + by eapply (Hty i j).
    + destruct (Hin _ _ _ H1 H3) as (_ & _ & _ & _ & A5). subst o0. by apply (Ft E2 t T2), A5.
    + destruct (Hin _ _ _ H2 H4) as (_ & _ & _ & _ & A5). subst o0. by apply (Ft E1 t T1), A5.
    + done.
Qed.
Lemma place_some st m : sensible m -> is_Some (place st m).
Proof.
  intros ([k Hk] & _). unfold place. destruct (_ && _); [|by eexists]. destruct (conflict _ _ 0); [|by eexists].
  destruct (search_found (s_empties st) (m_types m) (m_align m) (up (s_data st) (m_align m))) as [o ->]; [rewrite Hk; apply pow2_pos|by eexists].
Qed.
Lemma place_all_placed ms : forall ms0 offs0 st, Forall sensible ms -> placed ms0 offs0 st ->
  exists offs st', place_all st ms = Some (offs, st') /\ placed (ms0 ++ ms) (offs0 ++ offs) st'.
Proof.
  induction ms as [|m ms IH]; intros ms0 offs0 st F P; cbn.
  - eexists _, _. split; [done|]. by rewrite !app_nil_r.
  - inversion F as [|? ? Fm Fr]; subst. destruct (place_some st m Fm) as [[off st1] Hp]. rewrite Hp.
    destruct (place_placed _ _ _ _ _ _ P Fm Hp) as [P1 _].
    destruct (IH _ _ _ Fr P1) as (offs & st' & -> & P'). eexists _, _. split; [done|]. by rewrite <- !app_assoc in P'.
Qed.
Lemma lays_out ms : Forall sensible ms -> exists l, lay ms = Some l /\ laid_out ms l.
Proof.
  intros F. unfold lay. destruct (place_all_placed ms [] [] (State 0 0 1 []) F) as (offs & st & -> & P).
  { split_and!; [done|by exists 0|..]; intros *; rewrite lookup_nil; done || (intros ? H; rewrite lookup_nil in H; done). }
  eexists. split; [done|]. destruct P as (Hl & [k Hk] & Hin & Hap & Hty). unfold laid_out; cbn.
  split_and!; [done|apply up_divide| | |].
  - intros i m off H1 H2. destruct (Hin _ _ _ H1 H2) as (A1 & A2 & A3 & _). split_and!; [done|done|].
    intros b Hb. pose proof (up_ge (Nat.max 1 (s_size st)) (s_align st)) as U. rewrite Hk in U at 1. specialize (U (pow2_pos k)). lia.
  - exact Hap.
  - exact Hty.
Qed.

Lemma sensible_plain n k : 0 < n -> Nat.divide (2 ^ k) n -> sensible (plain n (2 ^ k)).
Proof. intros H D. unfold sensible, plain; cbn. split_and!; try done; [by exists k|]. split; [done|lia]. Qed.
Lemma union_align_pow soos : exists k, union_align soos = 2 ^ k.
Proof. unfold union_align. destruct (soos =? 0); [by exists 3|by exists 4]. Qed.
Lemma sensible_storage soos : sensible (storage soos).
Proof.
  unfold storage. destruct (union_align_pow soos) as [k ->]. apply sensible_plain; [|apply up_divide].
  pose proof (up_ge (Nat.max soos word) (2 ^ k) (pow2_pos k)). unfold word in *. lia.
Qed.
Lemma sensible_word : sensible (plain word word).
Proof. apply (sensible_plain word 3); [unfold word; lia|apply Nat.divide_refl]. Qed.
Lemma storage_occupies soos : Nat.max soos word <= occupies (storage soos).
Proof. unfold storage, occupies; cbn. destruct (union_align_pow soos) as [k ->]. apply up_ge, pow2_pos. Qed.
Lemma apart_less a n b m n' m' : apart a n b m -> n' <= n -> m' <= m -> apart a n' b m'.
Proof. intros H ? ? k ? ?. apply (H k); lia. Qed.
Lemma within_less a n m n' : within a n m -> n' <= n -> within a n' m.
Proof. intros H ? k ?. apply H. lia. Qed.

Lemma any_laid_out soos i al : sensible i -> sensible al ->
  exists l, any_layout soos i al = Some l /\ laid_out (any_members soos i al) l.
Proof.
  intros Hi Ha. apply lays_out. unfold any_members. rewrite !Forall_cons. split_and!; [done|apply sensible_word|apply sensible_word|apply sensible_storage|done|constructor].
Qed.
Lemma value_apart soos i al : sensible i -> sensible al ->
  exists l ob ov op od oa, any_layout soos i al = Some l /\ l_offs l = [ob; ov; op; od; oa] /\
    aligned (union_align soos) od /\ aligned (union_align soos) (l_align l) /\ aligned (l_align l) (l_size l) /\
    apart ov word op word /\
    forall n, n <= Nat.max soos word ->
      within od n (l_size l) /\ apart od n ov word /\ apart od n op word /\ apart od n oa (occupies al) /\ apart od n ob (occupies i).
Proof.
  intros Hi Ha. destruct (any_laid_out soos i al Hi Ha) as (l & Hl & L). destruct L as (Ln & Lz & Lin & Lap & _).
  destruct (l_offs l) as [|ob [|ov [|op [|od [|oa [|? ?]]]]]] eqn:Ho; cbn in Ln; try lia.
  exists l, ob, ov, op, od, oa.
  destruct (Lin 3 _ od eq_refl eq_refl) as (A1 & A2 & A3). cbn in A1, A2.
  pose proof (storage_occupies soos) as Hs.
  split_and!; try done.
  - by apply (Lap 1 2 _ _ ov op ltac:(lia) eq_refl eq_refl eq_refl eq_refl).
  - intros n Hn. split_and!.
    + eapply within_less; [exact A3|]. unfold occupies in Hs. cbn in Hs |- *. lia.
    + eapply apart_less; [by apply (Lap 3 1 _ _ od ov ltac:(lia) eq_refl eq_refl eq_refl eq_refl)|lia|done].
    + eapply apart_less; [by apply (Lap 3 2 _ _ od op ltac:(lia) eq_refl eq_refl eq_refl eq_refl)|lia|done].
    + eapply apart_less; [by apply (Lap 3 4 _ _ od oa ltac:(lia) eq_refl eq_refl eq_refl eq_refl)|lia|done].
    + eapply apart_less; [by apply (Lap 3 0 _ _ od ob ltac:(lia) eq_refl eq_refl eq_refl eq_refl)|lia|done].
Qed.

(** ** empty interfaces and allocators *)
Lemma conflict_none e ts off : (forall t, t ∈ ts -> (t, off) ∉ e) -> conflict e ts off = false.
Proof.
  intros H. destruct (conflict e ts off) eqn:C; [|done]. apply conflict_true in C as (t & Ht & Hi). by destruct (H t Hi).
Qed.
Lemma plugins_placed ts : forall ts0 sz, NoDup ts -> (forall t, t ∈ ts -> t ∉ ts0) -> sz <= 1 ->
  exists sz', place_all (State 0 sz 1 ((fun t => (t, 0)) <$> ts0)) (empty_plugin <$> ts) =
    Some ((fun _ => 0) <$> ts, State 0 sz' 1 ((fun t => (t, 0)) <$> (reverse ts ++ ts0))) /\ sz' <= 1.
Proof.
  induction ts as [|t ts IH]; intros ts0 sz N D Hz; [by exists sz|]. rewrite fmap_cons. apply NoDup_cons in N as [Nt N]. cbn [place_all].
  unfold place at 1. cbn [m_shares m_empty empty_plugin andb m_types]. rewrite conflict_none.
  2: { intros t' Ht' Hi. apply elem_of_list_singleton in Ht' as ->. apply elem_of_list_fmap in Hi as (x & [= <-] & Hx).
       apply (D t); [by left|done]. }
  cbn [s_data s_size s_align s_empties m_size m_align fmap list_fmap app].
  destruct (IH (t :: ts0) (Nat.max sz (0 + 1)) N) as (sz' & E & ?).
  { intros x Hx Hin. apply elem_of_cons in Hin as [->|Hin]; [done|]. apply (D x); [by right|done]. }
  { lia. }
  exists sz'. split; [|done]. etransitivity; [exact (f_equal (fun r => match r with Some (offs, st) => Some (0 :: offs, st) | None => None end) E)|]. cbn [fmap list_fmap]. do 3 f_equal.
  by rewrite reverse_cons, <- app_assoc.
Qed.
Lemma types_at_0 (l : list nat) : (fun x : nat * nat => x.1) <$> filter (fun x : nat * nat => x.2 = 0) ((fun t => (t, 0)) <$> l) = l.
Proof. induction l as [|t l IHl]; [done|]. rewrite fmap_cons, filter_cons_True by done. cbn [fmap list_fmap]. cbn. f_equal. exact IHl. Qed.
Lemma interface_empty name ts : NoDup ts -> interface name (empty_plugin <$> ts) = Some (Member 1 0 1 true (name :: reverse ts) true).
Proof.
  intros N. unfold interface, lay. destruct (plugins_placed ts [] 0 N) as (sz & E & Hz); [intros ? _ H; by apply elem_of_nil in H|lia|].
  cbn [fmap list_fmap] in E. rewrite E. cbn [s_size s_align s_data s_empties].
  replace (Nat.max 1 sz) with 1 by lia. unfold as_base; cbn [l_size l_data l_align l_types].
  change (up 1 1) with 1. cbn. do 2 f_equal. rewrite app_nil_r. f_equal.
  apply types_at_0.
Qed.

Lemma up_storage soos : up 16 (union_align soos) = 16.
Proof. unfold union_align. by destruct (soos =? 0). Qed.
Lemma any_empty soos types t : t ∉ types ->
  any_layout soos (Member 1 0 1 true types true) (empty_alloc true t) =
    Some (Layout [0; 0; 8; 16; 0] (16 + up (Nat.max soos word) (union_align soos)) (union_align soos) (16 + up (Nat.max soos word) (union_align soos))
            (t :: types)).
Proof.
  intros N. unfold any_layout, lay, any_members. cbn [place_all]. unfold place at 1. cbn [m_shares m_empty andb s_empties].
  rewrite conflict_none by (intros ? _ H; by apply elem_of_nil in H).
  cbn [m_types s_data s_size s_align m_size m_align]. unfold place at 1. cbn [m_shares plain andb s_empties s_data s_size s_align m_size m_align m_data].
  unfold place at 1. cbn [m_shares plain andb s_empties s_data s_size s_align m_size m_align m_data].
  change (up (up 0 word + word) word) with 8. change (up 0 word) with 0. change (8 + word) with 16.
  unfold place at 1. cbn [m_shares storage plain andb s_empties s_data s_size s_align m_size m_align m_data].
  rewrite up_storage. unfold place. cbn [m_shares empty_alloc m_empty andb m_types s_empties s_data s_size s_align m_size m_align].
  rewrite app_nil_r. rewrite conflict_none.
  2: { intros x Hx Hi. apply elem_of_list_singleton in Hx as ->. apply elem_of_list_fmap in Hi as (y & [= <-] & Hy). done. }
  cbn [fmap list_fmap app s_size s_align s_empties s_data]. do 2 f_equal.
  - assert (Hu : union_align soos = 8 \/ union_align soos = 16) by (unfold union_align; destruct (soos =? 0); auto).
    pose proof (up_ge (Nat.max soos word) (union_align soos)) as G. unfold word in *.
    rewrite up_id.
    + destruct Hu as [-> | ->]; cbn [Nat.max]; lia.
    + destruct Hu as [-> | ->]; cbn; lia.
    + pose proof (up_divide (Nat.max soos 8) (union_align soos)) as D.
      match goal with |- Nat.divide ?a ?b => replace a with (union_align soos) by (destruct Hu as [-> | ->]; cbn; lia);
        replace b with (16 + up (Nat.max soos 8) (union_align soos)) by (destruct Hu as [-> | ->]; cbn [Nat.max]; lia) end.
      apply Nat.divide_add_r; [|done]. destruct Hu as [-> | ->]; [by exists 2|by exists 1].
  - unfold union_align. by destruct (soos =? 0).
  - change ((t, 0) :: ((fun x => (x, 0)) <$> types)) with ((fun x => (x, 0)) <$> (t :: types)). apply types_at_0.
Qed.

(** size of an any with an empty interface and an empty allocator *)
Lemma any_size soos name ts t i l : soos_ok soos = true -> NoDup ts -> t <> name -> t ∉ ts ->
  interface name (empty_plugin <$> ts) = Some i -> any_layout soos i (empty_alloc true t) = Some l ->
  l_offs l = [0; 0; 8; 16; 0] /\
  (soos = 0 -> l_size l = 24 /\ l_align l = 8) /\
  (soos <> 0 -> l_align l = 16 /\ Nat.divide 16 (l_size l) /\ 16 + soos <= l_size l < 32 + soos).
Proof.
  intros Hs N Hn Ht. rewrite interface_empty by done. intros [= <-]. rewrite any_empty.
  2: { intros H. apply elem_of_cons in H as [->|H]; [done|]. rewrite elem_of_reverse in H. done. }
  intros [= <-]. cbn [l_offs l_size l_align]. split; [done|]. unfold soos_ok, union_align in *. split; intros Z.
  - subst soos. done.
  - apply Nat.eqb_neq in Z as Z'. rewrite Z' in *. cbn [orb] in Hs. apply Nat.leb_le in Hs. rewrite Nat.max_l by done. change max_align with 16.
    split; [done|]. pose proof (up_ge soos 16 ltac:(lia)). pose proof (up_lt soos 16 ltac:(lia)). split; [|lia].
    change (Nat.divide 16 (16 + up soos 16)). apply Nat.divide_add_r; [by exists 1|apply up_divide].
Qed.
(** is there memory in it that nothing uses? *)
Lemma any_useless soos name ts t i l : soos_ok soos = true -> NoDup ts -> t <> name -> t ∉ ts ->
  interface name (empty_plugin <$> ts) = Some i -> any_layout soos i (empty_alloc true t) = Some l ->
  (exists k, useless soos i (empty_alloc true t) l k) <-> ~ Nat.divide 16 soos.
Proof.
  intros Hs N Hn Ht Hi Hl. destruct (any_size _ _ _ _ _ _ Hs N Hn Ht Hi Hl) as (Ho & H0 & H1). unfold useless. split.
  - intros (k & Hk & H) [q ->]. destruct (H 0 0 8 16 0 Ho) as (_ & B1 & B2 & B3 & _). unfold word in *.
    destruct (Nat.eq_dec q 0) as [->|Q].
    + destruct (H0 eq_refl) as [E0 _]. rewrite E0 in Hk. cbn [Nat.mul Nat.max] in *. lia.
    + destruct H1 as (_ & [z Hz] & Hb); [lia|]. rewrite Nat.max_l in B3 by lia. nia.
  - intros Hd. destruct (Nat.eq_dec soos 0) as [->|Z]; [destruct Hd; by exists 0|]. destruct (H1 Z) as (_ & [z Hz] & Hb).
    exists (16 + soos). assert (l_size l <> 16 + soos). { intros E. apply Hd. exists (z - 1). nia. }
    split; [lia|]. intros ob ov op od oa E. rewrite Ho in E. injection E as <- <- <- <- <-.
    unfold soos_ok, word in *. apply Nat.eqb_neq in Z. rewrite Z in Hs. cbn [orb] in Hs. apply Nat.leb_le in Hs. rewrite Nat.max_l by lia.
    rewrite interface_empty in Hi by done. injection Hi as <-. unfold occupies; cbn. lia.
Qed.

(** ** views *)
Lemma ref_laid_out i v : sensible i -> (forall s a, v = Some (s, a) -> sensible (plain s a)) ->
  exists l, ref_layout i v = Some l /\ laid_out [i; view_base v; plain word word] l.
Proof.
  intros Hi Hv. apply lays_out. rewrite !Forall_cons. split_and!; [done| |apply sensible_word|constructor].
  destruct v as [[s a]|]; [exact (Hv _ _ eq_refl)|exact sensible_word].
Qed.
Lemma ref_size name ts i : NoDup ts -> interface name (empty_plugin <$> ts) = Some i ->
  exists l, ref_layout i None = Some l /\ l_offs l = [0; 0; 8] /\ l_size l = 16 /\ l_align l = 8.
Proof.
  intros N. rewrite interface_empty by done. intros [= <-]. unfold ref_layout, lay. cbn [place_all]. unfold place at 1. cbn [m_shares m_empty andb s_empties].
  rewrite conflict_none by (intros ? _ H; by apply elem_of_nil in H). eexists. split; [reflexivity|]. by vm_compute.
Qed.
Lemma stateful_laid_out i t : sensible i -> sensible t ->
  exists l, stateful_layout i t = Some l /\ laid_out [i; plain word word; t] l.
Proof. intros Hi Ht. apply lays_out. rewrite !Forall_cons. split_and!; [done|apply sensible_word|done|constructor]. Qed.
(** a table of n function pointers *)
Lemma stateful_size name ts i n : NoDup ts -> 0 < n -> interface name (empty_plugin <$> ts) = Some i ->
  exists l, stateful_layout i (Member (word * n) (word * n) word false [] true) = Some l /\ l_offs l = [0; 0; 8] /\ l_size l = 8 + 8 * n.
Proof.
  intros N Hn. rewrite interface_empty by done. intros [= <-]. unfold stateful_layout, lay. cbn [place_all]. unfold place at 1. cbn [m_shares m_empty andb s_empties].
  rewrite conflict_none by (intros ? _ H; by apply elem_of_nil in H).
  cbn [m_types s_data s_size s_align m_size m_align]. unfold place at 1. cbn [m_shares plain andb s_empties s_data s_size s_align m_size m_align m_data].
  unfold place. cbn [m_shares m_empty plain andb s_empties s_data s_size s_align m_size m_align m_data].
  eexists. split; [reflexivity|]. cbn [l_offs l_size s_size s_align].
  split; [by vm_compute|]. change (up 0 word) with 0. change (up (0 + word) word) with 8.
  change (Nat.max (Nat.max (Nat.max 1 1) word) word) with 8. unfold word.
  match goal with |- up ?x 8 = _ => replace x with ((1 + n) * 8) by lia end. rewrite up_id; [lia|lia|by exists (1 + n)].
Qed.

(** a value that fits, at the place value_ptr of an empty any points to *)
Lemma value_in_buffer soos i al T addr : sensible i -> sensible al -> sensible T -> m_size T <= soos -> m_align T <= max_align ->
  exists l ob ov op od oa, any_layout soos i al = Some l /\ l_offs l = [ob; ov; op; od; oa] /\
    (aligned (l_align l) addr -> aligned (m_align T) (addr + od)) /\ within od (m_size T) (l_size l) /\
    apart od (m_size T) ov word /\ apart od (m_size T) op word /\ apart od (m_size T) oa (occupies al) /\ apart od (m_size T) ob (occupies i).
Proof.
  intros Hi Ha (HTa & _ & HT & _) Hsz Hal. destruct (value_apart soos i al Hi Ha) as (l & ob & ov & op & od & oa & Hl & Ho & A1 & A2 & _ & _ & A).
  exists l, ob, ov, op, od, oa. specialize (A (m_size T) ltac:(lia)). destruct A as (B1 & B2 & B3 & B4 & B5).
  split_and!; try done. intros Haddr. unfold union_align in *. destruct (Nat.eqb_spec soos 0) as [->|Z]; [lia|].
  assert (Nat.divide (m_align T) max_align).
  { destruct HTa as [k Hk]. rewrite Hk in *. change max_align with (2 ^ 4) in *. apply Nat.pow_le_mono_r_iff in Hal; [|lia].
    exists (2 ^ (4 - k)). rewrite <- Nat.pow_add_r. f_equal. lia. }
  apply Nat.divide_add_r; etransitivity; try done. etransitivity; done.
Qed.
Lemma views name ts i v : NoDup ts -> interface name (empty_plugin <$> ts) = Some i ->
  (exists l, ref_layout i None = Some l /\ l_offs l = [0; 0; 8] /\ l_size l = 16 /\ l_align l = 8) /\
  ((forall s a, v = Some (s, a) -> sensible (plain s a)) -> exists l, ref_layout i v = Some l /\ laid_out [i; view_base v; plain word word] l).
Proof.
  intros N Hi. split; [by eapply ref_size|]. intros Hv. apply ref_laid_out; [|done].
  rewrite interface_empty in Hi by done. injection Hi as <-. unfold sensible; cbn. split_and!; [by exists 0|by exists 1|lia|lia|done].
Qed.
