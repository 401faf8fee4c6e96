(** Proofs about the allocators of data_parallel_vector. *)
From stdpp Require Import gmap list.
From Coq Require Import Lia.
From Verif Require Import AnyModel DpvModel DpvAllocModel DpvAllocSpec.

(** ** column by column *)
Inductive steps (f : acol -> acol -> nat -> option (acol * acol * nat)) : list acol -> list acol -> nat -> list acol -> list acol -> nat -> bool -> Prop :=
| st_nil k : steps f [] [] k [] [] k false
| st_throw t ts s ss k : f t s k = None -> steps f (t :: ts) (s :: ss) k (t :: ts) (s :: ss) k true
| st_cons t ts s ss k t' s' k1 ts' ss' k' th : f t s k = Some (t', s', k1) -> steps f ts ss k1 ts' ss' k' th ->
    steps f (t :: ts) (s :: ss) k (t' :: ts') (s' :: ss') k' th.
Lemma pairs_steps f ts : forall ss dt ds k a b k' th, pairs f dt ds ts ss k = Some (a, b, k', th) ->
  exists nt ns, a = dt ++ nt /\ b = ds ++ ns /\ steps f ts ss k nt ns k' th.
Proof.
  induction ts as [|t ts IH]; intros [|s ss] dt ds k a b k' th H; cbn in H; try discriminate.
  - injection H as <- <- <- <-. exists [], []. rewrite !app_nil_r. repeat split. constructor.
  - destruct (f t s k) as [[[t' s'] k1]|] eqn:E.
    + apply IH in H as (nt & ns & -> & -> & H). exists (t' :: nt), (s' :: ns). rewrite <- !app_assoc. repeat split. by econstructor.
    + injection H as <- <- <- <-. exists (t :: ts), (s :: ss). repeat split. by constructor.
Qed.
Lemma pairs_total f (ts ss : list acol) dt ds k : length ts = length ss -> pairs f dt ds ts ss k <> None.
Proof.
  revert ss dt ds k. induction ts as [|t ts IH]; intros [|s ss] dt ds k H; cbn; try discriminate.
  destruct (f t s k) as [[[t' s'] k1]|]; [|discriminate]. apply IH. by injection H.
Qed.
Lemma steps_length f ts ss k ts' ss' k' th : steps f ts ss k ts' ss' k' th -> length ts' = length ts /\ length ss' = length ss.
Proof. induction 1; cbn; lia. Qed.

(** ** what one column step does *)
Section Alloc.
  Context (tr : atraits) (alloc reuse : nat -> bool) (left : list nat -> list nat).
  Notation step := (astep tr alloc reuse left).

  Lemma fresh_ok els a k t k' : fresh alloc els a k = Some (t, k') ->
    c_els t = els /\ c_al t = a /\ ((c_buf t = None /\ k' = k) \/ (c_buf t = Some (k, a) /\ k' = S k)).
  Proof.
    unfold fresh. destruct els; [intros [= <- <-]; cbn; eauto|]. destruct (alloc k); [|discriminate]. intros [= <- <-]. cbn. eauto.
  Qed.
  Lemma refill_ok els a t k t' k' : refill alloc reuse els a t k = Some (t', k') ->
    c_els t' = els /\ c_al t' = a /\
    ((c_buf t' = None /\ k' = k) \/ (c_buf t' = Some (k, a) /\ k' = S k) \/ (c_buf t' = c_buf t /\ c_al t = a /\ k' = S k)).
  Proof.
    unfold refill. destruct (reuse k && bool_decide (c_al t = a) && bool_decide (c_buf t <> None)) eqn:E.
    - apply andb_true_iff in E as [E1 _]. apply andb_true_iff in E1 as [_ E1]. apply bool_decide_eq_true in E1.
      intros [= <- <-]. cbn. eauto 10.
    - intros H. apply fresh_ok in H as (H1 & H2 & [H3|H3]); eauto 10.
  Qed.

  (** elements, allocators and storage of a step *)
  Definition ids (c : acol) : list nat := match c_buf c with Some (b, _) => [b] | None => [] end.
  Definition own (c : acol) : Prop := forall b a, c_buf c = Some (b, a) -> a = c_al c.
  Record col_ok (t s : acol) (k : nat) (t' s' : acol) (k' : nat) : Prop := {
    ok_k : k <= k';
    ok_ids : forall b, b ∈ ids t' ++ ids s' -> b ∈ ids t ++ ids s \/ k <= b < k';
    ok_nodup : (forall b, b ∈ ids t ++ ids s -> b < k) -> NoDup (ids t ++ ids s) -> NoDup (ids t' ++ ids s');
    ok_own : own t -> own s -> own t' /\ own s' }.
  Definition step_ok (f : acol -> acol -> nat -> option (acol * acol * nat)) : Prop :=
    forall t s k t' s' k', f t s k = Some (t', s', k') -> col_ok t s k t' s' k'.

  Lemma move_col_ok t s k : col_ok t s k s (stolen s) k.
  Proof.
    split; [lia| | |].
    - intros b. rewrite app_nil_r. rewrite elem_of_app. auto.
    - intros _ H. rewrite app_nil_r. by apply NoDup_app in H as (_ & _ & H).
    - intros _ H. split; [exact H|]. intros b a. discriminate.
  Qed.
  (** [t'] got a new buffer or kept its own; [s'] has the buffer of s *)
  Lemma filled_ok t s k t' s' k' : c_buf s' = c_buf s -> c_al s' = c_al s ->
    ((c_buf t' = None /\ k' = k) \/ (c_buf t' = Some (k, c_al t') /\ k' = S k) \/ (c_buf t' = c_buf t /\ c_al t = c_al t' /\ k' = S k)) ->
    col_ok t s k t' s' k'.
  Proof.
    intros B A H. assert (I : ids s' = ids s) by (unfold ids; by rewrite B).
    assert (I' : ids t' = match c_buf t' with Some (b, _) => [b] | None => [] end) by done.
    destruct H as [[H ->]|[[H ->]|(H & HA & ->)]]; rewrite H in I'; (split; [lia| | |]); rewrite ?I, ?I'; cbn [app]; unfold own; rewrite ?A, ?B, ?H.
    - intros b. rewrite elem_of_app. auto.
    - intros _ N. by apply NoDup_app in N as (_ & _ & N).
    - intros _ O. split; [congruence|exact O].
    - intros b. rewrite elem_of_cons, elem_of_app. intros [->|?]; [right; lia|auto].
    - intros L N. apply NoDup_cons. apply NoDup_app in N as (_ & _ & N). split; [|exact N]. intros E. specialize (L k). rewrite elem_of_app in L. specialize (L (or_intror E)). lia.
    - intros _ O. split; [congruence|exact O].
    - intros b E. left. exact E.
    - intros _ N. exact N.
    - intros O1 O2. split; [intros b a E; rewrite <- HA; by apply (O1 b)|exact O2].
  Qed.
  Lemma v_copy_ok a : step_ok (v_copy alloc a).
  Proof.
    intros t s k t' s' k'. unfold v_copy. destruct (fresh alloc (c_els s) (a s) k) as [[c k1]|] eqn:E; [|discriminate]. intros [= <- <- <-].
    apply fresh_ok in E as (_ & E & H). apply filled_ok; [done..|]. rewrite E. destruct H as [H|H]; auto.
  Qed.
  Lemma v_move_ok : step_ok v_move.
  Proof. intros t s k t' s' k' [= <- <- <-]. apply move_col_ok. Qed.
  Lemma v_move_with_ok a : step_ok (v_move_with alloc left a).
  Proof.
    intros t s k t' s' k'. unfold v_move_with. destruct (decide (a = c_al s)); [apply v_move_ok|].
    destruct (fresh alloc (c_els s) a k) as [[c k1]|] eqn:E; [|discriminate]. intros [= <- <- <-].
    apply fresh_ok in E as (_ & E & H). apply filled_ok; [done..|]. rewrite E. destruct H as [H|H]; auto.
  Qed.
  Lemma v_copy_assign_ok : step_ok (v_copy_assign tr alloc reuse).
  Proof.
    intros t s k t' s' k'. unfold v_copy_assign. destruct (refill _ _ _ _ _ _) as [[c k1]|] eqn:E; [|discriminate]. intros [= <- <- <-].
    apply refill_ok in E as (_ & E & H). apply filled_ok; [done..|]. rewrite E in *. destruct H as [H|[H|(H1 & H2 & H3)]]; auto.
  Qed.
  Lemma v_move_assign_ok : step_ok (v_move_assign tr alloc reuse left).
  Proof.
    intros t s k t' s' k'. unfold v_move_assign. destruct (pocma tr); [apply v_move_ok|]. destruct (decide _); [apply v_move_ok|].
    destruct (refill _ _ _ _ _ _) as [[c k1]|] eqn:E; [|discriminate]. intros [= <- <- <-].
    apply refill_ok in E as (_ & E & H). apply filled_ok; [done..|]. rewrite E in *. destruct H as [H|[H|(H1 & H2 & H3)]]; auto.
  Qed.

  (** ** storage of whole vectors *)
  Definition all_ids (cols : list acol) : list nat := concat (map ids cols).
  Lemma all_ids_cons c l : all_ids (c :: l) = ids c ++ all_ids l.
  Proof. done. Qed.
  Lemma all_ids_app l m : all_ids (l ++ m) = all_ids l ++ all_ids m.
  Proof. unfold all_ids. by rewrite map_app, concat_app. Qed.
  Lemma all_ids_in b cols : b ∈ all_ids cols <-> exists c a, c ∈ cols /\ c_buf c = Some (b, a).
  Proof.
    induction cols as [|c l IH]; [split; [intros H; by apply elem_of_nil in H|intros (c & a & H & _); by apply elem_of_nil in H]|].
    rewrite all_ids_cons, elem_of_app, IH. split.
    - intros [H|(d & a & H1 & H2)]; [|exists d, a; rewrite elem_of_cons; auto]. unfold ids in H. destruct (c_buf c) as [[b' a]|] eqn:E; [|by apply elem_of_nil in H].
      apply elem_of_list_singleton in H. subst. exists c, a. rewrite elem_of_cons. auto.
    - intros (d & a & H1 & H2). apply elem_of_cons in H1 as [->|H1]; [left; unfold ids; rewrite H2; by left|right; eauto].
  Qed.
  Lemma steps_ok f ts ss k ts' ss' k' th : step_ok f -> steps f ts ss k ts' ss' k' th ->
    k <= k' /\ (forall b, b ∈ all_ids ts' ++ all_ids ss' -> b ∈ all_ids ts ++ all_ids ss \/ k <= b < k') /\
    ((forall b, b ∈ all_ids ts ++ all_ids ss -> b < k) -> NoDup (all_ids ts ++ all_ids ss) -> NoDup (all_ids ts' ++ all_ids ss')) /\
    (Forall own ts -> Forall own ss -> Forall own ts' /\ Forall own ss').
  Proof.
    intros F. induction 1 as [k|t ts s ss k E|t ts s ss k t' s' k1 ts' ss' k' th E S IH].
    - split; [lia|]. split; [intros b H; by apply elem_of_nil in H|]. split; [constructor|auto].
    - split; [lia|]. auto.
    - destruct IH as (K & I & N & O). destruct (F _ _ _ _ _ _ E) as [K1 I1 N1 O1].
      assert (P : forall x y l m : list nat, (x ++ l) ++ (y ++ m) ≡ₚ (x ++ y) ++ (l ++ m)).
      { intros x y l m. rewrite <- !app_assoc. f_equiv. rewrite !app_assoc. f_equiv. by rewrite Permutation_app_comm. }
      split; [lia|]. rewrite !all_ids_cons. split; [|split].
      + intros b. rewrite (P (ids t') (ids s')), (P (ids t) (ids s)), (elem_of_app (ids t' ++ _)), (elem_of_app (ids t ++ _)). intros [H|H].
        * destruct (I1 _ H); [auto|right; lia].
        * destruct (I _ H); [auto|right; lia].
      + intros L D. rewrite (P (ids t) (ids s)) in D. rewrite (P (ids t') (ids s')). assert (L' : forall b, b ∈ (ids t ++ ids s) ++ (all_ids ts ++ all_ids ss) -> b < k).
        { intros b H. apply L. by rewrite (P (ids t) (ids s)). }
        apply NoDup_app in D as (D1 & D2 & D3). apply NoDup_app. split; [|split].
        * apply N1; [|exact D1]. intros b H. apply L'. rewrite elem_of_app. auto.
        * intros b H1 H2. destruct (I1 _ H1) as [H1'|H1']; destruct (I _ H2) as [H2'|H2'].
          -- by apply (D2 b).
          -- specialize (L' b). rewrite elem_of_app in L'. specialize (L' (or_introl H1')). lia.
          -- specialize (L' b). rewrite elem_of_app in L'. specialize (L' (or_intror H2')). lia.
          -- lia.
        * apply N; [|exact D3]. intros b H. assert (b < k) by (apply L'; rewrite elem_of_app; auto). lia.
      + intros H1 H2. apply Forall_cons in H1 as [H1 H1'], H2 as [H2 H2']. destruct (O H1' H2') as [O2 O3]. destruct (O1 H1 H2) as [O4 O5].
        split; by constructor.
  Qed.

  Definition winv (w : aworld) : Prop :=
    (forall x cols, aw_vecs w !! x = Some cols -> NoDup (all_ids cols) /\ (forall b, b ∈ all_ids cols -> b < aw_next w) /\ Forall own cols) /\
    (forall x y cx cy b, x <> y -> aw_vecs w !! x = Some cx -> aw_vecs w !! y = Some cy -> b ∈ all_ids cx -> b ∈ all_ids cy -> False).
  Definition ids_of (w : aworld) (x : nat) : list nat := match aw_vecs w !! x with Some cols => all_ids cols | None => [] end.
  (** one vector replaced *)
  Lemma upd1 w x ts' k' : winv w -> aw_next w <= k' -> (forall b, b ∈ all_ids ts' -> b ∈ ids_of w x \/ aw_next w <= b < k') ->
    NoDup (all_ids ts') -> Forall own ts' -> winv (AW (<[x := ts']> (aw_vecs w)) k').
  Proof.
    intros [W1 W2] K I N O. assert (Ho : forall b, b ∈ ids_of w x -> b < aw_next w).
    { intros b H. unfold ids_of in H. destruct (aw_vecs w !! x) as [cols|] eqn:E; [by apply (W1 x cols E)|by apply elem_of_nil in H]. }
    assert (Hs : forall z cz b, x <> z -> aw_vecs w !! z = Some cz -> b ∈ all_ids cz -> b ∈ all_ids ts' -> False).
    { intros z cz b Hn Ez B1 B2. destruct (I b B2) as [B|B].
      - unfold ids_of in B. destruct (aw_vecs w !! x) as [cols|] eqn:E; [|by apply elem_of_nil in B]. by apply (W2 x z cols cz b).
      - apply (W1 z cz Ez) in B1. lia. }
    split; cbn.
    - intros z cols. rewrite lookup_insert_Some. intros [[<- <-]|[Hn E]].
      + split; [exact N|]. split; [|exact O]. intros b B. destruct (I b B) as [B'|B']; [apply Ho in B'; lia|lia].
      + destruct (W1 z cols E) as (A1 & A2 & A3). split; [exact A1|]. split; [|exact A3]. intros b B. apply A2 in B. lia.
    - intros y z cy cz b Hn. rewrite !lookup_insert_Some. intros [[<- <-]|[H1 E1]] [[<- <-]|[H2 E2]] B1 B2; [done| | |].
      + by apply (Hs z cz b).
      + by apply (Hs y cy b).
      + by apply (W2 y z cy cz b).
  Qed.
  Lemma upd2 w x y ts' ss' k' : winv w -> x <> y -> aw_next w <= k' ->
    (forall b, b ∈ all_ids ts' ++ all_ids ss' -> (b ∈ ids_of w x \/ b ∈ ids_of w y) \/ aw_next w <= b < k') ->
    NoDup (all_ids ts' ++ all_ids ss') -> Forall own ts' -> Forall own ss' ->
    winv (AW (<[x := ts']> (<[y := ss']> (aw_vecs w))) k').
  Proof.
    intros [W1 W2] Hxy K I N O1 O2. apply NoDup_app in N as (N1 & N2 & N3).
    assert (Ho : forall x b, b ∈ ids_of w x -> b < aw_next w).
    { intros z b H. unfold ids_of in H. destruct (aw_vecs w !! z) as [cols|] eqn:E; [by apply (W1 z cols E)|by apply elem_of_nil in H]. }
    assert (Hs : forall z cz b, z <> x -> z <> y -> aw_vecs w !! z = Some cz -> b ∈ all_ids cz -> b ∈ all_ids ts' ++ all_ids ss' -> False).
    { intros z cz b H1 H2 Ez B1 B2. destruct (I b B2) as [[B|B]|B].
      - unfold ids_of in B. destruct (aw_vecs w !! x) as [cols|] eqn:E; [|by apply elem_of_nil in B]. by apply (W2 x z cols cz b).
      - unfold ids_of in B. destruct (aw_vecs w !! y) as [cols|] eqn:E; [|by apply elem_of_nil in B]. by apply (W2 y z cols cz b).
      - apply (W1 z cz Ez) in B1. lia. }
    assert (Hb : forall b, b ∈ all_ids ts' ++ all_ids ss' -> b < k').
    { intros b B. destruct (I b B) as [[B'|B']|B']; [apply Ho in B'; lia|apply Ho in B'; lia|lia]. }
    split; cbn.
    - intros z cols. rewrite !lookup_insert_Some. intros [[<- <-]|[Hn [[<- <-]|[Hn' E]]]].
      + split; [exact N1|]. split; [|exact O1]. intros b B. apply Hb. rewrite elem_of_app. auto.
      + split; [exact N3|]. split; [|exact O2]. intros b B. apply Hb. rewrite elem_of_app. auto.
      + destruct (W1 z cols E) as (A1 & A2 & A3). split; [exact A1|]. split; [|exact A3]. intros b B. apply A2 in B. lia.
    - intros u z cu cz b Hn. rewrite !lookup_insert_Some.
      intros [[<- <-]|[H1 [[<- <-]|[H1' E1]]]] [[<- <-]|[H2 [[<- <-]|[H2' E2]]]] B1 B2; try done.
      + by apply (N2 b).
      + apply (Hs z cz b); try done. rewrite elem_of_app. auto.
      + by apply (N2 b).
      + apply (Hs z cz b); try done. rewrite elem_of_app. auto.
      + apply (Hs u cu b); try done. rewrite elem_of_app. auto.
      + apply (Hs u cu b); try done. rewrite elem_of_app. auto.
      + by apply (W2 u z cu cz b).
  Qed.
  Lemma all_ids_stolen ss : all_ids (map stolen ss) = [].
  Proof. induction ss as [|s ss IH]; [done|]. cbn [map]. rewrite all_ids_cons, IH. done. Qed.
  Lemma own_stolen ss : Forall own (map stolen ss).
  Proof. induction ss; constructor; [|done]. intros b a'. discriminate. Qed.

  (** both outcomes *)
  Definition keeps_winv (r : ares) : Prop := match r with AOk w | AThrow w => winv w | ABad _ => True end.
  Lemma a_from_winv f x y w : step_ok f -> winv w -> keeps_winv (a_from f x y w).
  Proof.
    intros F W. unfold a_from. destruct (decide (x = y)) as [|Hn]; [done|]. destruct (aw_vecs w !! y) as [ss|] eqn:E; [|done].
    destruct (pairs _ _ _ _ _ _) as [[[[ts' ss'] k'] th]|] eqn:Q; [|done]. apply pairs_steps in Q as (nt & ns & -> & -> & Q). cbn [app].
    destruct (proj1 W y ss E) as (A1 & A2 & A3). destruct (steps_ok _ _ _ _ _ _ _ _ F Q) as (K & I & N & O). rewrite all_ids_stolen in *. cbn [app] in *.
    destruct (O (own_stolen ss) A3) as [O1 O2]. specialize (N A2 A1).
    assert (Hy : ids_of w y = all_ids ss) by (unfold ids_of; by rewrite E).
    destruct th; cbn.
    - apply upd1; [done|done| |by apply NoDup_app in N as (_ & _ & N)|done]. intros b B. rewrite Hy. apply I. rewrite elem_of_app. auto.
    - apply upd2; try done. intros b B. rewrite Hy. destruct (I b B); auto.
  Qed.
  Lemma a_assign_winv f x y w : step_ok f -> winv w -> keeps_winv (a_assign f x y w).
  Proof.
    intros F W. unfold a_assign. destruct (aw_vecs w !! x) as [ts|] eqn:Ex; [|done]. destruct (aw_vecs w !! y) as [ss|] eqn:Ey; [|done].
    destruct (decide (x = y)) as [|Hn]; [exact W|].
    destruct (pairs _ _ _ _ _ _) as [[[[ts' ss'] k'] th]|] eqn:Q; [|done]. apply pairs_steps in Q as (nt & ns & -> & -> & Q). cbn [app].
    destruct (proj1 W y ss Ey) as (A1 & A2 & A3). destruct (proj1 W x ts Ex) as (B1 & B2 & B3).
    destruct (steps_ok _ _ _ _ _ _ _ _ F Q) as (K & I & N & O). destruct (O B3 A3) as [O1 O2].
    assert (Hx : ids_of w x = all_ids ts) by (unfold ids_of; by rewrite Ex).
    assert (Hy : ids_of w y = all_ids ss) by (unfold ids_of; by rewrite Ey).
    enough (winv (AW (<[x := nt]> (<[y := ns]> (aw_vecs w))) k')) by (by destruct th).
    apply upd2; try done.
    - intros b B. rewrite Hx, Hy. rewrite <- elem_of_app. destruct (I b B); auto.
    - apply N.
      + intros b. rewrite elem_of_app. intros [B|B]; auto.
      + apply NoDup_app. split; [done|]. split; [|done]. intros b C1 C2. by apply (proj2 W x y ts ss b).
  Qed.
  (** new columns *)
  Lemma a_cols_ok els : forall done a k cs k', a_cols alloc done els a k = Some (cs, k') ->
    exists l, cs = done ++ l /\ map c_els l = els /\ (forall c, c ∈ l -> c_al c = a) /\ Forall own l /\ k <= k' /\
      NoDup (all_ids l) /\ (forall b, b ∈ all_ids l -> k <= b < k').
  Proof.
    induction els as [|e els IH]; intros done a k cs k' H; cbn in H.
    - injection H as <- <-. exists []. rewrite app_nil_r. split; [done|]. split; [done|]. split; [intros c Hc; by apply elem_of_nil in Hc|].
      split; [constructor|]. split; [lia|]. split; [constructor|]. intros b Hb. by apply elem_of_nil in Hb.
    - destruct (fresh alloc e a k) as [[c k1]|] eqn:E; [|discriminate]. apply IH in H as (l & -> & H1 & H2 & H3 & H4 & H5 & H6).
      apply fresh_ok in E as (E1 & E2 & E3). exists (c :: l). split; [by rewrite <- app_assoc|]. split; [cbn; congruence|].
      split; [intros d [->|Hd]%elem_of_cons; auto|]. rewrite all_ids_cons.
      assert (forall b, b ∈ ids c -> b = k /\ k1 = S k) as Hc.
      { intros b. unfold ids. destruct E3 as [[-> ->]|[-> ->]]; [intros B; by apply elem_of_nil in B|]. intros B. apply elem_of_list_singleton in B. auto. }
      split; [constructor; [|done]; intros b a' Hb; destruct E3 as [[E3 _]|[E3 _]]; congruence|].
      assert (k <= k1) by (destruct E3 as [[_ ->]|[_ ->]]; lia). split; [lia|]. split.
      + apply NoDup_app. split; [unfold ids; destruct (c_buf c) as [[? ?]|]; [apply NoDup_singleton|constructor]|]. split; [|done].
        intros b B1 B2. apply Hc in B1 as [-> ->]. apply H6 in B2. lia.
      + intros b. rewrite elem_of_app. intros [B|B]; [apply Hc in B as [-> ->]; lia|apply H6 in B; lia].
  Qed.
  Lemma a_new_winv x els a w : winv w -> keeps_winv (a_new alloc x els a w).
  Proof.
    intros W. unfold a_new. destruct (a_cols _ _ _ _ _) as [[cs k']|] eqn:E; [|exact W].
    apply a_cols_ok in E as (l & -> & _ & _ & O & K & N & I). cbn. apply upd1; auto.
  Qed.
  Lemma a_assign_values_winv x els w : winv w -> keeps_winv (a_assign_values tr alloc reuse left x els w).
  Proof.
    intros W. unfold a_assign_values. destruct (dflt tr) as [a|]; [|done]. destruct (aw_vecs w !! x) as [ts|] eqn:Ex; [|done].
    destruct (a_cols _ _ _ _ _) as [[cs k1]|] eqn:E; [|exact W]. apply a_cols_ok in E as (l & -> & _ & _ & O & K & N & I). cbn [app].
    destruct (pairs _ _ _ _ _ _) as [[[[ts' ss'] k'] th]|] eqn:Q; [|done]. apply pairs_steps in Q as (nt & ns & -> & -> & Q). cbn [app].
    destruct (proj1 W x ts Ex) as (B1 & B2 & B3). destruct (steps_ok _ _ _ _ _ _ _ _ v_move_assign_ok Q) as (K' & I' & N' & O').
    destruct (O' B3 O) as [O1 _]. assert (Hx : ids_of w x = all_ids ts) by (unfold ids_of; by rewrite Ex).
    enough (winv (AW (<[x := nt]> (aw_vecs w)) k')) by (by destruct th). apply upd1; [done|lia| | |done].
    - intros b B. rewrite Hx. destruct (I' b) as [C|C]; [rewrite elem_of_app; auto| |right; lia].
      apply elem_of_app in C as [C|C]; [auto|]. apply I in C. right. lia.
    - enough (NoDup (all_ids nt ++ all_ids ns)) as D by (by apply NoDup_app in D as (D & _)). apply N'.
      + intros b. rewrite elem_of_app. intros [C|C]; [apply B2 in C; lia|apply I in C; lia].
      + apply NoDup_app. split; [done|]. split; [|done]. intros b C1 C2. apply B2 in C1. apply I in C2. lia.
  Qed.
  Lemma swap_cols_ok ts : forall ss a b, swap_cols tr ts ss = Some (a, b) -> a = ss /\ b = ts.
  Proof.
    induction ts as [|t ts IH]; intros [|s ss] a b H; cbn in H; try discriminate; [by injection H as <- <-|].
    destruct (pocs tr || bool_decide (c_al t = c_al s)); [|discriminate]. destruct (swap_cols tr ts ss) as [[a' b']|] eqn:E; [|discriminate].
    injection H as <- <-. destruct (IH _ _ _ E) as [-> ->]. done.
  Qed.
  Lemma a_swap_winv x y w : winv w -> keeps_winv (a_swap tr x y w).
  Proof.
    intros W. unfold a_swap. destruct (aw_vecs w !! x) as [ts|] eqn:Ex; [|done]. destruct (aw_vecs w !! y) as [ss|] eqn:Ey; [|done].
    destruct (swap_cols tr ts ss) as [[a b]|] eqn:E; [|done]. apply swap_cols_ok in E as [-> ->]. cbn. destruct (decide (x = y)) as [|Hn]; [done|].
    destruct (proj1 W y ss Ey) as (A1 & A2 & A3). destruct (proj1 W x ts Ex) as (B1 & B2 & B3). apply (upd2 w y x); try done.
    - intros c. rewrite elem_of_app. unfold ids_of. rewrite Ex, Ey. tauto.
    - apply NoDup_app. split; [done|]. split; [|done]. intros c C1 C2. by apply (proj2 W x y ts ss c).
  Qed.
  Lemma put_els_ok cols : forall els k cs k', put_els reuse cols els k = (cs, k') ->
    k <= k' /\ (forall b, b ∈ all_ids cs -> b ∈ all_ids cols \/ k <= b < k') /\
    ((forall b, b ∈ all_ids cols -> b < k) -> NoDup (all_ids cols) -> NoDup (all_ids cs)) /\ (Forall own cols -> Forall own cs) /\
    (length els = length cols -> map c_els cs = els /\ map c_al cs = map c_al cols).
  Proof.
    induction cols as [|c cols IH]; intros [|l els] k cs k' H; cbn in H.
    1,2,3: injection H as <- <-; (split; [lia|]); (split; [intros b B; by apply elem_of_nil in B|]); (split; [constructor|]); split; [constructor|]; by intros.
    destruct (put_els reuse cols els (S k)) as [tl k1] eqn:E. injection H as <- <-. apply IH in E as (K & I & N & O & M). clear IH.
    set (c' := if bool_decide _ then _ else _). 
    assert (Hc : forall b, b ∈ ids c' -> b ∈ ids c \/ b = k).
    { intros b. unfold c'. destruct (bool_decide _); [auto|]. destruct (reuse k); [auto|]. unfold ids at 1. cbn. rewrite elem_of_list_singleton. auto. }
    assert (Hs : NoDup (ids c')) by (unfold ids; destruct (c_buf c') as [[? ?]|]; [apply NoDup_singleton|constructor]).
    rewrite !all_ids_cons. split; [lia|]. split; [|split; [|split]].
    - intros b. rewrite !elem_of_app. intros [B|B]; [destruct (Hc b B) as [?| ->]; [auto|right; lia]|]. destruct (I b B); [auto|right; lia].
    - intros L D. apply NoDup_app in D as (D1 & D2 & D3). apply NoDup_app. split; [done|]. split.
      + intros b B1 B2. destruct (Hc b B1) as [B|B].
        * destruct (I b B2) as [B'|B']; [by apply (D2 b)|]. specialize (L b). rewrite elem_of_app in L. specialize (L (or_introl B)). lia.
        * subst b. destruct (I k B2) as [B'|B']; [|lia]. specialize (L k). rewrite elem_of_app in L. specialize (L (or_intror B')). lia.
      + apply N; [|done]. intros b B. specialize (L b). rewrite elem_of_app in L. specialize (L (or_intror B)). lia.
    - intros F. apply Forall_cons in F as [F1 F2]. constructor; [|auto]. unfold c'. destruct (bool_decide _); [done|].
      destruct (reuse k); intros b a; cbn; [apply F1|congruence].
    - intros L. destruct (M ltac:(cbn in L; lia)) as [M1 M2]. cbn [map]. rewrite M1, M2. split.
      + f_equal. unfold c'. case_bool_decide; [done|]. by destruct (reuse k).
      + f_equal. unfold c'. case_bool_decide; [done|]. by destruct (reuse k).
  Qed.
  Lemma a_edit_winv x m w : winv w -> keeps_winv (a_edit reuse x m w).
  Proof.
    intros W. unfold a_edit. destruct (aw_vecs w !! x) as [cs|] eqn:Ex; [|done]. destruct (m _) as [els|]; [|done].
    destruct (put_els reuse cs els (aw_next w)) as [cs' k'] eqn:E. apply put_els_ok in E as (K & I & N & O & _). cbn.
    destruct (proj1 W x cs Ex) as (B1 & B2 & B3). apply upd1; auto. unfold ids_of. by rewrite Ex.
  Qed.
  Lemma step_winv o w : winv w -> keeps_winv (step o w).
  Proof.
    intros W. destruct o; cbn [astep].
    - by apply a_new_winv.
    - destruct (dflt tr); [by apply a_new_winv|done].
    - apply a_from_winv; [apply v_copy_ok|done].
    - apply a_from_winv; [apply v_copy_ok|done].
    - apply a_from_winv; [apply v_move_ok|done].
    - apply a_from_winv; [apply v_move_with_ok|done].
    - apply a_assign_winv; [apply v_copy_assign_ok|done].
    - destruct (decide (x = y)); [done|]. apply a_assign_winv; [apply v_move_assign_ok|done].
    - by apply a_swap_winv.
    - by apply a_assign_values_winv.
    - by apply a_edit_winv.
  Qed.
  Lemma program_winv N w : a_program tr alloc reuse left N w -> winv w.
  Proof.
    induction 1 as [|o w w' H IH _ E|o w w' H IH _ E].
    - split; cbn; [intros x cols E; by rewrite lookup_empty in E|intros x y cx cy b _ E; by rewrite lookup_empty in E].
    - pose proof (step_winv o w IH) as Q. by rewrite E in Q.
    - pose proof (step_winv o w IH) as Q. by rewrite E in Q.
  Qed.
  Lemma nodup_ids cols i j c d b a a' : NoDup (all_ids cols) -> cols !! i = Some c -> cols !! j = Some d ->
    c_buf c = Some (b, a) -> c_buf d = Some (b, a') -> i = j.
  Proof.
    revert i j. induction cols as [|e cols IH]; intros i j N E1 E2 B1 B2; [done|]. rewrite all_ids_cons in N. apply NoDup_app in N as (N1 & N2 & N3).
    destruct i as [|i], j as [|j]; cbn in E1, E2; [done| | |f_equal; by apply IH].
    - exfalso. simplify_eq. apply (N2 b); [unfold ids; rewrite B1; by left|]. apply all_ids_in. exists d, a'. split; [by eapply elem_of_list_lookup_2|done].
    - exfalso. simplify_eq. apply (N2 b); [unfold ids; rewrite B2; by left|]. apply all_ids_in. exists c, a. split; [by eapply elem_of_list_lookup_2|done].
  Qed.
  Lemma storage_ok N w : a_program tr alloc reuse left N w ->
    (forall x j b a, holds_storage w x j b a -> exists cols c, aw_vecs w !! x = Some cols /\ cols !! j = Some c /\ c_al c = a) /\
    (forall x y i j b a a', holds_storage w x i b a -> holds_storage w y j b a' -> x = y /\ i = j).
  Proof.
    intros H. apply program_winv in H as [W1 W2]. split.
    - intros x j b a (cols & c & E & Ej & B). exists cols, c. split; [done|]. split; [done|]. destruct (W1 x cols E) as (_ & _ & O).
      rewrite Forall_forall in O. symmetry. exact (O c ltac:(by eapply elem_of_list_lookup_2) b a B).
    - intros x y i j b a a' (cx & c & E1 & Ei & B1) (cy & d & E2 & Ej & B2). destruct (decide (x = y)) as [->|Hn].
      + split; [done|]. assert (cy = cx) as -> by congruence. destruct (W1 y cx E1) as (N1 & _). by apply (nodup_ids cx i j c d b a a').
      + exfalso. apply (W2 x y cx cy b Hn E1 E2); apply all_ids_in; [exists c, a|exists d, a']; (split; [by eapply elem_of_list_lookup_2|done]).
  Qed.

  (** ** allocators and elements *)
  Record rule (f : acol -> acol -> nat -> option (acol * acol * nat)) (h : nat -> nat -> nat) : Prop := {
    r_al : forall t s k t' s' k', f t s k = Some (t', s', k') -> c_al t' = h (c_al t) (c_al s) /\ c_al s' = c_al s;
    r_els : forall t s k t' s' k', f t s k = Some (t', s', k') -> c_els t' = c_els s }.
  Lemma fresh_rule (a : acol -> nat) (h : nat -> nat) : (forall s, a s = h (c_al s)) -> rule (v_copy alloc a) (fun _ b => h b).
  Proof.
    intros Ha. split; intros t s k t' s' k'; unfold v_copy; destruct (fresh _ _ _ _) as [[c k1]|] eqn:E; try discriminate; intros [= <- <- <-];
      apply fresh_ok in E as (E1 & E2 & _); [rewrite E2, Ha|]; auto.
  Qed.
  Lemma v_move_rule : rule v_move (fun _ b => b).
  Proof. split; intros t s k t' s' k' [= <- <- <-]; auto. Qed.
  Lemma v_move_with_rule a : rule (v_move_with alloc left a) (fun _ _ => a).
  Proof.
    split; intros t s k t' s' k'; unfold v_move_with; (destruct (decide (a = c_al s)) as [->|]; [intros [= <- <- <-]; auto|]);
      (destruct (fresh _ _ _ _) as [[c k1]|] eqn:E; [|discriminate]); intros [= <- <- <-]; apply fresh_ok in E as (E1 & E2 & _); auto.
  Qed.
  Lemma v_copy_assign_rule : rule (v_copy_assign tr alloc reuse) (fun a b => if pocca tr then b else a).
  Proof.
    split; intros t s k t' s' k'; unfold v_copy_assign; (destruct (refill _ _ _ _ _ _) as [[c k1]|] eqn:E; [|discriminate]); intros [= <- <- <-];
      apply refill_ok in E as (E1 & E2 & _); auto.
  Qed.
  Lemma v_move_assign_rule : rule (v_move_assign tr alloc reuse left) (fun a b => if pocma tr then b else a).
  Proof.
    split; intros t s k t' s' k'; unfold v_move_assign; (destruct (pocma tr); [intros [= <- <- <-]; auto|]);
      (destruct (decide (c_al t = c_al s)) as [Heq|]; [intros [= <- <- <-]; rewrite ?Heq; auto|]);
      (destruct (refill _ _ _ _ _ _) as [[c k1]|] eqn:E; [|discriminate]); intros [= <- <- <-];
      apply refill_ok in E as (E1 & E2 & _); auto.
  Qed.
  Lemma steps_rule f h ts ss k ts' ss' k' : rule f h -> steps f ts ss k ts' ss' k' false ->
    map c_els ts' = map c_els ss /\ map c_al ss' = map c_al ss /\
    forall a b, (forall c, c ∈ ts -> c_al c = a) -> (forall c, c ∈ ss -> c_al c = b) -> forall c, c ∈ ts' -> c_al c = h a b.
  Proof.
    intros R. remember false as th eqn:Hth. induction 1 as [k|t ts s ss k E|t ts s ss k t' s' k1 ts' ss' k' th E S IH]; [|discriminate|].
    - split; [done|]. split; [done|]. intros a b _ _ c Hc. by apply elem_of_nil in Hc.
    - destruct (IH Hth) as (I1 & I2 & I3). destruct (r_al _ _ R _ _ _ _ _ _ E) as [E1 E2]. split; [cbn; f_equal; [by apply (r_els _ _ R _ _ _ _ _ _ E)|done]|].
      split; [cbn; by f_equal|]. intros a b Ha Hb c [->|Hc]%elem_of_cons.
      + rewrite E1. f_equal; [apply Ha|apply Hb]; by left.
      + apply (I3 a b); [intros d Hd; apply Ha; by right|intros d Hd; apply Hb; by right|done].
  Qed.
  Lemma al_map l m a : map c_al l = map c_al m -> (forall c, c ∈ m -> c_al c = a) -> forall c, c ∈ l -> c_al c = a.
  Proof.
    intros E H c Hc. apply elem_of_list_lookup in Hc as [i Hi]. assert (map c_al m !! i = Some (c_al c)) as Q by (rewrite <- E, list_lookup_fmap, Hi; done).
    rewrite list_lookup_fmap in Q. destruct (m !! i) as [d|] eqn:Ed; [|done]. cbn in Q. injection Q as <-. apply H. by eapply elem_of_list_lookup_2.
  Qed.
  Lemma al_stolen ss a : (forall c, c ∈ ss -> c_al c = a) -> forall c, c ∈ map stolen ss -> c_al c = a.
  Proof. intros H. apply (al_map _ ss); [|exact H]. rewrite map_map. by apply map_ext. Qed.

  (** what a constructor from y does, and an assignment *)
  Lemma a_from_inv f x y w w' : a_from f x y w = AOk w' -> exists ss ts' ss' k',
    x <> y /\ aw_vecs w !! y = Some ss /\ steps f (map stolen ss) ss (aw_next w) ts' ss' k' false /\ w' = AW (<[x := ts']> (<[y := ss']> (aw_vecs w))) k'.
  Proof.
    unfold a_from. destruct (decide (x = y)) as [|Hn]; [discriminate|]. destruct (aw_vecs w !! y) as [ss|] eqn:E; [|discriminate].
    destruct (pairs _ _ _ _ _ _) as [[[[ts' ss'] k'] th]|] eqn:Q; [|discriminate]. apply pairs_steps in Q as (nt & ns & -> & -> & Q). cbn [app].
    destruct th; [discriminate|]. intros [= <-]. by exists ss, nt, ns, k'.
  Qed.
  Lemma a_assign_inv f x y w w' : a_assign f x y w = AOk w' ->
    (exists cols, aw_vecs w !! x = Some cols /\ x = y /\ w' = w) \/ exists ts ss ts' ss' k',
    x <> y /\ aw_vecs w !! x = Some ts /\ aw_vecs w !! y = Some ss /\ steps f ts ss (aw_next w) ts' ss' k' false /\
    w' = AW (<[x := ts']> (<[y := ss']> (aw_vecs w))) k'.
  Proof.
    unfold a_assign. destruct (aw_vecs w !! x) as [ts|] eqn:Ex; [|discriminate]. destruct (aw_vecs w !! y) as [ss|] eqn:Ey; [|discriminate].
    destruct (decide (x = y)) as [|Hn]; [intros [= <-]; left; by exists ts|].
    destruct (pairs _ _ _ _ _ _) as [[[[ts' ss'] k'] th]|] eqn:Q; [|discriminate]. apply pairs_steps in Q as (nt & ns & -> & -> & Q). cbn [app].
    destruct th; [discriminate|]. intros [= <-]. right. by exists ts, ss, nt, ns, k'.
  Qed.
  Definition tracks (N : nat) (w : aworld) (g : gmap nat nat) : Prop :=
    forall x, match g !! x with Some a => uses N w x a | None => aw_vecs w !! x = None end.
  Lemma tracks_vec N w g x cols : tracks N w g -> aw_vecs w !! x = Some cols ->
    exists a, g !! x = Some a /\ length cols = N /\ forall c, c ∈ cols -> c_al c = a.
  Proof.
    intros T E. specialize (T x). destruct (g !! x) as [a|] eqn:G; [|congruence]. destruct T as (cols' & E' & L & A).
    assert (cols' = cols) as -> by congruence. eauto.
  Qed.
  Lemma tracks_ins2 N w g x y ts' ss' k a b : tracks N w g -> x <> y ->
    length ts' = N -> (forall c, c ∈ ts' -> c_al c = a) -> length ss' = N -> (forall c, c ∈ ss' -> c_al c = b) ->
    tracks N (AW (<[x := ts']> (<[y := ss']> (aw_vecs w))) k) (<[x := a]> (<[y := b]> g)).
  Proof.
    intros T Hn L1 A1 L2 A2 z. destruct (decide (z = x)) as [->|Hx].
    - rewrite lookup_insert. exists ts'. cbn. by rewrite lookup_insert.
    - rewrite lookup_insert_ne by done. destruct (decide (z = y)) as [->|Hy].
      + rewrite lookup_insert. exists ss'. cbn. by rewrite lookup_insert_ne, lookup_insert.
      + rewrite lookup_insert_ne by done. specialize (T z). unfold uses. cbn. by rewrite !lookup_insert_ne.
  Qed.
  Lemma tracks_ins1 N w g x ts' k a : tracks N w g -> length ts' = N -> (forall c, c ∈ ts' -> c_al c = a) ->
    tracks N (AW (<[x := ts']> (aw_vecs w)) k) (<[x := a]> g).
  Proof.
    intros T L1 A1 z. destruct (decide (z = x)) as [->|Hx].
    - rewrite lookup_insert. exists ts'. cbn. by rewrite lookup_insert.
    - rewrite lookup_insert_ne by done. specialize (T z). unfold uses. cbn. by rewrite !lookup_insert_ne.
  Qed.
  Lemma tracks_from N f h x y w w' g : rule f h -> tracks N w g -> a_from f x y w = AOk w' ->
    exists b, g !! y = Some b /\ x <> y /\ tracks N w' (<[x := h b b]> g).
  Proof.
    intros R T E. apply a_from_inv in E as (ss & ts' & ss' & k' & Hn & Ey & S & ->). destruct (tracks_vec _ _ _ _ _ T Ey) as (b & G & L & A).
    exists b. split; [done|]. split; [done|]. destruct (steps_rule _ _ _ _ _ _ _ _ R S) as (_ & S2 & S3). destruct (steps_length _ _ _ _ _ _ _ _ S) as [L1 L2].
    rewrite map_length in L1.
    replace (<[x := h b b]> g) with (<[x := h b b]> (<[y := b]> g)) by (f_equal; by apply insert_id).
    apply tracks_ins2; [done|done|congruence| |congruence|].
    - apply S3; [by apply al_stolen|done].
    - by apply (al_map _ ss).
  Qed.
  Lemma tracks_assign N f h x y w w' g : rule f h -> tracks N w g -> a_assign f x y w = AOk w' ->
    (x = y /\ w' = w) \/ exists a b, g !! x = Some a /\ g !! y = Some b /\ x <> y /\ tracks N w' (<[x := h a b]> g).
  Proof.
    intros R T E. apply a_assign_inv in E as [(cols & _ & -> & ->)|(ts & ss & ts' & ss' & k' & Hn & Ex & Ey & S & ->)]; [auto|right].
    destruct (tracks_vec _ _ _ _ _ T Ey) as (b & G & L & A). destruct (tracks_vec _ _ _ _ _ T Ex) as (a & Gx & Lx & Ax).
    exists a, b. split; [done|]. split; [done|]. split; [done|]. destruct (steps_rule _ _ _ _ _ _ _ _ R S) as (_ & S2 & S3). destruct (steps_length _ _ _ _ _ _ _ _ S) as [L1 L2].
    replace (<[x := h a b]> g) with (<[x := h a b]> (<[y := b]> g)) by (f_equal; by apply insert_id).
    apply tracks_ins2; [done|done|congruence|by apply S3|congruence|by apply (al_map _ ss)].
  Qed.
  Lemma tracks_new N x els a w w' g : length els = N -> tracks N w g -> a_new alloc x els a w = AOk w' -> tracks N w' (<[x := a]> g).
  Proof.
    intros L T. unfold a_new. destruct (a_cols _ _ _ _ _) as [[cs k']|] eqn:E; [|discriminate]. intros [= <-].
    apply a_cols_ok in E as (l & -> & E1 & E2 & _). apply tracks_ins1; [done| |done]. cbn. by rewrite <- (map_length c_els l), E1.
  Qed.
  Lemma alter_some (g : gmap nat nat) x a : partial_alter (fun _ => Some a) x g = <[x := a]> g.
  Proof. done. Qed.
  Lemma alter_self (g : gmap nat nat) x : partial_alter (fun _ => g !! x) x g = g.
  Proof. by apply partial_alter_self. Qed.

  Lemma step_tracks N o w w' g : tracks N w g -> aop_wf N o -> assign_keeps tr o g -> step o w = AOk w' -> tracks N w' (aspec tr o g).
  Proof.
    intros T W K. destruct o as [x els a|x els|x y|x y a|x y|x y a|x y|x y|x y|x els|x m]; cbn [astep aspec].
    - by apply tracks_new.
    - destruct (dflt tr) as [a|]; [|discriminate]. by apply tracks_new.
    - intros E. destruct (tracks_from N _ (fun _ b => socc tr b) _ _ _ _ _ (fresh_rule _ (socc tr) (fun _ => eq_refl)) T E) as (b & G & _ & T'). rewrite G. exact T'.
    - intros E. destruct (tracks_from N _ (fun _ _ => a) _ _ _ _ _ (fresh_rule _ (fun _ => a) (fun _ => eq_refl)) T E) as (b & G & _ & T'). exact T'.
    - intros E. destruct (tracks_from N _ _ _ _ _ _ _ v_move_rule T E) as (b & G & _ & T'). rewrite G. exact T'.
    - intros E. destruct (tracks_from N _ _ _ _ _ _ _ (v_move_with_rule a) T E) as (b & G & _ & T'). exact T'.
    - intros E. apply (tracks_assign N _ _ _ _ _ _ _ v_copy_assign_rule T) in E as [[-> ->]|(a & b & G1 & G2 & _ & T')].
      + destruct (pocca tr); [by rewrite alter_self|exact T].
      + destruct (pocca tr); [by rewrite G2|]. by rewrite insert_id in T'.
    - destruct (decide (x = y)); [discriminate|]. intros E. apply (tracks_assign N _ _ _ _ _ _ _ v_move_assign_rule T) in E as [[-> ->]|(a & b & G1 & G2 & _ & T')].
      + destruct (pocma tr); [by rewrite alter_self|exact T].
      + destruct (pocma tr); [by rewrite G2|]. by rewrite insert_id in T'.
    - unfold a_swap. destruct (aw_vecs w !! x) as [ts|] eqn:Ex; [|discriminate]. destruct (aw_vecs w !! y) as [ss|] eqn:Ey; [|discriminate].
      destruct (swap_cols tr ts ss) as [[p q]|] eqn:E; [|discriminate]. intros [= <-].
      destruct (tracks_vec _ _ _ _ _ T Ey) as (b & Gy & Ly & Ay). destruct (tracks_vec _ _ _ _ _ T Ex) as (a & Gx & Lx & Ax).
      pose proof (swap_cols_ok _ _ _ _ E) as [-> ->]. destruct (decide (x = y)) as [->|Hn].
      + destruct (pocs tr); [|done]. by rewrite !partial_alter_self.
      + assert (T' : tracks N (AW (<[y := ts]> (<[x := ss]> (aw_vecs w))) (aw_next w)) (<[y := a]> (<[x := b]> g))) by (apply tracks_ins2; auto).
        destruct (pocs tr) eqn:Ps; [by rewrite Gx, Gy|].
        intros z. specialize (T' z). destruct (decide (z = y)) as [->|Hy].
        * rewrite lookup_insert in T'. rewrite Gy. destruct ts as [|t ts], ss as [|s ss]; cbn in E; rewrite ?Ps in E; cbn in E; try discriminate.
          -- destruct T' as (cols & E' & L & _). exists cols. split; [done|]. split; [done|]. cbn in E'. rewrite lookup_insert in E'. injection E' as <-. intros c Hc. by apply elem_of_nil in Hc.
          -- case_bool_decide as Hts; [|discriminate]. enough (a = b) as -> by exact T'. rewrite <- (Ax t), <- (Ay s); [done|by left|by left].
        * rewrite lookup_insert_ne in T' by done. destruct (decide (z = x)) as [->|Hx]; [|by rewrite lookup_insert_ne in T'].
          rewrite lookup_insert in T'. rewrite Gx. destruct ts as [|t ts], ss as [|s ss]; cbn in E; rewrite ?Ps in E; cbn in E; try discriminate.
          -- destruct T' as (cols & E' & L & _). exists cols. split; [done|]. split; [done|]. cbn in E'. rewrite lookup_insert_ne, lookup_insert in E' by done. injection E' as <-. intros c Hc. by apply elem_of_nil in Hc.
          -- case_bool_decide as Hts; [|discriminate]. enough (a = b) as -> by exact T'. rewrite <- (Ax t), <- (Ay s); [done|by left|by left].
    - unfold a_assign_values. cbn in K. destruct (dflt tr) as [d|]; [|discriminate]. destruct (aw_vecs w !! x) as [ts|] eqn:Ex; [|discriminate].
      destruct (tracks_vec _ _ _ _ _ T Ex) as (a & Gx & Lx & Ax).
      destruct (a_cols _ _ _ _ _) as [[cs k1]|] eqn:E; [|discriminate]. apply a_cols_ok in E as (l & -> & E1 & E2 & _). cbn [app].
      destruct (pairs _ _ _ _ _ _) as [[[[ts' ss'] k'] th]|] eqn:Q; [|discriminate]. apply pairs_steps in Q as (nt & ns & -> & -> & Q). cbn [app].
      destruct th; [discriminate|]. intros [= <-]. destruct (steps_rule _ _ _ _ _ _ _ _ v_move_assign_rule Q) as (_ & _ & S3).
      destruct (steps_length _ _ _ _ _ _ _ _ Q) as [L1 L2]. specialize (S3 a d Ax E2).
      rewrite <- (insert_id g x a) by done. apply tracks_ins1; [done|congruence|]. intros c Hc. rewrite (S3 c Hc). destruct (pocma tr); [|done].
      destruct K as [K|K]; congruence.
    - unfold a_edit. destruct (aw_vecs w !! x) as [cs|] eqn:Ex; [|discriminate]. destruct (m _) as [els|] eqn:M; [|discriminate].
      destruct (tracks_vec _ _ _ _ _ T Ex) as (a & Gx & Lx & Ax). apply W in M. rewrite map_length in M.
      destruct (put_els reuse cs els (aw_next w)) as [cs' k'] eqn:E. apply put_els_ok in E as (_ & _ & _ & _ & E). intros [= <-]. destruct (E M) as [_ E2].
      rewrite <- (insert_id g x a) by done. apply tracks_ins1; [done| |by apply (al_map _ cs)]. by rewrite <- (map_length c_al), E2, map_length.
  Qed.
  (** statements that throw *)
  Lemma steps_any f h ts ss k ts' ss' k' th : rule f h -> steps f ts ss k ts' ss' k' th ->
    map c_al ss' = map c_al ss /\ ((forall a b, h a b = a) -> map c_al ts' = map c_al ts).
  Proof.
    intros R. induction 1 as [k|t ts s ss k E|t ts s ss k t' s' k1 ts' ss' k' th E S IH]; [done|done|]. destruct IH as [I1 I2].
    destruct (r_al _ _ R _ _ _ _ _ _ E) as [E1 E2]. cbn. split; [by rewrite E2, I1|]. intros H. by rewrite E1, H, I2.
  Qed.
  Lemma tracks_same N w g z cols' k cols : tracks N w g -> aw_vecs w !! z = Some cols -> map c_al cols' = map c_al cols ->
    tracks N (AW (<[z := cols']> (aw_vecs w)) k) g.
  Proof.
    intros T E M. destruct (tracks_vec _ _ _ _ _ T E) as (a & G & L & A). rewrite <- (insert_id g z a) by done.
    apply tracks_ins1; [done| |by apply (al_map _ cols)]. by rewrite <- (map_length c_al), M, map_length.
  Qed.
  Lemma tracks_from_throw N f h x y w w' g : rule f h -> tracks N w g -> a_from f x y w = AThrow w' -> tracks N w' g.
  Proof.
    intros R T. unfold a_from. destruct (decide (x = y)) as [|Hn]; [discriminate|]. destruct (aw_vecs w !! y) as [ss|] eqn:E; [|discriminate].
    destruct (pairs _ _ _ _ _ _) as [[[[ts' ss'] k'] th]|] eqn:Q; [|discriminate]. apply pairs_steps in Q as (nt & ns & -> & -> & Q). cbn [app].
    destruct th; [|discriminate]. intros [= <-]. apply (tracks_same _ _ _ _ _ _ ss); [done|done|]. by apply (steps_any _ _ _ _ _ _ _ _ _ R) in Q as [Q _].
  Qed.
  Lemma tracks_assign_throw N f h x y w w' g : rule f h -> (forall a b, h a b = a) -> tracks N w g -> a_assign f x y w = AThrow w' -> tracks N w' g.
  Proof.
    intros R Hh T. unfold a_assign. destruct (aw_vecs w !! x) as [ts|] eqn:Ex; [|discriminate]. destruct (aw_vecs w !! y) as [ss|] eqn:Ey; [|discriminate].
    destruct (decide (x = y)) as [|Hn]; [discriminate|].
    destruct (pairs _ _ _ _ _ _) as [[[[ts' ss'] k'] th]|] eqn:Q; [|discriminate]. apply pairs_steps in Q as (nt & ns & -> & -> & Q). cbn [app].
    destruct th; [|discriminate]. intros [= <-]. apply (steps_any _ _ _ _ _ _ _ _ _ R) in Q as [Q1 Q2].
    change (tracks N (AW (<[x := nt]> (aw_vecs (AW (<[y := ns]> (aw_vecs w)) k'))) k') g).
    apply (tracks_same N (AW (<[y := ns]> (aw_vecs w)) k') g x nt k' ts); [by apply (tracks_same _ _ _ _ _ _ ss)| |by apply Q2].
    cbn. by rewrite lookup_insert_ne.
  Qed.
  Lemma move_assign_nothrow ts ss k ts' ss' k' : pocma tr = true -> ~ steps (v_move_assign tr alloc reuse left) ts ss k ts' ss' k' true.
  Proof.
    intros Pm H. remember true as th eqn:Hth. induction H as [k|t ts s ss k E|t ts s ss k t' s' k1 ts' ss' k' th E S IH]; [discriminate| |by apply IH].
    unfold v_move_assign in E. by rewrite Pm in E.
  Qed.
  Lemma step_tracks_throw N o w w' g : tracks N w g -> throw_keeps tr o -> step o w = AThrow w' -> tracks N w' g.
  Proof.
    intros T K. destruct o as [x els a|x els|x y|x y a|x y|x y a|x y|x y|x y|x els|x m]; cbn [astep].
    - unfold a_new. destruct (a_cols _ _ _ _ _) as [[cs k']|]; [discriminate|]. by intros [= <-].
    - destruct (dflt tr) as [a|]; [|discriminate]. unfold a_new. destruct (a_cols _ _ _ _ _) as [[cs k']|]; [discriminate|]. by intros [= <-].
    - apply (tracks_from_throw N _ _ _ _ _ _ _ (fresh_rule _ (socc tr) (fun _ => eq_refl)) T).
    - apply (tracks_from_throw N _ _ _ _ _ _ _ (fresh_rule _ (fun _ => a) (fun _ => eq_refl)) T).
    - apply (tracks_from_throw N _ _ _ _ _ _ _ v_move_rule T).
    - apply (tracks_from_throw N _ _ _ _ _ _ _ (v_move_with_rule a) T).
    - apply (tracks_assign_throw N _ _ _ _ _ _ _ v_copy_assign_rule); [|done]. intros a b. cbn in K. by rewrite K.
    - destruct (decide (x = y)) as [|Hxy]; [discriminate|]. destruct (pocma tr) eqn:Pm.
      + unfold a_assign. destruct (aw_vecs w !! x) as [ts|] eqn:Ex; [|discriminate]. destruct (aw_vecs w !! y) as [ss|] eqn:Ey; [|discriminate].
        destruct (decide (x = y)) as [|Hn]; [discriminate|].
        destruct (pairs _ _ _ _ _ _) as [[[[ts' ss'] k'] th]|] eqn:Q; [|discriminate]. apply pairs_steps in Q as (nt & ns & -> & -> & Q).
        destruct th; [|discriminate]. by apply move_assign_nothrow in Q.
      + apply (tracks_assign_throw N _ _ _ _ _ _ _ v_move_assign_rule); [|done]. intros a b. by rewrite Pm.
    - unfold a_swap. destruct (aw_vecs w !! x) as [ts|]; [|discriminate]. destruct (aw_vecs w !! y) as [ss|]; [|discriminate]. by destruct (swap_cols tr ts ss) as [[p q]|].
    - unfold a_assign_values. destruct (dflt tr) as [d|]; [|discriminate]. destruct (aw_vecs w !! x) as [ts|] eqn:Ex; [|discriminate].
      destruct (a_cols _ _ _ _ _) as [[cs k1]|] eqn:E; [|by intros [= <-]].
      destruct (pairs _ _ _ _ _ _) as [[[[ts' ss'] k'] th]|] eqn:Q; [|discriminate]. apply pairs_steps in Q as (nt & ns & -> & -> & Q). cbn [app].
      destruct th; [|discriminate]. intros [= <-]. destruct (pocma tr) eqn:Pm; [by apply move_assign_nothrow in Q|].
      apply (tracks_same _ _ _ _ _ _ ts); [done|done|]. apply (steps_any _ _ _ _ _ _ _ _ _ v_move_assign_rule) in Q as [_ Q]. apply Q. intros a b. by rewrite Pm.
    - unfold a_edit. destruct (aw_vecs w !! x) as [cs|]; [|discriminate]. destruct (m _) as [els|]; [|discriminate]. by destruct (put_els reuse cs els (aw_next w)).
  Qed.
  Lemma history_tracks N w g : a_history tr alloc reuse left N w g ->
    forall x, (forall a, g !! x = Some a -> uses N w x a) /\ (g !! x = None -> aw_vecs w !! x = None).
  Proof.
    intros H. assert (T : tracks N w g).
    { induction H as [|o w w' g H IH W K E|o w w' g H IH W K E]; [intros x; by rewrite lookup_empty|by apply (step_tracks N o w w' g)|by apply (step_tracks_throw N o w w' g)]. }
    intros x. specialize (T x). split; [intros a G|intros G]; by rewrite G in T.
  Qed.

  (** ** elements *)
  Lemma copy_src a ts ss k ts' ss' k' th : steps (v_copy alloc a) ts ss k ts' ss' k' th -> ss' = ss.
  Proof.
    induction 1 as [k|t ts s ss k E|t ts s ss k t' s' k1 ts' ss' k' th E S IH]; [done|done|]. rewrite IH. f_equal.
    unfold v_copy in E. destruct (fresh _ _ _ _) as [[c k2]|]; [|discriminate]. by injection E as _ <- _.
  Qed.
  Lemma copy_assign_src ts ss k ts' ss' k' th : steps (v_copy_assign tr alloc reuse) ts ss k ts' ss' k' th -> ss' = ss.
  Proof.
    induction 1 as [k|t ts s ss k E|t ts s ss k t' s' k1 ts' ss' k' th E S IH]; [done|done|]. rewrite IH. f_equal.
    unfold v_copy_assign in E. destruct (refill _ _ _ _ _ _) as [[c k2]|]; [|discriminate]. by injection E as _ <- _.
  Qed.
  Lemma els_ins2 w x y ts' ss' k : x <> y -> elements_of (AW (<[x := ts']> (<[y := ss']> (aw_vecs w))) k) x = Some (map c_els ts').
  Proof. intros Hn. unfold elements_of. cbn. by rewrite lookup_insert. Qed.
  Lemma elements_ok N o w w' : aop_wf N o -> step o w = AOk w' -> elements_of w' (target o) = expected o w.
  Proof.
    intros W. destruct o as [x els a|x els|x y|x y a|x y|x y a|x y|x y|x y|x els|x m]; cbn [astep target expected].
    - unfold a_new. destruct (a_cols _ _ _ _ _) as [[cs k']|] eqn:E; [|discriminate]. intros [= <-].
      apply a_cols_ok in E as (l & -> & E1 & _). unfold elements_of. cbn. rewrite lookup_insert. cbn. by rewrite E1.
    - destruct (dflt tr) as [a|]; [|discriminate]. unfold a_new. destruct (a_cols _ _ _ _ _) as [[cs k']|] eqn:E; [|discriminate]. intros [= <-].
      apply a_cols_ok in E as (l & -> & E1 & _). unfold elements_of. cbn. rewrite lookup_insert. cbn. by rewrite E1.
    - intros E. apply a_from_inv in E as (ss & ts' & ss' & k' & Hn & Ey & S & ->). rewrite els_ins2 by done. unfold elements_of. rewrite Ey.
      cbn. f_equal. exact (proj1 (steps_rule _ _ _ _ _ _ _ _ (fresh_rule _ (socc tr) (fun _ => eq_refl)) S)).
    - intros E. apply a_from_inv in E as (ss & ts' & ss' & k' & Hn & Ey & S & ->). rewrite els_ins2 by done. unfold elements_of. rewrite Ey.
      cbn. f_equal. exact (proj1 (steps_rule _ _ _ _ _ _ _ _ (fresh_rule _ (fun _ => a) (fun _ => eq_refl)) S)).
    - intros E. apply a_from_inv in E as (ss & ts' & ss' & k' & Hn & Ey & S & ->). rewrite els_ins2 by done. unfold elements_of. rewrite Ey.
      cbn. f_equal. by apply (steps_rule _ _ _ _ _ _ _ _ v_move_rule) in S as [S _].
    - intros E. apply a_from_inv in E as (ss & ts' & ss' & k' & Hn & Ey & S & ->). rewrite els_ins2 by done. unfold elements_of. rewrite Ey.
      cbn. f_equal. by apply (steps_rule _ _ _ _ _ _ _ _ (v_move_with_rule a)) in S as [S _].
    - intros E. apply a_assign_inv in E as [(cols & _ & -> & ->)|(ts & ss & ts' & ss' & k' & Hn & Ex & Ey & S & ->)]; [done|].
      rewrite els_ins2 by done. unfold elements_of. rewrite Ey. cbn. f_equal. by apply (steps_rule _ _ _ _ _ _ _ _ v_copy_assign_rule) in S as [S _].
    - destruct (decide (x = y)); [discriminate|]. intros E. apply a_assign_inv in E as [(cols & _ & -> & ->)|(ts & ss & ts' & ss' & k' & Hn & Ex & Ey & S & ->)]; [done|].
      rewrite els_ins2 by done. unfold elements_of. rewrite Ey. cbn. f_equal. by apply (steps_rule _ _ _ _ _ _ _ _ v_move_assign_rule) in S as [S _].
    - unfold a_swap. destruct (aw_vecs w !! x) as [ts|] eqn:Ex; [|discriminate]. destruct (aw_vecs w !! y) as [ss|] eqn:Ey; [|discriminate].
      destruct (swap_cols tr ts ss) as [[p q]|] eqn:E; [|discriminate]. intros [= <-]. apply swap_cols_ok in E as [-> ->].
      destruct (decide (x = y)) as [->|Hn]; [done|]. unfold elements_of. cbn. rewrite lookup_insert_ne, lookup_insert, Ey by done. done.
    - unfold a_assign_values. destruct (dflt tr) as [d|]; [|discriminate]. destruct (aw_vecs w !! x) as [ts|] eqn:Ex; [|discriminate].
      destruct (a_cols _ _ _ _ _) as [[cs k1]|] eqn:E; [|discriminate]. apply a_cols_ok in E as (l & -> & E1 & E2 & _). cbn [app].
      destruct (pairs _ _ _ _ _ _) as [[[[ts' ss'] k'] th]|] eqn:Q; [|discriminate]. apply pairs_steps in Q as (nt & ns & -> & -> & Q). cbn [app].
      destruct th; [discriminate|]. intros [= <-]. destruct (steps_rule _ _ _ _ _ _ _ _ v_move_assign_rule Q) as (S1 & _ & _).
      unfold elements_of. cbn. rewrite lookup_insert. cbn. congruence.
    - unfold a_edit. destruct (aw_vecs w !! x) as [cs|] eqn:Ex; [|discriminate]. unfold elements_of at 2. rewrite Ex. cbn [fmap option_fmap option_map].
      destruct (m (map c_els cs)) as [els|] eqn:M; [|discriminate]. apply W in M. rewrite map_length in M.
      destruct (put_els reuse cs els (aw_next w)) as [cs' k'] eqn:E. apply put_els_ok in E as (_ & _ & _ & _ & E). intros [= <-]. destruct (E M) as [E1 _].
      unfold elements_of. cbn. rewrite lookup_insert. cbn. congruence.
  Qed.
  (** the other vectors, whether the statement throws or not *)
  Lemma from_others f x y w w' : a_from f x y w = AOk w' \/ a_from f x y w = AThrow w' -> forall z, z <> x -> z <> y -> aw_vecs w' !! z = aw_vecs w !! z.
  Proof.
    unfold a_from. destruct (decide (x = y)) as [|Hn]; [intros [?|?]; discriminate|]. destruct (aw_vecs w !! y) as [ss|] eqn:E; [|intros [?|?]; discriminate].
    destruct (pairs _ _ _ _ _ _) as [[[[ts' ss'] k'] [|]]|]; intros [H|H]; try discriminate; injection H as <-; intros z H1 H2; cbn; by rewrite !lookup_insert_ne.
  Qed.
  Lemma assign_others f x y w w' : a_assign f x y w = AOk w' \/ a_assign f x y w = AThrow w' -> forall z, z <> x -> z <> y -> aw_vecs w' !! z = aw_vecs w !! z.
  Proof.
    unfold a_assign. destruct (aw_vecs w !! x) as [ts|] eqn:Ex; [|intros [?|?]; discriminate]. destruct (aw_vecs w !! y) as [ss|] eqn:Ey; [|intros [?|?]; discriminate].
    destruct (decide (x = y)) as [|Hn]; [intros [H|H]; [by injection H as <-|discriminate]|].
    destruct (pairs _ _ _ _ _ _) as [[[[ts' ss'] k'] [|]]|]; intros [H|H]; try discriminate; injection H as <-; intros z H1 H2; cbn; by rewrite !lookup_insert_ne.
  Qed.
  Lemma from_copy_src a x y w w' : a_from (v_copy alloc a) x y w = AOk w' \/ a_from (v_copy alloc a) x y w = AThrow w' -> aw_vecs w' !! y = aw_vecs w !! y.
  Proof.
    unfold a_from. destruct (decide (x = y)) as [|Hn]; [intros [?|?]; discriminate|]. destruct (aw_vecs w !! y) as [ss|] eqn:E; [|intros [?|?]; discriminate].
    destruct (pairs _ _ _ _ _ _) as [[[[ts' ss'] k'] th]|] eqn:Q; [|intros [?|?]; discriminate]. apply pairs_steps in Q as (nt & ns & -> & -> & Q).
    apply copy_src in Q as ->. destruct th; intros [H|H]; try discriminate; injection H as <-; cbn; rewrite ?(lookup_insert_ne _ x y) by done; by rewrite lookup_insert.
  Qed.
  Lemma assign_copy_src x y w w' : x <> y -> a_assign (v_copy_assign tr alloc reuse) x y w = AOk w' \/ a_assign (v_copy_assign tr alloc reuse) x y w = AThrow w' ->
    aw_vecs w' !! y = aw_vecs w !! y.
  Proof.
    intros Hn. unfold a_assign. destruct (aw_vecs w !! x) as [ts|] eqn:Ex; [|intros [?|?]; discriminate]. destruct (aw_vecs w !! y) as [ss|] eqn:Ey; [|intros [?|?]; discriminate].
    destruct (decide (x = y)) as [|_]; [done|]. destruct (pairs _ _ _ _ _ _) as [[[[ts' ss'] k'] th]|] eqn:Q; [|intros [?|?]; discriminate]. apply pairs_steps in Q as (nt & ns & -> & -> & Q).
    apply copy_assign_src in Q as ->. destruct th; intros [H|H]; try discriminate; injection H as <-; cbn; rewrite ?(lookup_insert_ne _ x y) by done; by rewrite lookup_insert.
  Qed.
  Lemma new_others x els a w w' : a_new alloc x els a w = AOk w' \/ a_new alloc x els a w = AThrow w' -> forall z, z <> x -> aw_vecs w' !! z = aw_vecs w !! z.
  Proof.
    unfold a_new. destruct (a_cols _ _ _ _ _) as [[cs k']|]; intros [H|H]; try discriminate; injection H as <-; intros z Hz; [cbn; by rewrite lookup_insert_ne|done].
  Qed.
  Lemma others_ok o w w' : step o w = AOk w' \/ step o w = AThrow w' ->
    forall z, z <> target o -> taken o <> Some z -> aw_vecs w' !! z = aw_vecs w !! z.
  Proof.
    intros E z Hz Ht. destruct o as [x els a|x els|x y|x y a|x y|x y a|x y|x y|x y|x els|x m]; cbn [astep target taken] in *.
    - by apply (new_others _ _ _ _ _ E).
    - destruct (dflt tr) as [a|]; [|destruct E; discriminate]. by apply (new_others _ _ _ _ _ E).
    - destruct (decide (z = y)) as [->|Hy]; [by apply (from_copy_src _ _ _ _ _ E)|by apply (from_others _ _ _ _ _ E)].
    - destruct (decide (z = y)) as [->|Hy]; [by apply (from_copy_src _ _ _ _ _ E)|by apply (from_others _ _ _ _ _ E)].
    - apply (from_others _ _ _ _ _ E); congruence.
    - apply (from_others _ _ _ _ _ E); congruence.
    - destruct (decide (z = y)) as [->|Hy]; [by apply (assign_copy_src x y w w' (not_eq_sym Hz) E)|by apply (assign_others _ _ _ _ _ E)].
    - destruct (decide (x = y)); [destruct E; discriminate|]. apply (assign_others _ _ _ _ _ E); congruence.
    - unfold a_swap in E. destruct (aw_vecs w !! x) as [ts|] eqn:Ex; [|destruct E; discriminate]. destruct (aw_vecs w !! y) as [ss|] eqn:Ey; [|destruct E; discriminate].
      destruct (swap_cols tr ts ss) as [[p q]|]; destruct E as [E|E]; try discriminate. injection E as <-. destruct (decide (x = y)); [done|].
      cbn. rewrite !lookup_insert_ne; congruence.
    - unfold a_assign_values in E. destruct (dflt tr) as [d|]; [|destruct E; discriminate]. destruct (aw_vecs w !! x) as [ts|] eqn:Ex; [|destruct E; discriminate].
      destruct (a_cols _ _ _ _ _) as [[cs k1]|]; [|destruct E as [E|E]; [discriminate|by injection E as <-]].
      destruct (pairs _ _ _ _ _ _) as [[[[ts' ss'] k'] [|]]|]; destruct E as [E|E]; try discriminate; injection E as <-; cbn; by rewrite lookup_insert_ne.
    - unfold a_edit in E. destruct (aw_vecs w !! x) as [cs|] eqn:Ex; [|destruct E; discriminate]. destruct (m (map c_els cs)) as [els|]; [|destruct E; discriminate].
      destruct (put_els reuse cs els (aw_next w)) as [cs' k']. destruct E as [E|E]; [|discriminate]. injection E as <-. cbn. by rewrite lookup_insert_ne.
  Qed.
  (** a constructor that throws makes nothing *)
  Lemma constructs_ok o w w' : constructs o -> step o w = AThrow w' -> aw_vecs w' !! target o = aw_vecs w !! target o.
  Proof.
    assert (F : forall f x y, a_from f x y w = AThrow w' -> aw_vecs w' !! x = aw_vecs w !! x).
    { intros f x y. unfold a_from. destruct (decide (x = y)) as [|Hn]; [discriminate|]. destruct (aw_vecs w !! y) as [ss|] eqn:E; [|discriminate].
      destruct (pairs _ _ _ _ _ _) as [[[[ts' ss'] k'] [|]]|]; try discriminate. intros [= <-]. cbn. by rewrite lookup_insert_ne. }
    assert (M : forall x els a, a_new alloc x els a w = AThrow w' -> aw_vecs w' !! x = aw_vecs w !! x).
    { intros x els a. unfold a_new. destruct (a_cols _ _ _ _ _) as [[cs k']|]; [discriminate|]. by intros [= <-]. }
    destruct o as [x els a|x els|x y|x y a|x y|x y a|x y|x y|x y|x els|x m]; cbn [astep target constructs]; try done; intros _; [apply M| |apply F..].
    destruct (dflt tr); [apply M|discriminate].
  Qed.

  (** ** moves *)
  Lemma steps_move f ts : forall ss k, length ts = length ss ->
    (forall t s k, t ∈ ts -> s ∈ ss -> f t s k = v_move t s k) -> steps f ts ss k ss (map stolen ss) k false.
  Proof.
    induction ts as [|t ts IH]; intros [|s ss] k L F; try discriminate L; [constructor|]. cbn [map]. eapply st_cons.
    - rewrite F by left. done.
    - apply IH; [by injection L|]. intros t' s' k' H1 H2. apply F; by right.
  Qed.
  Lemma steps_pairs f ts ss k ts' ss' k' th : steps f ts ss k ts' ss' k' th -> forall dt ds, pairs f dt ds ts ss k = Some (dt ++ ts', ds ++ ss', k', th).
  Proof.
    induction 1 as [k|t ts s ss k E|t ts s ss k t' s' k1 ts' ss' k' th E S IH]; intros dt ds; cbn [pairs].
    - by rewrite !app_nil_r.
    - by rewrite E.
    - rewrite E, IH. by rewrite <- !app_assoc.
  Qed.
  Lemma stolen_empty ss c : c ∈ map stolen ss -> c_els c = [] /\ c_buf c = None.
  Proof. intros H. apply elem_of_list_fmap in H as (s & -> & _). done. Qed.
  Lemma moved_world w x y ss k : x <> y -> aw_vecs w !! y = Some ss ->
    storage_moved w (AW (<[x := ss]> (<[y := map stolen ss]> (aw_vecs w))) k) x y.
  Proof.
    intros Hn E. exists ss. split; [done|]. split; [exists ss; cbn; by rewrite lookup_insert|]. exists (map stolen ss). cbn.
    rewrite lookup_insert_ne, lookup_insert by done. split; [done|]. split; [apply map_length|]. intros c. apply stolen_empty.
  Qed.
  Lemma from_moves f x y w ss : x <> y -> aw_vecs w !! y = Some ss -> (forall t s k, s ∈ ss -> f t s k = v_move t s k) ->
    exists w', a_from f x y w = AOk w' /\ storage_moved w w' x y /\ aw_next w' = aw_next w.
  Proof.
    intros Hn E F. assert (S : steps f (map stolen ss) ss (aw_next w) ss (map stolen ss) (aw_next w) false).
    { apply steps_move; [by rewrite map_length|]. intros t s k _. apply F. }
    unfold a_from. destruct (decide (x = y)); [done|]. rewrite E, (steps_pairs _ _ _ _ _ _ _ _ S [] []). cbn [app].
    eexists. split; [done|]. split; [by apply moved_world|done].
  Qed.
  Lemma move_ok x y w : x <> y -> is_Some (aw_vecs w !! y) ->
    exists w', step (AMove x y) w = AOk w' /\ storage_moved w w' x y /\ aw_next w' = aw_next w.
  Proof. intros Hn [ss E]. by apply (from_moves _ x y w ss). Qed.
  Lemma move_with_ok N x y a w : x <> y -> uses N w y a ->
    exists w', step (AMoveWith x y a) w = AOk w' /\ storage_moved w w' x y /\ aw_next w' = aw_next w.
  Proof.
    intros Hn (ss & E & _ & A). apply (from_moves _ x y w ss); [done..|]. intros t s k Hs. unfold v_move_with. destruct (decide (a = c_al s)) as [|Hc]; [done|].
    destruct Hc. symmetry. by apply A.
  Qed.
  Lemma move_assign_ok N x y a b w : x <> y -> uses N w x a -> uses N w y b -> pocma tr = true \/ a = b ->
    exists w', step (AMoveAssign x y) w = AOk w' /\ storage_moved w w' x y /\ aw_next w' = aw_next w.
  Proof.
    intros Hn (ts & Ex & Lx & Ax) (ss & Ey & Ly & Ay) H.
    assert (S : steps (v_move_assign tr alloc reuse left) ts ss (aw_next w) ss (map stolen ss) (aw_next w) false).
    { apply steps_move; [congruence|]. intros t s k Ht Hs. unfold v_move_assign. destruct (pocma tr) eqn:Pm; [done|]. destruct H as [H| ->]; [discriminate|].
      destruct (decide (c_al t = c_al s)) as [|Hc]; [done|]. destruct Hc. by rewrite (Ax t Ht), (Ay s Hs). }
    cbn [astep]. destruct (decide (x = y)); [done|]. unfold a_assign. rewrite Ex, Ey. destruct (decide (x = y)); [done|]. rewrite (steps_pairs _ _ _ _ _ _ _ _ S [] []). cbn [app].
    eexists. split; [done|]. split; [by apply moved_world|done].
  Qed.
  (** moves between unequal allocators leave the storage *)
  Lemma steps_kept f ts ss k ts' ss' k' th : (forall t s k t' s' k', s ∈ ss -> t ∈ ts -> f t s k = Some (t', s', k') -> c_buf s' = c_buf s) ->
    steps f ts ss k ts' ss' k' th -> map c_buf ss' = map c_buf ss.
  Proof.
    intros F H. induction H as [k|t ts s ss k E|t ts s ss k t' s' k1 ts' ss' k' th E S IH]; [done|done|]. cbn. f_equal.
    - eapply F; [by left|by left|exact E].
    - apply IH. intros t1 s1 k2 t2 s2 k3 H1 H2. apply F; by right.
  Qed.
  Lemma kept_holds w w' y ss ss' : aw_vecs w !! y = Some ss -> aw_vecs w' !! y = Some ss' -> map c_buf ss' = map c_buf ss ->
    forall j b a, holds_storage w y j b a -> holds_storage w' y j b a.
  Proof.
    intros E E' M j b a (cols & c & Ec & Ej & B). assert (cols = ss) as -> by congruence.
    assert (map c_buf ss' !! j = Some (c_buf c)) as Q by (rewrite M, list_lookup_fmap, Ej; done). rewrite list_lookup_fmap in Q.
    destruct (ss' !! j) as [d|] eqn:Ed; [|done]. cbn in Q. injection Q as Q. exists ss', d. split; [done|]. split; [done|]. congruence.
  Qed.
  Lemma move_with_stays N x y a b w w' : uses N w y b -> a <> b -> step (AMoveWith x y a) w = AOk w' ->
    forall j i c, holds_storage w y j i c -> holds_storage w' y j i c.
  Proof.
    intros (ss & Ey & _ & Ay) Hab E. cbn [astep] in E. apply a_from_inv in E as (ss0 & ts' & ss' & k' & Hn & Ey' & S & ->).
    assert (ss0 = ss) as -> by congruence. apply steps_kept in S.
    - apply (kept_holds _ _ _ ss ss'); [done| |done]. cbn. by rewrite lookup_insert_ne, lookup_insert.
    - intros t s k t' s' k1 Hs _. unfold v_move_with. destruct (decide (a = c_al s)) as [Ha|]; [destruct Hab; by rewrite <- (Ay s Hs)|].
      destruct (fresh _ _ _ _) as [[c k2]|]; [|discriminate]. by intros [= _ <- _].
  Qed.
  Lemma move_assign_stays N x y a b w w' : uses N w x a -> uses N w y b -> pocma tr = false -> a <> b -> step (AMoveAssign x y) w = AOk w' ->
    forall j i c, holds_storage w y j i c -> holds_storage w' y j i c.
  Proof.
    intros (ts & Ex & _ & Ax) (ss & Ey & _ & Ay) Pm Hab E. cbn [astep] in E. destruct (decide (x = y)); [discriminate|]. apply a_assign_inv in E as [(cols & _ & -> & ->)|(ts0 & ss0 & ts' & ss' & k' & Hn & Ex' & Ey' & S & ->)]; [done|].
    assert (ss0 = ss) as -> by congruence. assert (ts0 = ts) as -> by congruence. apply steps_kept in S.
    - apply (kept_holds _ _ _ ss ss'); [done| |done]. cbn. by rewrite lookup_insert_ne, lookup_insert.
    - intros t s k t' s' k1 Hs Ht. unfold v_move_assign. rewrite Pm. destruct (decide (c_al t = c_al s)) as [Ha|]; [destruct Hab; by rewrite <- (Ay s Hs), <- (Ax t Ht)|].
      destruct (refill _ _ _ _ _ _) as [[c k2]|]; [|discriminate]. by intros [= _ <- _].
  Qed.
  (** swap *)
  Lemma swap_cols_total a b ts : forall ss, length ts = length ss -> (forall c, c ∈ ts -> c_al c = a) -> (forall c, c ∈ ss -> c_al c = b) ->
    pocs tr = true \/ a = b -> swap_cols tr ts ss = Some (ss, ts).
  Proof.
    induction ts as [|t ts IH]; intros [|s ss] L A B H; try discriminate L; [done|]. cbn. rewrite (A t), (B s) by left.
    rewrite (IH ss); [|by injection L|intros c Hc; apply A; by right|intros c Hc; apply B; by right|done].
    destruct (pocs tr); [done|]. destruct H as [H| ->]; [discriminate|]. by rewrite bool_decide_eq_true_2.
  Qed.
  Lemma swap_ok N x y a b w : uses N w x a -> uses N w y b -> pocs tr = true \/ a = b ->
    exists w', step (ASwap x y) w = AOk w' /\ aw_vecs w' !! x = aw_vecs w !! y /\ aw_vecs w' !! y = aw_vecs w !! x /\ aw_next w' = aw_next w.
  Proof.
    intros (ts & Ex & Lx & Ax) (ss & Ey & Ly & Ay) H. cbn [astep]. unfold a_swap. rewrite Ex, Ey, (swap_cols_total a b ts ss) by (done || congruence).
    eexists. split; [done|]. destruct (decide (x = y)) as [->|Hn]; [rewrite Ex in Ey; rewrite Ex; by injection Ey as ->|]. cbn.
    rewrite lookup_insert_ne, !lookup_insert by done. done.
  Qed.
End Alloc.
