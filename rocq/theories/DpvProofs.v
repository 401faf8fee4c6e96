(** Proofs about data_parallel_vector. *)
From stdpp Require Import gmap list.
From Verif Require Import AnyModel DpvModel DpvSpec.

(** ** Columns of a list of rows *)
Definition column (j : nat) (v : list row) : list nat := map (fun r => nth j r 0) v.
Lemma column_length j v : length (column j v) = length v.
Proof. apply map_length. Qed.
Lemma column_app j u v : column j (u ++ v) = column j u ++ column j v.
Proof. apply map_app. Qed.
Lemma column_take j i v : column j (take i v) = take i (column j v).
Proof. unfold column. revert i. induction v as [|a v IH]; intros [|i]; try done. cbn. f_equal. apply IH. Qed.
Lemma column_drop j i v : column j (drop i v) = drop i (column j v).
Proof. unfold column. revert i. induction v as [|a v IH]; intros [|i]; try done. cbn. apply IH. Qed.
Lemma column_replicate j n r : column j (replicate n r) = replicate n (nth j r 0).
Proof. unfold column. induction n as [|n IH]; [done|]. cbn. by rewrite IH. Qed.
Lemma column_insert j i r v : column j (<[i := r]> v) = <[i := nth j r 0]> (column j v).
Proof. unfold column. revert i. induction v as [|a v IH]; intros [|i]; try done. cbn. f_equal. apply IH. Qed.

Lemma column_vec_insert j i rs v : i <= length v -> v_insert i (column j rs) (column j v) = Some (column j (vec_insert i rs v)).
  Proof. intros Hi. unfold v_insert, vec_insert. rewrite column_length. destruct (Nat.leb_spec i (length v)); [|lia]. by rewrite !column_app, column_take, column_drop. Qed.

Section Dpv.
  Context (N : nat) (HN : 0 < N) (dfl mf : nat -> nat).
  Notation ok := (Forall (is_row N)).

  Lemma row_field (r : row) j : is_row N r -> j < N -> r !! j = Some (nth j r 0).
  Proof. clear HN. intros Hr Hj. destruct (r !! j) as [x|] eqn:E; [by rewrite (nth_lookup_Some r j 0 x E)|]. apply lookup_ge_None in E. unfold is_row in Hr. lia. Qed.
  Lemma field_ok {A} (r : row) j (k : nat -> option A) : is_row N r -> j < N -> field r j k = k (nth j r 0).
  Proof. clear HN. intros Hr Hj. unfold field. by rewrite (row_field r j Hr Hj). Qed.

  (** columns c hold the rows v *)
  Definition holds (c : dpv) (v : list row) : Prop := ok v /\ c = map (fun j => column j v) (seq 0 N).
  Lemma holds_lookup c v j : holds c v -> j < N -> c !! j = Some (column j v).
  Proof. intros [_ ->] Hj. rewrite list_lookup_fmap, lookup_seq_lt by done. done. Qed.
  Lemma holds_length c v : holds c v -> length c = N.
  Proof. intros [_ ->]. by rewrite map_length, seq_length. Qed.
  Lemma holds_head c v : holds c v -> exists tl, c = column 0 v :: tl.
  Proof. intros [_ ->]. destruct N; [lia|]. by eexists. Qed.
  Lemma holds_eq c v : ok v -> length c = N -> (forall j, j < N -> c !! j = Some (column j v)) -> holds c v.
  Proof.
    intros Hv Hl H. split; [done|]. apply list_eq. intros j. destruct (decide (j < N)).
    - rewrite H by done. by rewrite list_lookup_fmap, lookup_seq_lt.
    - rewrite !lookup_ge_None_2; [done|..]; rewrite ?map_length, ?seq_length; lia.
  Qed.

  (** ** Running over the columns *)
  Lemma each_from_ok f g todo : forall j dn, (forall i col, todo !! i = Some col -> f (j + i) col = Some (g (j + i))) ->
    each_from j f dn todo None = DOk tt (dn ++ map g (seq j (length todo))) None.
  Proof.
    induction todo as [|col tl IH]; intros j dn H; cbn; [by rewrite app_nil_r|]. pose proof (H 0 col eq_refl) as H0. rewrite Nat.add_0_r in H0. rewrite H0.
    rewrite IH.
    - cbn. by rewrite <- app_assoc.
    - intros i c Hi. specialize (H (S i) c Hi). by rewrite Nat.add_succ_r in H.
  Qed.
  Lemma each_ok f c v v' : holds c v -> ok v' -> (forall j, j < N -> f j (column j v) = Some (column j v')) ->
    exists c', each f c None = DOk tt c' None /\ holds c' v'.
  Proof.
    intros Hc Hv' H. exists (map (fun j => column j v') (seq 0 N)). split; [|done]. unfold each. rewrite (each_from_ok f (fun j => column j v')); [by rewrite (holds_length c v Hc)|].
    intros i col Hi. pose proof (lookup_lt_Some _ _ _ Hi) as Hlt. rewrite (holds_length c v Hc) in Hlt. rewrite (holds_lookup c v i Hc Hlt) in Hi. injection Hi as <-. by apply H.
  Qed.
  Lemma each_noexcept_ok f c v v' : holds c v -> ok v' -> (forall j, j < N -> f j (column j v) = Some (column j v')) ->
    exists c', each_noexcept f c None = DOk tt c' None /\ holds c' v'.
  Proof. intros Hc Hv' H. destruct (each_ok f c v v' Hc Hv' H) as (c' & He & Hh). exists c'. unfold each_noexcept. unfold each in He. by rewrite He. Qed.

  Lemma size_ok c v t : holds c v -> d_size c t = DOk (length v) c t.
  Proof. intros Hc. destruct (holds_head c v Hc) as (tl & ->). cbn. by rewrite column_length. Qed.
  Lemma empty_ok c v t : holds c v -> d_empty c t = DOk (bool_decide (v = [])) c t.
  Proof. intros Hc. destruct (holds_head c v Hc) as (tl & ->). cbn. f_equal. destruct v; [done|]. by rewrite !bool_decide_eq_false_2. Qed.
  Lemma iter_ok c v i : holds c v -> i <= length v -> d_iter i c None = DOk i c None.
  Proof. intros Hc Hi. unfold d_iter, dbind. rewrite (size_ok c v None Hc). by destruct (Nat.leb_spec i (length v)); [|lia]. Qed.
  Lemma ref_ok c v i t : holds c v -> i < length v -> d_ref i c t = DOk i c t.
  Proof. intros Hc Hi. unfold d_ref, dbind. rewrite (size_ok c v t Hc). by destruct (Nat.ltb_spec i (length v)); [|lia]. Qed.
  Lemma from_last_ok c v i : holds c v -> i <= length v -> d_from_last i c None = DOk i c None.
  Proof.
    intros Hc Hi. unfold d_from_last. destruct (last c) eqn:E; [by eapply iter_ok|]. apply last_None in E. pose proof (holds_length c v Hc) as Hl. rewrite E in Hl. cbn in Hl. lia.
  Qed.
  Lemma gather_ok c v i r : holds c v -> v !! i = Some r -> gather i c = Some r.
  Proof.
    intros [Hv ->] Hi. assert (Hr : is_row N r) by (rewrite Forall_lookup in Hv; by eapply Hv). unfold gather. apply mapM_Some. apply Forall2_same_length_lookup_2.
    - rewrite map_length, seq_length. done.
    - intros j col x Hj Hx. pose proof (lookup_lt_Some _ _ _ Hx) as Hlt. unfold is_row in Hr. rewrite Hr in Hlt. rewrite list_lookup_fmap, lookup_seq_lt in Hj by done. cbn in Hj. injection Hj as <-.
      unfold column. rewrite list_lookup_fmap, Hi. cbn. f_equal. by apply nth_lookup_Some.
  Qed.
  Lemma read_ok c v i r : holds c v -> v !! i = Some r -> d_read i c None = DOk r c None.
  Proof.
    intros Hc Hi. unfold d_read, dbind. rewrite (ref_ok c v i None Hc) by by apply lookup_lt_Some in Hi. by rewrite (gather_ok c v i r Hc Hi).
  Qed.

  (** ** The operations *)
  Lemma ok_app u v : ok u -> ok v -> ok (u ++ v).
  Proof. intros. by apply Forall_app. Qed.
  Lemma ok_take i v : ok v -> ok (take i v).
  Proof. apply Forall_take. Qed.
  Lemma ok_drop i v : ok v -> ok (drop i v).
  Proof. apply Forall_drop. Qed.
  Lemma ok_one r : is_row N r -> ok [r].
  Proof. intros. by constructor. Qed.
  Lemma ok_repl n r : is_row N r -> ok (replicate n r).
  Proof. intros. by apply Forall_replicate. Qed.
  Lemma ok_insert i rs v : ok rs -> ok v -> ok (vec_insert i rs v).
  Proof. intros. apply ok_app; [by apply ok_take|]. apply ok_app; [done|by apply ok_drop]. Qed.

  Lemma emplace_ok c v i r : holds c v -> is_row N r -> i <= length v -> exists c', d_emplace i r c None = DOk i c' None /\ holds c' (vec_insert i [r] v).
  Proof.
    intros Hc Hr Hi. pose proof Hc as [Hv _].
    destruct (each_ok (fun j col => field r j (fun x => v_insert i [x] col)) c v (vec_insert i [r] v) Hc) as (c' & He & Hc').
    - apply ok_insert; [by apply ok_one|done].
    - intros j Hj. rewrite field_ok by done. by apply (column_vec_insert j i [r] v).
    - exists c'. unfold d_emplace, dbind. rewrite He. split; [|done]. eapply iter_ok; [done|]. unfold vec_insert. rewrite !app_length, take_length, drop_length. cbn. lia.
  Qed.
  Lemma emplace_back_ok c v r : holds c v -> is_row N r -> exists c', d_emplace_back r c None = DOk (length v) c' None /\ holds c' (v ++ [r]).
  Proof.
    intros Hc Hr. pose proof Hc as [Hv _]. destruct (each_ok (fun j col => field r j (fun x => Some (col ++ [x]))) c v (v ++ [r]) Hc) as (c' & He & Hc').
    - apply ok_app; [done|by apply ok_one].
    - intros j Hj. rewrite field_ok by done. by rewrite column_app.
    - exists c'. unfold d_emplace_back, dbind. rewrite He. rewrite (empty_ok c' (v ++ [r]) None Hc'), bool_decide_eq_false_2 by (by destruct v). rewrite (size_ok c' (v ++ [r]) None Hc').
      rewrite app_length. cbn. rewrite Nat.add_1_r. cbn. split; [|done]. eapply ref_ok; [done|]. rewrite app_length. cbn. lia.
  Qed.
  Lemma push_back_ok c v r : holds c v -> is_row N r -> exists c', d_push_back r c None = DOk tt c' None /\ holds c' (v ++ [r]).
  Proof. intros Hc Hr. destruct (emplace_back_ok c v r Hc Hr) as (c' & He & Hc'). exists c'. unfold d_push_back, dbind. by rewrite He. Qed.
  Lemma erase_ok c v i : holds c v -> i < length v -> exists c', d_erase i c None = DOk i c' None /\ holds c' (take i v ++ drop (S i) v).
  Proof.
    intros Hc Hi. pose proof Hc as [Hv _]. destruct (each_ok (fun _ col => v_erase i col) c v (take i v ++ drop (S i) v) Hc) as (c' & He & Hc').
    - apply ok_app; [by apply ok_take|by apply ok_drop].
    - intros j Hj. unfold v_erase. rewrite column_length. destruct (Nat.ltb_spec i (length v)); [|lia]. by rewrite column_app, column_take, column_drop.
    - exists c'. unfold d_erase, dbind. rewrite He. split; [|done]. eapply from_last_ok; [done|]. rewrite app_length, take_length, drop_length. lia.
  Qed.
  Lemma insert_n_ok c v i n r : holds c v -> is_row N r -> i <= length v -> exists c', d_insert_n i n r c None = DOk i c' None /\ holds c' (vec_insert i (replicate n r) v).
  Proof.
    intros Hc Hr Hi. pose proof Hc as [Hv _].
    destruct (each_ok (fun j col => field r j (fun x => v_insert i (replicate n x) col)) c v (vec_insert i (replicate n r) v) Hc) as (c' & He & Hc').
    - apply ok_insert; [by apply ok_repl|done].
    - intros j Hj. rewrite field_ok by done. rewrite <- column_replicate. by apply column_vec_insert.
    - exists c'. unfold d_insert_n, dbind. rewrite He. split; [|done]. eapply from_last_ok; [done|]. unfold vec_insert. rewrite !app_length, take_length, drop_length. lia.
  Qed.
  Lemma same_ok f c v : holds c v -> (forall j col, f j col = Some col) -> exists c', each f c None = DOk tt c' None /\ holds c' v.
  Proof. intros Hc H. pose proof Hc as [Hv _]. apply (each_ok f c v v Hc Hv). intros j _. apply H. Qed.
  Lemma pop_ok c v : holds c v -> 0 < length v -> exists c', d_pop_back c None = DOk tt c' None /\ holds c' (take (pred (length v)) v).
  Proof.
    intros Hc Hl. pose proof Hc as [Hv _]. apply (each_noexcept_ok _ c v _ Hc); [by apply ok_take|]. intros j _. unfold v_pop. rewrite column_length, column_take. destruct v; [cbn in Hl; lia|done].
  Qed.
  Lemma clear_ok c v : holds c v -> exists c', d_clear c None = DOk tt c' None /\ holds c' [].
  Proof. intros Hc. by apply (each_noexcept_ok _ c v _ Hc). Qed.
  Lemma resize_ok c v n r f : holds c v -> is_row N r -> (forall j col, j < N -> f j col = Some (v_resize n (nth j r 0) col)) -> exists c', each f c None = DOk tt c' None /\ holds c' (vec_resize n r v).
  Proof.
    intros Hc Hr Hf. pose proof Hc as [Hv _]. apply (each_ok f c v _ Hc).
    - apply ok_app; [by apply ok_take|by apply ok_repl].
    - intros j Hj. rewrite Hf by done. unfold v_resize, vec_resize. by rewrite column_length, column_app, column_take, column_replicate.
  Qed.
  Lemma set_ok c v i r : holds c v -> is_row N r -> i < length v -> exists c', d_set i r c None = DOk tt c' None /\ holds c' (<[i := r]> v).
  Proof.
    intros Hc Hr Hi. pose proof Hc as [Hv _]. unfold d_set, dbind. rewrite (ref_ok c v i None Hc Hi). apply (each_ok _ c v _ Hc).
    - by apply Forall_insert.
    - intros j Hj. rewrite field_ok by done. rewrite column_length. destruct (Nat.ltb_spec i (length v)); [|lia]. by rewrite column_insert.
  Qed.
  Lemma none_ok : holds (d_none N) [].
  Proof. split; [constructor|]. unfold d_none, column. cbn. clear HN. generalize 0. induction N as [|n IH]; intros k; [done|]. cbn. f_equal. apply IH. Qed.
  Lemma fill_ok n r c v : holds c v -> is_row N r -> exists c', each (fun j _ => field r j (fun x => Some (replicate n x))) c None = DOk tt c' None /\ holds c' (replicate n r).
  Proof.
    intros Hc Hr. apply (each_ok _ c v _ Hc); [by apply ok_repl|]. intros j Hj. rewrite field_ok by done. by rewrite column_replicate.
  Qed.
  Lemma default_row_ok : is_row N (default_row N dfl).
  Proof. unfold is_row, default_row. by rewrite map_length, seq_length. Qed.
  Lemma default_row_nth j : j < N -> nth j (default_row N dfl) 0 = dfl j.
  Proof. intros Hj. apply nth_lookup_Some. unfold default_row. by rewrite list_lookup_fmap, lookup_seq_lt. Qed.
  Lemma count_ok n c v : holds c v -> exists c', each (fun j _ => Some (replicate n (dfl j))) c None = DOk tt c' None /\ holds c' (replicate n (default_row N dfl)).
  Proof.
    intros Hc. apply (each_ok _ c v _ Hc); [by apply ok_repl, default_row_ok|]. intros j Hj. by rewrite column_replicate, default_row_nth.
  Qed.
  Lemma copy_ok c v d u : holds c v -> holds d u -> exists c', each (fun j _ => d !! j) c None = DOk tt c' None /\ holds c' u.
  Proof. intros Hc Hd. pose proof Hd as [Hu _]. apply (each_ok _ c v _ Hc Hu). intros j Hj. by apply holds_lookup. Qed.

  (** ** Ranges *)
  Lemma append_ok rs : forall c v, holds c v -> ok rs -> exists c', d_append rs c None = DOk tt c' None /\ holds c' (v ++ rs).
  Proof.
    induction rs as [|r rs IH]; intros c v Hc Hrs; [exists c; by rewrite app_nil_r|]. inversion Hrs as [|? ? Hr Hrs']; subst. cbn. destruct (emplace_back_ok c v r Hc Hr) as (c1 & H1 & Hc1).
    unfold dbind at 1. rewrite H1. destruct (IH c1 (v ++ [r]) Hc1 Hrs') as (c2 & H2 & Hc2). exists c2. split; [done|]. by rewrite <- app_assoc in Hc2.
  Qed.
  Lemma insert_more_ok rs : forall c u w pos, holds c (u ++ w) -> S pos = length u -> ok rs -> exists c', d_insert_more pos rs c None = DOk tt c' None /\ holds c' (u ++ rs ++ w).
  Proof.
    induction rs as [|r rs IH]; intros c u w pos Hc Hpos Hrs; [by exists c|]. inversion Hrs as [|? ? Hr Hrs']; subst. cbn [d_insert_more]. unfold dbind at 1. rewrite (size_ok c _ None Hc).
    rewrite app_length. destruct (Nat.eqb_spec pos (length u + length w)); [lia|].
    destruct (emplace_ok c (u ++ w) (S pos) r Hc Hr) as (c1 & H1 & Hc1); [rewrite app_length; lia|]. unfold dbind at 1. rewrite H1.
    assert (vec_insert (S pos) [r] (u ++ w) = (u ++ [r]) ++ w) as Heq. { unfold vec_insert. rewrite take_app_alt by done. rewrite drop_app_alt by done. by rewrite <- app_assoc. }
    rewrite Heq in Hc1. destruct (IH c1 (u ++ [r]) w (S pos) Hc1) as (c2 & H2 & Hc2); [rewrite app_length; cbn; lia|done|]. exists c2. split; [done|]. by rewrite <- app_assoc in Hc2.
  Qed.
  (** reading the first value's fields without moving, or when moving changes nothing *)
  Lemma first_fields_ok moving (ord : list nat) r : forall acc, moving = false \/ map mf r = r -> Forall (fun j => j < length r) ord ->
    exists m, first_fields mf moving ord r acc = Some m /\ forall j, m !! j = if decide (j ∈ ord) then r !! j else acc !! j.
  Proof.
    induction ord as [|i ord IH]; intros acc Hmv Ho.
    - exists acc. split; [done|]. intros j. destruct (decide (j ∈ [])) as [Hj|]; [by apply elem_of_nil in Hj|done].
    - inversion Ho as [|? ? Hi Ho']; subst. destruct (lookup_lt_is_Some_2 r i Hi) as (x & Hx). cbn. rewrite Hx.
      assert ((if moving then map mf r else r) = r) as -> by (destruct moving, Hmv; done).
      destruct (IH (<[i := x]> acc) Hmv Ho') as (m & Hm & Hl). exists m. split; [done|]. intros j. rewrite Hl.
      destruct (decide (j ∈ ord)) as [Hj|Hj]; destruct (decide (j ∈ i :: ord)) as [Hj'|Hj']; try done.
      + exfalso. apply Hj'. by right.
      + apply elem_of_cons in Hj' as [->|?]; [by rewrite lookup_insert|done].
      + rewrite lookup_insert_ne; [done|]. intros ->. apply Hj'. by left.
  Qed.
  Lemma first_row_ok moving ord r : is_row N r -> ord ≡ₚ seq 0 N -> moving = false \/ map mf r = r -> first_row mf moving ord r = Some r.
  Proof.
    intros Hr Ho Hmv. unfold first_row. destruct (first_fields_ok moving ord r ∅ Hmv) as (m & -> & Hm).
    - rewrite Ho. apply Forall_forall. intros j Hj. apply elem_of_seq in Hj. unfold is_row in Hr. lia.
    - apply mapM_Some. apply Forall2_same_length_lookup_2; [by rewrite seq_length|]. intros i j x Hi Hx. apply lookup_seq in Hi as [-> Hi]. cbn. rewrite Hm. destruct (decide (i ∈ ord)) as [|Hn]; [done|].
      exfalso. apply Hn. rewrite Ho. apply elem_of_seq. unfold is_row in Hr. lia.
  Qed.
  Lemma insert_range_ok moving random ord pos rs c v : holds c v -> ok rs -> pos <= length v -> ord ≡ₚ seq 0 N -> moving = false \/ pos = length v \/ Forall (fun r => map mf r = r) rs ->
    exists c', d_insert_range mf moving random ord pos rs c None = DOk pos c' None /\ holds c' (vec_insert pos rs v).
  Proof.
    intros Hc Hrs Hpos Hord Hmv. unfold d_insert_range. unfold dbind at 1. rewrite (size_ok c v None Hc). destruct (Nat.eqb_spec pos (length v)) as [->|Hne].
    - destruct (append_ok rs c v Hc Hrs) as (c' & H1 & Hc'). unfold dbind. rewrite H1. exists c'. assert (vec_insert (length v) rs v = v ++ rs) as ->. { unfold vec_insert. by rewrite take_ge, drop_ge, app_nil_r by done. }
      split; [|done]. eapply iter_ok; [done|]. rewrite app_length. lia.
    - assert (Hres : exists c1, (if random then d_reserve else dret tt) c None = DOk tt c1 None /\ holds c1 v).
      { destruct random; [by apply (same_ok _ c v Hc)|by exists c]. }
      destruct Hres as (c1 & H1 & Hc1). unfold dbind at 1. rewrite H1. destruct rs as [|r rs].
      + exists c1. assert (vec_insert pos [] v = v) as ->; [unfold vec_insert; apply take_drop|]. split; [by eapply iter_ok|done].
      + inversion Hrs as [|? ? Hr Hrs']; subst. rewrite (first_row_ok moving ord r Hr Hord).
        * destruct (emplace_ok c1 v pos r Hc1 Hr Hpos) as (c2 & H2 & Hc2). unfold dbind at 1. rewrite H2.
          destruct (insert_more_ok rs c2 (take pos v ++ [r]) (drop pos v) pos) as (c3 & H3 & Hc3).
          -- unfold vec_insert in Hc2. by rewrite app_assoc in Hc2.
          -- rewrite app_length, take_length. cbn. lia.
          -- done.
          -- unfold dbind. rewrite H3. exists c3. assert ((take pos v ++ [r]) ++ rs ++ drop pos v = vec_insert pos (r :: rs) v) as Heq by (unfold vec_insert; by rewrite <- app_assoc). rewrite Heq in Hc3.
             split; [|done]. eapply iter_ok; [done|]. unfold vec_insert. rewrite !app_length, take_length, drop_length. cbn. lia.
        * destruct Hmv as [?|[?|Hf]]; [by left|done|]. right. by inversion Hf.
  Qed.

  (** ** Programs *)
  Definition sim (w : dworld) (m : gmap nat (list row)) : Prop := forall x, option_Forall2 holds (w !! x) (m !! x).
  Definition rowm (m : gmap nat (list row)) (x i : nat) : option row := match m !! x with Some v => v !! i | None => None end.
  Definition setrow (x i : nat) (r : row) (m : gmap nat (list row)) : gmap nat (list row) := alter (fun v => <[i := r]> v) x m.

  Lemma sim_some w m x v : sim w m -> m !! x = Some v -> exists c, w !! x = Some c /\ holds c v.
  Proof. intros Hs Hx. specialize (Hs x). rewrite Hx in Hs. inversion Hs; subst. eauto. Qed.
  Lemma sim_none w m x : sim w m -> m !! x = None -> w !! x = None.
  Proof. intros Hs Hx. specialize (Hs x). rewrite Hx in Hs. by inversion Hs. Qed.
  Lemma sim_insert w m x c v : sim w m -> holds c v -> sim (<[x := c]> w) (<[x := v]> m).
  Proof. intros Hs Hc z. destruct (decide (z = x)) as [->|?]; [rewrite !lookup_insert; by constructor|rewrite !lookup_insert_ne by done; apply Hs]. Qed.
  Lemma sim_alter w m x c v f : sim w m -> m !! x = Some v -> holds c (f v) -> sim (<[x := c]> w) (alter f x m).
  Proof. intros Hs Hx Hc. assert (alter f x m = <[x := f v]> m) as ->; [|by apply sim_insert]. apply map_eq. intros z. destruct (decide (z = x)) as [->|?]; [by rewrite lookup_alter, lookup_insert, Hx|by rewrite lookup_alter_ne, lookup_insert_ne]. Qed.
  Lemma sim_same w m x c v : sim w m -> m !! x = Some v -> holds c v -> sim (<[x := c]> w) m.
  Proof. intros Hs Hx Hc. rewrite <- (insert_id m x v Hx). by apply sim_insert. Qed.

  Lemma rowm_setrow x i r m y j : rowm (setrow x i r m) y j = if decide (x = y /\ i = j) then (if rowm m y j then Some r else None) else rowm m y j.
  Proof.
    unfold rowm, setrow. destruct (decide (x = y)) as [->|Hn].
    - rewrite lookup_alter. destruct (m !! y) as [v|]; cbn; [|by case_decide]. destruct (decide (i = j)) as [->|Hi].
      + rewrite decide_True by done. destruct (v !! j) eqn:E; [|by rewrite list_lookup_insert_None_2 || (apply lookup_ge_None in E; apply lookup_ge_None; rewrite insert_length)]. apply list_lookup_insert. by eapply lookup_lt_Some.
      + rewrite decide_False by naive_solver. by apply list_lookup_insert_ne.
    - rewrite decide_False by naive_solver. by rewrite lookup_alter_ne.
  Qed.
  Lemma setrow_setrow x i r r' m : setrow x i r (setrow x i r' m) = setrow x i r m.
  Proof. unfold setrow. apply map_eq. intros z. destruct (decide (z = x)) as [->|?]; [|by rewrite !lookup_alter_ne]. rewrite !lookup_alter. destruct (m !! x) as [v|]; [cbn|done]. by rewrite list_insert_insert. Qed.
  Lemma setrow_comm x i r y j r' m : ~ (x = y /\ i = j) -> setrow x i r (setrow y j r' m) = setrow y j r' (setrow x i r m).
  Proof.
    intros Hn. unfold setrow. destruct (decide (x = y)) as [->|?].
    - apply map_eq. intros z. destruct (decide (z = y)) as [->|?]; [|by rewrite !lookup_alter_ne]. rewrite !lookup_alter. destruct (m !! y) as [v|]; [cbn|done]. f_equal. apply list_insert_commute. naive_solver.
    - by apply alter_commute.
  Qed.
  Lemma setrow_id x i r m : rowm m x i = Some r -> setrow x i r m = m.
  Proof.
    unfold rowm, setrow. intros H. apply map_eq. intros z. destruct (decide (z = x)) as [->|?]; [|by rewrite !lookup_alter_ne]. rewrite !lookup_alter. destruct (m !! x) as [v|]; [cbn|done]. by rewrite list_insert_id.
  Qed.
  Lemma sim_row w m x i r : sim w m -> rowm m x i = Some r -> is_row N r.
  Proof. unfold rowm. intros Hs Hr. destruct (m !! x) as [v|] eqn:E; [|done]. destruct (sim_some w m x v Hs E) as (c & _ & [Hv _]). rewrite Forall_lookup in Hv. by eapply Hv. Qed.
  Lemma sim_get_cell w m x i r k : sim w m -> rowm m x i = Some r -> k < N -> get_cell x i k w = Some (nth k r 0).
  Proof.
    unfold rowm. intros Hs Hr Hk. destruct (m !! x) as [v|] eqn:E; [|done]. destruct (sim_some w m x v Hs E) as (c & Hc & Hh). unfold get_cell. rewrite Hc, (holds_lookup c v k Hh Hk).
    unfold column. rewrite list_lookup_fmap, Hr. done.
  Qed.
  Lemma nth_insert (r : row) k v j : k < length r -> nth j (<[k := v]> r) 0 = if decide (j = k) then v else nth j r 0.
  Proof.
    intros Hk. destruct (decide (j = k)) as [->|Hn].
    - apply nth_lookup_Some. by apply list_lookup_insert.
    - rewrite !nth_lookup. by rewrite list_lookup_insert_ne.
  Qed.
  Lemma sim_set_cell w m x i r k val : sim w m -> rowm m x i = Some r -> k < N -> sim (set_cell x i k val w) (setrow x i (<[k := val]> r) m).
  Proof.
    intros Hs Hr Hk. pose proof (sim_row w m x i r Hs Hr) as Hrow. unfold rowm in Hr. destruct (m !! x) as [v|] eqn:E; [|done]. destruct (sim_some w m x v Hs E) as (c & Hc & Hh).
    intros z. unfold set_cell, setrow. destruct (decide (z = x)) as [->|?]; [|rewrite !lookup_alter_ne by done; apply Hs]. rewrite !lookup_alter, Hc, E. cbn. constructor. pose proof Hh as [Hv _].
    apply holds_eq.
    - apply Forall_insert; [done|]. unfold is_row in *. by rewrite insert_length.
    - rewrite alter_length. by eapply holds_length.
    - intros j Hj. destruct (decide (j = k)) as [->|Hn].
      + rewrite list_lookup_alter, (holds_lookup c v k Hh Hk). cbn. f_equal. rewrite column_insert, nth_insert by (unfold is_row in Hrow; lia). by rewrite decide_True.
      + rewrite list_lookup_alter_ne by done. rewrite (holds_lookup c v j Hh Hj). f_equal. rewrite column_insert, nth_insert by (unfold is_row in Hrow; lia). rewrite decide_False by done. symmetry. apply list_insert_id.
        unfold column. rewrite list_lookup_fmap, Hr. done.
  Qed.

  (** the first k fields of b, the others of a *)
  Definition mix (k : nat) (a b : row) : row := take k b ++ drop k a.
  Lemma mix_0 a b : mix 0 a b = a. Proof. done. Qed.
  Lemma mix_all a b : is_row N a -> is_row N b -> mix N a b = b.
  Proof. unfold mix, is_row. intros. by rewrite take_ge, drop_ge, app_nil_r by lia. Qed.
  Lemma mix_same k a : mix k a a = a. Proof. apply take_drop. Qed.
  Lemma mix_step k a b : is_row N a -> is_row N b -> k < N -> <[k := nth k b 0]> (mix k a b) = mix (S k) a b.
  Proof.
    intros Ha Hb Hk. pose proof (row_field b k Hb Hk) as Hbk. pose proof (row_field a k Ha Hk) as Hak. unfold mix, is_row in *. rewrite (take_S_r b k _ Hbk).
    rewrite insert_app_r_alt by (rewrite take_length; lia). rewrite take_length, Nat.min_l, Nat.sub_diag by lia. rewrite (drop_S a _ k Hak). cbn. by rewrite <- app_assoc.
  Qed.
  Lemma mix_nth k a b : is_row N a -> is_row N b -> k < N -> nth k (mix k a b) 0 = nth k a 0.
  Proof.
    intros Ha Hb Hk. unfold mix, is_row in *. rewrite app_nth2 by (rewrite take_length; lia). rewrite take_length, Nat.min_l, Nat.sub_diag by lia. rewrite (drop_S a (nth k a 0) k); [done|]. by apply row_field.
  Qed.

  Lemma copy_cells_ok x i y j m a b : rowm m x i = Some a -> rowm m y j = Some b -> forall n k w, k + n = N -> sim w (setrow x i (mix k a b) m) ->
    exists w', copy_cells x i y j (seq k n) w None = WOk w' None None /\ sim w' (setrow x i b m).
  Proof.
    intros Ha Hb. induction n as [|n IH]; intros k w Hk Hs.
    - exists w. split; [done|]. rewrite Nat.add_0_r in Hk. subst k. assert (Hra : is_row N (mix N a b)). { eapply sim_row; [done|]. rewrite rowm_setrow, decide_True by done. by rewrite Ha. }
      assert (mix N a b = b) as <-; [|done]. unfold mix in Hra |- *. unfold is_row in Hra. rewrite app_length, take_length, drop_length in Hra.
      destruct (decide (length b = N)). { destruct (decide (length a <= N)); [by rewrite take_ge, drop_ge, app_nil_r by lia|]. rewrite Nat.min_r in Hra by lia. lia. }
      exfalso. destruct (decide (x = y /\ i = j)) as [[-> ->]|Hn].
      + rewrite Ha in Hb. injection Hb as ->. assert (Hm : setrow y j (mix N b b) m = m) by (rewrite mix_same; by apply setrow_id). rewrite Hm in Hs. pose proof (sim_row _ _ _ _ _ Hs Ha). done.
      + assert (is_row N b); [|done]. eapply (sim_row w _ y j b Hs). rewrite rowm_setrow, decide_False by done. done.
    - cbn [seq copy_cells tick_next].
      assert (Hrb : is_row N b).
      { destruct (decide (x = y /\ i = j)) as [[-> ->]|Hn].
        + rewrite Ha in Hb. injection Hb as ->. rewrite mix_same, setrow_id in Hs by done. by eapply sim_row.
        + eapply (sim_row w _ y j b Hs). by rewrite rowm_setrow, decide_False by done. }
      assert (Hmx : rowm (setrow x i (mix k a b) m) x i = Some (mix k a b)) by (rewrite rowm_setrow, decide_True by done; by rewrite Ha).
      assert (Hra : is_row N a). { pose proof (sim_row _ _ _ _ _ Hs Hmx) as Hm. unfold is_row, mix in *. rewrite app_length, take_length, drop_length in Hm. lia. }
      assert (Hg : get_cell y j k w = Some (nth k b 0)).
      { destruct (decide (x = y /\ i = j)) as [[-> ->]|Hn].
        + rewrite Ha in Hb. injection Hb as ->. rewrite mix_same, setrow_id in Hs by done. eapply sim_get_cell; [done..|lia].
        + eapply (sim_get_cell w _ y j b k Hs); [|lia]. by rewrite rowm_setrow, decide_False. }
      rewrite Hg. apply IH; [lia|]. pose proof (sim_set_cell w _ x i _ k (nth k b 0) Hs Hmx ltac:(lia)) as Hs'. rewrite setrow_setrow, mix_step in Hs' by (done || lia). done.
  Qed.
  Lemma swap_cells_ok x i y j m a b : is_row N a -> is_row N b -> rowm m x i = Some a -> rowm m y j = Some b -> forall n k w, k + n = N -> sim w (setrow y j (mix k b a) (setrow x i (mix k a b) m)) ->
    exists w', swap_cells x i y j (seq k n) w None = WOk w' None None /\ sim w' (setrow y j a (setrow x i b m)).
  Proof.
    intros Hra Hrb Ha Hb. induction n as [|n IH]; intros k w Hk Hs.
    - exists w. split; [done|]. rewrite Nat.add_0_r in Hk. subst k. by rewrite !mix_all in Hs by done.
    - cbn [seq swap_cells tick_next]. destruct (decide (x = y /\ i = j)) as [[-> ->]|Hn].
      + rewrite Ha in Hb. injection Hb as <-. rewrite !mix_same, !setrow_id in Hs by (rewrite ?setrow_id; done).
        assert (Hg : get_cell y j k w = Some (nth k a 0)) by (eapply sim_get_cell; [done..|lia]). rewrite Hg. apply IH; [lia|].
        assert (Hi : <[k := nth k a 0]> a = a) by (apply list_insert_id, row_field; [done|lia]).
        pose proof (sim_set_cell w _ y j _ k (nth k a 0) Hs Ha ltac:(lia)) as Hs1. rewrite Hi in Hs1. rewrite setrow_id in Hs1 by done.
        pose proof (sim_set_cell _ _ y j _ k (nth k a 0) Hs1 Ha ltac:(lia)) as Hs2. rewrite Hi in Hs2. rewrite setrow_id in Hs2 by done. rewrite !mix_same, !setrow_id by (rewrite ?setrow_id; done). done.
      + assert (Hn' : ~ (y = x /\ j = i)) by naive_solver.
        set (m' := setrow y j (mix k b a) (setrow x i (mix k a b) m)) in *.
        assert (Hx : rowm m' x i = Some (mix k a b)). { unfold m'. rewrite rowm_setrow, decide_False by done. rewrite rowm_setrow, decide_True by done. by rewrite Ha. }
        assert (Hy : rowm m' y j = Some (mix k b a)). { unfold m'. rewrite rowm_setrow, decide_True by done. rewrite rowm_setrow, decide_False by done. by rewrite Hb. }
        rewrite (sim_get_cell w m' x i _ k Hs Hx) by lia. rewrite (sim_get_cell w m' y j _ k Hs Hy) by lia. rewrite !mix_nth by (done || lia). apply IH; [lia|].
        pose proof (sim_set_cell w _ x i _ k (nth k b 0) Hs Hx ltac:(lia)) as Hs1. rewrite mix_step in Hs1 by (done || lia).
        assert (Hy1 : rowm (setrow x i (mix (S k) a b) m') y j = Some (mix k b a)) by (by rewrite rowm_setrow, decide_False).
        pose proof (sim_set_cell _ _ y j _ k (nth k a 0) Hs1 Hy1 ltac:(lia)) as Hs2. rewrite mix_step in Hs2 by (done || lia).
        unfold m' in Hs2. rewrite (setrow_comm x i _ y j) in Hs2 by done. rewrite setrow_setrow in Hs2. by rewrite setrow_setrow in Hs2.
  Qed.

  Lemma member_ok {A} w m x v (mm : dM A) ret a v' : sim w m -> m !! x = Some v -> (forall c, holds c v -> exists c', mm c None = DOk a c' None /\ holds c' v') ->
    exists w', member x mm ret w None = WOk w' (ret a) None /\ sim w' (<[x := v']> m).
  Proof.
    intros Hs Hx Hm. destruct (sim_some w m x v Hs Hx) as (c & Hc & Hh). destruct (Hm c Hh) as (c' & Hr & Hh'). unfold member. rewrite Hc, Hr. eexists. split; [done|]. by apply sim_insert.
  Qed.
  Lemma alter_as_insert (f : list row -> list row) (x : nat) v (m : gmap nat (list row)) : m !! x = Some v -> alter f x m = <[x := f v]> m.
  Proof. intros Hx. apply map_eq. intros z. destruct (decide (z = x)) as [->|?]; [by rewrite lookup_alter, lookup_insert, Hx|by rewrite lookup_alter_ne, lookup_insert_ne]. Qed.
  Lemma construct_ok {A} w m x (mm : dM A) a v' : sim w m -> (forall c, holds c [] -> exists c', mm c None = DOk a c' None /\ holds c' v') ->
    exists w', construct N x mm w None = WOk w' None None /\ sim w' (<[x := v']> m).
  Proof. intros Hs Hm. destruct (Hm _ none_ok) as (c' & Hr & Hh'). unfold construct. rewrite Hr. eexists. split; [done|]. by apply sim_insert. Qed.
  Lemma renew_ok {A} w m x (mm : dM A) a v' : sim w m -> is_Some (m !! x) -> (forall c, holds c [] -> exists c', mm c None = DOk a c' None /\ holds c' v') ->
    exists w', renew N x mm w None = WOk w' None None /\ sim w' (<[x := v']> m).
  Proof. intros Hs [v Hx] Hm. destruct (sim_some w m x v Hs Hx) as (c & Hc & _). unfold renew. rewrite Hc. by eapply construct_ok. Qed.
  Lemma inside_row m x i : inside m x i -> exists v r, m !! x = Some v /\ v !! i = Some r /\ i < length v.
  Proof. intros (v & Hv & Hi). destruct (lookup_lt_is_Some_2 v i Hi) as [r Hr]. eauto 6. Qed.
  Lemma vec_insert_nil rs : vec_insert 0 rs [] = rs.
  Proof. unfold vec_insert. cbn. apply app_nil_r. Qed.
  Lemma two_refs_ok w m x i y j k : sim w m -> inside m x i -> inside m y j -> two_refs x i y j k w None = k w None.
  Proof.
    intros Hs (v & Hv & Hi) (u & Hu & Hj). destruct (sim_some w m x v Hs Hv) as (c & Hc & Hh). destruct (sim_some w m y u Hs Hu) as (d & Hd & Hh').
    unfold two_refs. rewrite Hc, Hd. by rewrite (ref_ok c v i None Hh Hi), (ref_ok d u j None Hh' Hj).
  Qed.

  Theorem step_ok o w m : sim w m -> vec_legal N o m ->
    exists w', dstep N dfl mf o w None = WOk w' (snd (vec_step N dfl o m)) None /\ sim w' (fst (vec_step N dfl o m)).
  Proof.
    intros Hs Hl. destruct o; cbn [vec_legal vec_step dstep fst snd] in *.
    - eexists. split; [done|]. apply sim_insert; [done|apply none_ok].
    - eapply construct_ok; [done|]. intros c Hc. by eapply count_ok.
    - destruct Hl as [_ Hr]. eapply construct_ok; [done|]. intros c Hc. by eapply fill_ok.
    - destruct Hl as [_ Hr]. eapply construct_ok; [done|]. intros c Hc. pose proof (insert_range_ok moving random (seq 0 N) 0 rs c [] Hc Hr ltac:(cbn; lia) ltac:(done) ltac:(right; by left)) as Hi. rewrite vec_insert_nil in Hi. exact Hi.
    - destruct Hl as [_ [v Hv]]. destruct (sim_some w m y v Hs Hv) as (d & Hd & Hh). rewrite Hd, Hv. eapply construct_ok; [done|]. intros c Hc. by eapply copy_ok.
    - destruct Hl as [_ [v Hv]]. destruct (sim_some w m y v Hs Hv) as (d & Hd & Hh). rewrite Hd, Hv. eexists. split; [done|]. apply sim_insert; [|done]. apply sim_insert; [done|apply none_ok].
    - destruct Hl as [[u Hu] [v Hv]]. destruct (sim_some w m y v Hs Hv) as (d & Hd & Hh). rewrite Hd, Hv. apply (member_ok w m x u _ nores tt v); [done..|]. intros c Hc. by eapply copy_ok.
    - destruct Hl as [[u Hu] [[v Hv] Hxy]]. destruct (sim_some w m y v Hs Hv) as (d & Hd & Hh). destruct (sim_some w m x u Hs Hu) as (c & Hc & _). rewrite Hc, Hd, Hv. rewrite bool_decide_eq_false_2 by done.
      eexists. split; [done|]. apply sim_insert; [|done]. apply sim_insert; [done|apply none_ok].
    - destruct Hl as [[u Hu] [v Hv]]. destruct (sim_some w m y v Hs Hv) as (d & Hd & Hh). destruct (sim_some w m x u Hs Hu) as (c & Hc & Hh'). rewrite Hc, Hd, Hu, Hv.
      eexists. split; [done|]. apply sim_insert; [|done]. by apply sim_insert.
    - destruct Hl as [[v Hv] Hr]. rewrite (alter_as_insert _ x v m Hv). apply (member_ok w m x v _ nores tt); [done..|]. intros c Hc. by apply push_back_ok.
    - destruct Hl as [[v Hv] Hr]. rewrite (alter_as_insert _ x v m Hv), Hv. apply (member_ok w m x v _ Some (length v)); [done..|]. intros c Hc. by apply emplace_back_ok.
    - destruct Hl as [(v & Hv & Hi) Hr]. rewrite (alter_as_insert _ x v m Hv). apply (member_ok w m x v _ Some i); [done..|]. intros c Hc. by apply emplace_ok.
    - destruct Hl as [(v & Hv & Hi) Hr]. rewrite (alter_as_insert _ x v m Hv). apply (member_ok w m x v _ Some i); [done..|]. intros c Hc. by apply insert_n_ok.
    - destruct Hl as ((v & Hv & Hi) & Hr & Ho & Hmv). rewrite (alter_as_insert _ x v m Hv). apply (member_ok w m x v _ Some i); [done..|]. intros c Hc. apply insert_range_ok; try done.
      destruct moving; [|by left]. destruct (Hmv eq_refl) as (v' & Hv' & ->). rewrite Hv in Hv'. injection Hv' as <-. right. by left.
    - destruct Hl as (v & Hv & Hi). rewrite (alter_as_insert _ x v m Hv). apply (member_ok w m x v _ Some i); [done..|]. intros c Hc. by apply erase_ok.
    - done.
    - destruct Hl as (v & Hv & Hi). rewrite (alter_as_insert _ x v m Hv). apply (member_ok w m x v _ nores tt); [done..|]. intros c Hc. by apply pop_ok.
    - destruct Hl as [v Hv]. rewrite (alter_as_insert _ x v m Hv). apply (member_ok w m x v _ nores tt); [done..|]. intros c Hc. by eapply clear_ok.
    - destruct Hl as [v Hv]. destruct (member_ok w m x v d_reserve nores tt v Hs Hv) as (w' & H1 & H2); [intros c Hc; by apply same_ok|]. rewrite insert_id in H2 by done. eauto.
    - destruct Hl as [v Hv]. destruct (member_ok w m x v d_shrink nores tt v Hs Hv) as (w' & H1 & H2); [intros c Hc; by apply same_ok|]. rewrite insert_id in H2 by done. eauto.
    - destruct Hl as [v Hv]. rewrite (alter_as_insert _ x v m Hv). apply (member_ok w m x v _ nores tt); [done..|]. intros c Hc. apply resize_ok; [done|apply default_row_ok|]. intros j col Hj. by rewrite default_row_nth.
    - destruct Hl as [[v Hv] Hr]. rewrite (alter_as_insert _ x v m Hv). apply (member_ok w m x v _ nores tt); [done..|]. intros c Hc. apply resize_ok; [done|done|]. intros j col Hj. by rewrite field_ok.
    - destruct Hl as [Hx Hr]. eapply renew_ok; [done|done|]. intros c Hc. by eapply fill_ok.
    - destruct Hl as [Hx Hr]. eapply renew_ok; [done|done|]. intros c Hc. pose proof (insert_range_ok moving random (seq 0 N) 0 rs c [] Hc Hr ltac:(cbn; lia) ltac:(done) ltac:(right; by left)) as Hi. rewrite vec_insert_nil in Hi. exact Hi.
    - destruct Hl as [(v & Hv & Hi) Hr]. rewrite (alter_as_insert _ x v m Hv). apply (member_ok w m x v _ nores tt); [done..|]. intros c Hc. by apply set_ok.
    - destruct Hl as [Hx Hy]. rewrite (two_refs_ok w m x i y j _ Hs Hx Hy). destruct (inside_row m x i Hx) as (v & a & Hv & Ha & _). destruct (inside_row m y j Hy) as (u & b & Hu & Hb & _). rewrite Hu, Hb.
      assert (Hra : rowm m x i = Some a) by (unfold rowm; by rewrite Hv). assert (Hrb : rowm m y j = Some b) by (unfold rowm; by rewrite Hu).
      apply (copy_cells_ok x i y j m a b Hra Hrb N 0 w); [done|]. rewrite mix_0, setrow_id by done. done.
    - destruct Hl as [Hx Hy]. rewrite (two_refs_ok w m x i y j _ Hs Hx Hy). destruct (inside_row m x i Hx) as (v & a & Hv & Ha & _). destruct (inside_row m y j Hy) as (u & b & Hu & Hb & _). rewrite Hv, Ha, Hu, Hb.
      assert (Hra : rowm m x i = Some a) by (unfold rowm; by rewrite Hv). assert (Hrb : rowm m y j = Some b) by (unfold rowm; by rewrite Hu).
      apply (swap_cells_ok x i y j m a b (sim_row _ _ _ _ _ Hs Hra) (sim_row _ _ _ _ _ Hs Hrb) Hra Hrb N 0 w); [done|]. rewrite !mix_0. rewrite (setrow_id x i) by done. rewrite setrow_id by done. done.
  Qed.

  Lemma dexec_snoc l o w : dexec N dfl mf (l ++ [o]) w = match dexec N dfl mf l w with WOk w' _ _ => match dstep N dfl mf o w' None with WOk w'' _ _ => WOk w'' None None | e => e end | e => e end.
  Proof. revert w. induction l as [|p l IH]; intros w; cbn; [done|]. destruct (dstep N dfl mf p w None); [apply IH|done|done]. Qed.
  Theorem history_ok l m : vec_history N dfl l m -> exists w, dexec N dfl mf l ∅ = WOk w None None /\ sim w m.
  Proof.
    induction 1 as [|l o m Hh IH Hl].
    - exists ∅. split; [done|]. intros x. rewrite !lookup_empty. constructor.
    - destruct IH as (w & He & Hs). destruct (step_ok o w m Hs Hl) as (w' & Hst & Hs'). exists w'. rewrite dexec_snoc, He, Hst. done.
  Qed.

  Lemma holds_contents c v : holds c v -> same_contents c v.
  Proof.
    intros Hc. split; [by apply size_ok|]. split; [by apply empty_ok|]. split; [|split].
    - intros i r Hi. by eapply read_ok.
    - intros r Hr. unfold d_front, dbind. destruct v as [|r0 v]; [done|]. injection Hr as ->. rewrite (empty_ok c _ None Hc), bool_decide_eq_false_2 by done. by eapply read_ok.
    - intros r Hr. unfold d_back, dbind. destruct v as [|r0 v]; [done|]. rewrite (empty_ok c _ None Hc), bool_decide_eq_false_2 by done. rewrite (size_ok c _ None Hc). eapply read_ok; [done|]. by rewrite <- last_lookup.
  Qed.
  Lemma holds_columns c v : holds c v -> same_columns N c v.
  Proof.
    intros Hc j Hj. exists (column j v). unfold d_view. rewrite (holds_lookup c v j Hc Hj). split; [done|]. split; [apply column_length|]. intros i r Hi. unfold column. rewrite list_lookup_fmap, Hi. cbn.
    symmetry. apply row_field; [|done]. destruct Hc as [Hv _]. rewrite Forall_lookup in Hv. by eapply Hv.
  Qed.
End Dpv.
