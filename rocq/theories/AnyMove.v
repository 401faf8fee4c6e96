(** Specifications of relocation and of move_value_from. *)
From stdpp Require Import gmap list.
From Verif Require Import TypeListModel TypeListSpec TypeListProofs AnyModel AnyInv AnySteps AnyOps.

Lemma inv_upd2 E w w' i j a' o' :
  i <> j ->
  Inv E w -> w_sref w' = w_sref w -> w_any w' = <[i := a']> (<[j := o']> (w_any w)) -> w_next w <= w_next w' ->
  is_Some (w_any w !! i) -> is_Some (w_any w !! j) ->
  any_ok E i a' (block_of w' a') -> home_ok w' a' ->
  any_ok E j o' (block_of w' o') -> home_ok w' o' ->
  (forall b, b < w_next w -> ~ own1 i w b -> ~ own1 j w b -> w_heap w' !! b = w_heap w !! b) ->
  (forall b, a_vp a' = PHeap b -> own1 i w b \/ own1 j w b \/ w_next w <= b) ->
  (forall b, a_vp o' = PHeap b -> own1 i w b \/ own1 j w b \/ w_next w <= b) ->
  (forall b, a_vp a' = PHeap b -> a_vp o' = PHeap b -> False) ->
  (forall b x, w_heap w' !! b = Some x ->
     b < w_next w' /\ (a_vp a' = PHeap b \/ a_vp o' = PHeap b \/
        (b < w_next w /\ ~ own1 i w b /\ ~ own1 j w b /\ w_heap w !! b = Some x))) ->
  Inv E w' /\ Eff {[i; j]} w w'.
Proof.
  intros Hij HI Hs Hany Hn Hi Hj Hok Hho Hok' Hho' Hh Hp Hp' Hd Hh'.
  assert (Hai : w_any w' !! i = Some a') by by rewrite Hany, lookup_insert.
  assert (Haj : w_any w' !! j = Some o') by by rewrite Hany, lookup_insert_ne, lookup_insert.
  assert (Hk : forall k, k ∉ ({[i; j]} : gset nat) -> w_any w' !! k = w_any w !! k).
  { intros k Hk. rewrite Hany, !lookup_insert_ne by set_solver. done. }
  assert (Hout : forall b, own1 i w b \/ own1 j w b \/ w_next w <= b -> ~ owned_out {[i; j]} w b).
  { intros b [(a & Ha & Hb)|[(a & Ha & Hb)|Hb]].
    - eapply owned_in_not_out; [done|]. exists i, a. set_solver.
    - eapply owned_in_not_out; [done|]. exists j, a. set_solver.
    - by eapply fresh_not_out. }
  destruct (inv_frame E {[i; j]} w w') as [I V]; try done.
  - intros b Hb. apply Hh.
    + destruct Hb as (k & a & _ & Ha & Hb). destruct (any_block _ _ _ _ _ HI Ha Hb) as (? & ? & ? & Hx & _).
      by eapply inv_fresh.
    + intros Ho. by eapply Hout; [left|].
    + intros Ho. by eapply Hout; [right; left|].
  - intros k a Hk'. assert (k = i \/ k = j) as [-> | ->] by set_solver.
    + rewrite Hai. by intros [= <-].
    + rewrite Haj. by intros [= <-].
  - intros k a b Hk' Ha Hb. assert (k = i \/ k = j) as [-> | ->] by set_solver.
    + rewrite Hai in Ha. injection Ha as <-. split; [apply Hout; by apply Hp|].
      intros k' a'' Hk'' Ha'' Hb''. assert (k' = i \/ k' = j) as [-> | ->] by set_solver; [done|].
      rewrite Haj in Ha''. injection Ha'' as <-. exfalso. by eapply Hd.
    + rewrite Haj in Ha. injection Ha as <-. split; [apply Hout; by apply Hp'|].
      intros k' a'' Hk'' Ha'' Hb''. assert (k' = i \/ k' = j) as [-> | ->] by set_solver; [|done].
      rewrite Hai in Ha''. injection Ha'' as <-. exfalso. by eapply Hd.
  - intros b x Hb. destruct (Hh' _ _ Hb) as [Hlt Hc]. split; [done|].
    destruct Hc as [Hc|[Hc|(Hlt' & N1 & N2 & Hc)]].
    + left. exists i, a'. set_solver.
    + left. exists j, o'. set_solver.
    + right. destruct (heap_owner E {[i; j]} w b x HI Hc) as [(k & a & Hk' & Ha & Hb')|]; [|done].
      assert (k = i \/ k = j) as [-> | ->] by set_solver; exfalso; [apply N1|apply N2]; by exists a.
Qed.

(** ** relocate *)
Definition freed (E : env) (os : option obj) : Prop := bo_free E os = true.

(** the memory after relocation: a new T at [d]; at [s] nothing that needs destruction *)
Lemma relocate_spec E w T s d x id :
  place_fit E w T d -> obj_at w s = Some (Obj T x id) -> s <> d ->
  wp (relocate E T s d)
     (fun _ w' => exists os id', freed E os /\
        w_any w' = w_any (write_w (write_w w d (Some (Obj T x id'))) s os) /\
        w_heap w' = w_heap (write_w (write_w w d (Some (Obj T x id'))) s os) /\
        w_sref w' = w_sref w /\ w_next w <= w_next w' /\ allocs w' = allocs w /\
        (ty_ntmove (e_ty E T) = true -> w_tick w' = w_tick w))
     (fun _ => False)
     (ty_ntmove (e_ty E T) = false) w.
Proof.
  intros Hf Ho Hne. unfold relocate. destruct (ty_tcopy (e_ty E T) && ty_tdestr (e_ty E T)) eqn:Htriv.
  - apply andb_prop in Htriv as [_ Htd]. eapply wp_ok; [by eapply memcpy_ok|].
    exists (Some (Obj T x id)), (w_next w). split.
    { unfold freed. cbn. unfold nontrivial. cbn. by rewrite Htd. }
    assert (Hw : forall o, w_any (write_w (set_next w (S (w_next w))) d o) = w_any (write_w w d o) /\
        w_heap (write_w (set_next w (S (w_next w))) d o) = w_heap (write_w w d o)).
    { intros o. destruct d as [k|b]; cbn; [by destruct (w_any w !! k)|by destruct (w_heap w !! b)]. }
    destruct (Hw (Some (Obj T x (w_next w)))) as [-> ->]. split; [|split; [|split; [|split; [|split]]]].
    + destruct s as [k|b]; cbn.
      * destruct (w_any (write_w w d (Some (Obj T x (w_next w)))) !! k) as [a|] eqn:Ha; [|done]. cbn.
        rewrite insert_id; [done|]. rewrite Ha. f_equal. destruct d as [k'|b']; cbn in *.
        -- destruct (w_any w !! k') as [a'|] eqn:Ha'; [|by rewrite Ha in Ho; destruct a as [? ? u ? ?]; cbn in *; destruct u; simplify_eq].
           cbn in Ha. rewrite lookup_insert_ne in Ha by congruence. rewrite Ha in Ho.
           destruct a as [? ? u ? ?]; cbn in *; destruct u; simplify_eq. done.
        -- assert (w_any w !! k = Some a) as Ha0 by (by destruct (w_heap w !! b')). rewrite Ha0 in Ho.
           destruct a as [? ? u ? ?]; cbn in *; destruct u; simplify_eq. done.
      * by destruct (w_heap (write_w w d (Some (Obj T x (w_next w)))) !! b).
    + destruct s as [k|b]; cbn.
      * by destruct (w_any (write_w w d (Some (Obj T x (w_next w)))) !! k).
      * destruct (w_heap (write_w w d (Some (Obj T x (w_next w)))) !! b) as [a|] eqn:Ha; [|done]. cbn.
        rewrite insert_id; [done|]. rewrite Ha. f_equal. destruct d as [k'|b']; cbn in *.
        -- assert (w_heap w !! b = Some a) as Ha0 by (by destruct (w_any w !! k')). rewrite Ha0 in Ho.
           destruct a; cbn in *; simplify_eq. done.
        -- destruct (w_heap w !! b') as [a'|] eqn:Ha'; [|by rewrite Ha in Ho; destruct a; cbn in *; simplify_eq].
           cbn in Ha. rewrite lookup_insert_ne in Ha by congruence. rewrite Ha in Ho.
           destruct a; cbn in *; simplify_eq. done.
    + by rewrite write_w_sref.
    + rewrite write_w_next. cbn. lia.
    + apply allocs_log. by rewrite write_w_log.
    + by rewrite write_w_tick.
  - apply wp_noexcept. apply wp_bind.
    destruct (decide (ty_ntmove (e_ty E T) = true \/ e_throws E (w_tick w) = false)) as [Hnt|Hnt].
    + eapply wp_ok; [apply construct_ok; [done|by exists id|done]|].
      set (nt := ty_ntmove (e_ty E T)) in *. set (w1 := ctor_w E w T d x (negb nt)).
      assert (Hw1 : w_any w1 = w_any (write_w w d (Some (Obj T x (w_next w)))) /\
                    w_heap w1 = w_heap (write_w w d (Some (Obj T x (w_next w)))) /\
                    w_sref w1 = w_sref w /\ w_next w1 = S (w_next w) /\ allocs w1 = allocs w /\
                    (nt = true -> w_tick w1 = w_tick w)).
      { unfold w1, ctor_w. destruct (ty_tdestr _), nt, d as [k|b]; cbn;
          first [destruct (w_any w !! k)|destruct (w_heap w !! b)]; cbn; done. }
      clearbody w1. destruct Hw1 as (Hany & Hh & Hs & Hn & Hal & Htk).
      assert (Ho1 : obj_at w1 s = Some (Obj T x id)).
      { destruct s as [k|b]; cbn in *; rewrite ?Hany, ?Hh; destruct d as [k'|b']; cbn.
        - destruct (w_any w !! k') eqn:Hk'; [|done]. cbn. by rewrite lookup_insert_ne by congruence.
        - by destruct (w_heap w !! b').
        - by destruct (w_any w !! k').
        - destruct (w_heap w !! b') eqn:Hk'; [|done]. cbn. by rewrite lookup_insert_ne by congruence. }
      eapply wp_ok; [by eapply destroy_at_ok|]. exists None, (w_next w). split; [done|].
      unfold dtor_w. destruct (ty_tdestr _); cbn; rewrite ?write_w_sref, ?write_w_next, ?write_w_tick;
        rewrite ?allocs_add; cbn.
      all: split; [|split; [|split; [done|split; [lia|split; [|done]]]]].
      all: try (rewrite <- Hal; apply allocs_log; by rewrite write_w_log).
      all: destruct s as [k|b]; cbn; rewrite ?Hany, ?Hh.
      all: match goal with |- context [?m !! ?k] => destruct (m !! k) end; cbn; congruence.
    + assert (ty_ntmove (e_ty E T) = false /\ e_throws E (w_tick w) = true) as [Hnm Ht].
      { destruct (ty_ntmove _), (e_throws E (w_tick w)); try done; exfalso; apply Hnt; auto. }
      rewrite Hnm. eapply wp_exn; [by eapply construct_exn; [|exists id|]|]. done.
Qed.

Lemma alloc_eqb_trans E x y z : alloc_eqb E x y = true -> alloc_eqb E y z = true -> alloc_eqb E x z = true.
Proof.
  unfold alloc_eqb. destruct (e_always_eq E); [done|]. cbn. rewrite !Nat.eqb_eq. congruence.
Qed.
Lemma alloc_eqb_refl E x : alloc_eqb E x x = true.
Proof. unfold alloc_eqb. rewrite Nat.eqb_refl. by rewrite orb_true_r. Qed.

Lemma some_copy_in ms m : some_copy_method ms = Some m -> In m ms.
Proof.
  induction ms as [|x tl IH]; [done|]. cbn. destruct x; intros H; try (right; by apply IH).
  injection H as <-. by left.
Qed.

Lemma get_move_fn_ok E w j o v T : Inv E w -> w_any w !! j = Some o -> a_vt o = Some v ->
  vt_entries (a_ms o) v T -> has_move_ms (a_ms o) = true -> get_move_fn j w = Ok T w.
Proof.
  intros HI Ho Hv He Hm. unfold get_move_fn. rewrite (bind_get_any _ _ _ _ Ho). unfold has_move_ms in Hm.
  destruct (contains_v meqb MMove (a_ms o)) eqn:Hc.
  - apply (contains_v_spec meqb meqb_ok) in Hc. by eapply any_slot_ok.
  - destruct (some_copy_method (a_ms o)) as [m|] eqn:Hs; [|done]. apply some_copy_in in Hs. by eapply any_slot_ok.
Qed.

(** relocating the value of [j] into the place the empty [i] points to *)
Lemma relocate_transfer E w i j a o v v' T x id :
  Inv E w -> i <> j -> w_any w !! i = Some a -> a_vt a = None -> w_any w !! j = Some o -> a_vt o = Some v ->
  vt_entries (a_ms o) v T -> obj_at w (a_vp o) = Some (Obj T x id) -> room E i T a ->
  vt_entries (a_ms a) v' T -> vp_home v' = vp_home v ->
  wp (relocate E T (a_vp o) (a_vp a))
     (fun _ w1 => exists a1 o1, w_any w1 !! i = Some a1 /\ w_any w1 !! j = Some o1 /\
        a_vt a1 = None /\ a_vp a1 = a_vp a /\ a_alloc a1 = a_alloc a /\ a_ms a1 = a_ms a /\
        (forall b, a_vp a = PHeap b -> a_un a1 = a_un a) /\
        a_vt o1 = a_vt o /\ a_vp o1 = a_vp o /\ a_alloc o1 = a_alloc o /\ a_ms o1 = a_ms o /\
        (forall b, a_vp o = PHeap b -> a_un o1 = a_un o) /\
        allocs w1 = allocs w /\ w_sref w1 = w_sref w /\ w_next w <= w_next w1 /\
        (ty_ntmove (e_ty E T) = true -> w_tick w1 = w_tick w) /\
        (forall w2, w_any w2 = <[i := Any (Some v') (a_vp a1) (a_un a1) (a_alloc a1) (a_ms a1)]>
                         (<[j := Any None (a_vp o1) (a_un o1) (a_alloc o1) (a_ms o1)]> (w_any w1)) ->
           w_heap w2 = w_heap w1 -> w_sref w2 = w_sref w1 -> w_next w1 <= w_next w2 ->
           Inv E w2 /\ Eff {[i; j]} w w2 /\ content w2 i = Some (Some (T, x)) /\ content w2 j = Some None))
     (fun _ => False) (ty_ntmove (e_ty E T) = false) w.
Proof.
  intros HI Hij Ha Hav Ho Hov He Hobj Hr He' Hh'.
  pose proof (room_place_fit _ _ _ _ _ HI Ha Hav Hr) as Hpf.
  assert (Hne : a_vp o <> a_vp a).
  { intros Heq. pose proof (inv_ok _ _ HI _ _ Ha) as [_ H1]. pose proof (inv_ok _ _ HI _ _ Ho) as [_ H2].
    destruct (a_vp a) as [k|b] eqn:Hp.
    - rewrite Heq in H2. destruct H1 as [-> _], H2 as [-> _]. done.
    - apply Hij. by eapply inv_inj. }
  eapply wp_mono; [by eapply relocate_spec| |done|done].
  intros [] w1 (os & id' & Hos & Hany & Hheap & Hs & Hn & Hal & Htk).
  pose proof (inv_ok _ _ HI _ _ Ha) as [Hda Hoka]. unfold block_of in Hoka. rewrite Hav in Hoka.
  pose proof (inv_ok _ _ HI _ _ Ho) as [Hdo Hoko]. unfold block_of in Hoko. rewrite Hov in Hoko.
  assert (Hvo : vt_alive w v) by by eapply any_home.
  destruct Hr as [Halg Hr].
  (* the fields of the two anys, and the heap, after relocation *)
  set (ua := match a_vp a with PData _ => UObj (Obj T x id') | PHeap _ => a_un a end).
  set (uo := match a_vp o with PData _ => (match os with Some y => UObj y | None => UEmpty end) | PHeap _ => a_un o end).
  assert (Hany1 : w_any w1 = <[i := Any None (a_vp a) ua (a_alloc a) (a_ms a)]>
                       (<[j := Any (Some v) (a_vp o) uo (a_alloc o) (a_ms o)]> (w_any w))).
  { rewrite Hany. unfold ua, uo. destruct (a_vp a) as [k|b] eqn:Hpa.
    - destruct Hoka as [-> _]. cbn. rewrite Ha. rewrite Hav, Hpa.
      destruct (a_vp o) as [k|b] eqn:Hpo.
      + destruct Hoko as [-> _]. cbn. rewrite lookup_insert_ne by done. rewrite Ho, Hov, Hpo. cbn.
        rewrite insert_commute by done. done.
      + cbn. destruct (w_heap w !! b); cbn; f_equal; rewrite insert_id; try done; rewrite Ho; f_equal; destruct o; cbn in *; congruence.
    - rewrite insert_commute by done. rewrite (insert_id _ i); cbn.
      2:{ rewrite Ha; destruct a; cbn in *; congruence. }
      destruct Hoka as (al & n & bo & Hb & _). rewrite Hb.
      destruct (a_vp o) as [k|b'] eqn:Hpo.
      + destruct Hoko as [-> _]. cbn. rewrite Ho, Hov, Hpo. cbn. done.
      + cbn. rewrite (insert_id (w_any w)); [|rewrite Ho; destruct o; cbn in *; congruence].
        match goal with |- context [?m !! b'] => by destruct (m !! b') end. }
  clear Hany.
  exists (Any None (a_vp a) ua (a_alloc a) (a_ms a)), (Any (Some v) (a_vp o) uo (a_alloc o) (a_ms o)).
  rewrite Hany1, lookup_insert, lookup_insert_ne, lookup_insert by done. cbn.
  do 6 (split; [done|]). split. { intros b Hb. unfold ua. by rewrite Hb. }
  split; [done|]. do 3 (split; [done|]). split. { intros b Hb. unfold uo. by rewrite Hb. }
  do 4 (split; [done|]).
  intros w2 Hany2 Hh2 Hs2 Hn2.
  rewrite insert_commute, (insert_insert _ i), <- (insert_commute _ i j), insert_insert in Hany2 by done.
  (* heap facts *)
  assert (Hha : forall b al n bo, a_vp a = PHeap b -> w_heap w !! b = Some (Block al n bo) ->
      w_heap w2 !! b = Some (Block al n (Some (Obj T x id')))).
  { intros b al n bo Hb Hx. rewrite Hh2, Hheap, Hb. cbn. rewrite Hx. cbn.
    destruct (a_vp o) as [k|b'] eqn:Hpo; cbn.
    - by destruct (w_any w !! k); cbn; rewrite lookup_insert.
    - assert (b <> b') by congruence. rewrite lookup_insert_ne by done.
      destruct (w_heap w !! b') eqn:Hb'; cbn; rewrite ?lookup_insert_ne by done; by rewrite lookup_insert. }
  assert (Hho : forall b al n bo, a_vp o = PHeap b -> w_heap w !! b = Some (Block al n bo) ->
      w_heap w2 !! b = Some (Block al n os)).
  { intros b al n bo Hb Hx. rewrite Hh2, Hheap, Hb.
    destruct (a_vp a) as [k|b'] eqn:Hpa; cbn.
    - destruct (w_any w !! k); cbn; rewrite Hx; cbn; by rewrite lookup_insert.
    - assert (b <> b') by congruence. destruct (w_heap w !! b') eqn:Hb'; cbn; rewrite ?lookup_insert_ne by done;
        rewrite Hx; cbn; by rewrite lookup_insert. }
  assert (Hoth : forall b, a_vp a <> PHeap b -> a_vp o <> PHeap b -> w_heap w2 !! b = w_heap w !! b).
  { intros b Hb1 Hb2. rewrite Hh2, Hheap.
    destruct (a_vp a) as [k|b'] eqn:Hpa; destruct (a_vp o) as [k'|b''] eqn:Hpo; cbn;
      repeat (match goal with |- context [match ?m !! ?k with _ => _ end] => destruct (m !! k) end; cbn);
      rewrite ?lookup_insert_ne by congruence; done. }
  assert (Hown : forall b, own1 i w b <-> a_vp a = PHeap b) by (intros; by eapply own1_same).
  assert (Hown' : forall b, own1 j w b <-> a_vp o = PHeap b) by (intros; by eapply own1_same).
  destruct (inv_upd2 E w w2 i j (Any (Some v') (a_vp a) ua (a_alloc a) (a_ms a)) (Any None (a_vp o) uo (a_alloc o) (a_ms o)))
    as [I2 F2]; try done.
  - congruence.
  - lia.
  - split; [done|]. cbn. destruct (a_vp a) as [k|b] eqn:Hpa.
    + destruct Hr as [-> Hfit]. split; [done|]. exists T, x, id'. done.
    + destruct Hoka as (al & n & bo & Hb & Hae & Hu & _). destruct Hr as (n' & Hu' & Hsz).
      rewrite Hu in Hu'. injection Hu' as <-.
      exists al, n, (Some (Obj T x id')). unfold block_of. cbn. rewrite (Hha b al n bo) by done.
      repeat split; try done. exists T, x, id'. done.
  - unfold home_ok. cbn. unfold vt_alive in *. rewrite Hh', Hs2, Hs. done.
  - split; [done|]. cbn. destruct (a_vp o) as [k|b] eqn:Hpo.
    + destruct Hoko as [-> _]. split; [done|]. unfold uo. unfold freed in Hos. by destruct os.
    + destruct Hoko as (al & n & bo & Hb & Hae & Hu & _).
      exists al, n, os. unfold block_of. cbn. rewrite (Hho b al n bo) by done. done.
  - intros b _ Hb1 Hb2. rewrite Hown in Hb1. rewrite Hown' in Hb2. by apply Hoth.
  - cbn. intros b Hb. left. by rewrite Hown.
  - cbn. intros b Hb. right. left. by rewrite Hown'.
  - cbn. intros b Hb1 Hb2. congruence.
  - cbn. intros b y Hb. destruct (decide (a_vp a = PHeap b)) as [Hpa|Hpa].
    { split; [|by left]. destruct (any_block _ _ _ _ _ HI Ha Hpa) as (? & ? & ? & Hx & _).
      apply (inv_fresh _ _ HI) in Hx. lia. }
    destruct (decide (a_vp o = PHeap b)) as [Hpo|Hpo].
    { split; [|by right; left]. destruct (any_block _ _ _ _ _ HI Ho Hpo) as (? & ? & ? & Hx & _).
      apply (inv_fresh _ _ HI) in Hx. lia. }
    rewrite Hoth in Hb by done. pose proof (inv_fresh _ _ HI _ _ Hb). split; [lia|]. right. right.
    rewrite Hown, Hown'. done.
  - split; [done|]. split; [done|]. unfold content, view. rewrite Hany2, lookup_insert, lookup_insert_ne, lookup_insert by done.
    split; [|done]. unfold content_of, block_of. cbn. destruct (a_vp a) as [k|b] eqn:Hpa; [done|].
    destruct Hoka as (al & n & bo & Hb & _). by rewrite (Hha b al n bo).
Qed.

(** what a move leaves behind: [i] has the value of [j], [j] is empty; allocators are untouched *)
Definition moved (E : env) (w w' : world) (i j : nat) (a o : any) : Prop :=
  Inv E w' /\ Eff {[i; j]} w w' /\ content w' i = content w j /\ content w' j = Some None /\
  exists a' o', w_any w' !! i = Some a' /\ w_any w' !! j = Some o' /\
    a_alloc a' = a_alloc a /\ a_ms a' = a_ms a /\ a_alloc o' = a_alloc o /\ a_ms o' = a_ms o /\
    a_vt o' = None /\
    match a_vt o with
    | None => a_vt a' = None /\ a_vp a' = PData i /\ a_vp o' = a_vp o
    | Some v => exists v', a_vt a' = Some v' /\ subtable (a_ms a) (a_ms o) v = Some v'
    end.

Lemma content_empty w i a : w_any w !! i = Some a -> a_vt a = None -> content w i = Some None.
Proof. intros Ha Hv. unfold content, view. rewrite Ha. unfold content_of. by rewrite Hv. Qed.

Lemma room_fits E w i j a o v T : Inv E w -> w_any w !! j = Some o -> a_vt o = Some v ->
  vt_entries (a_ms o) v T -> a_vp o = PData j -> a_vp a = PData i -> room E i T a /\ ty_ntmove (e_ty E T) = true.
Proof.
  intros HI Ho Hv He Hp Hpa. pose proof (inv_ok _ _ HI _ _ Ho) as [Hd Hok]. rewrite Hp, Hv in Hok.
  destruct Hok as [_ (T' & x & id & He' & _ & Hf)].
  assert (T = T') as ->.
  { apply In_nth_error in Hd as (k & Hk). pose proof (He' _ _ Hk) as H.
    specialize (He _ _ Hk). rewrite He in H. by injection H. }
  unfold room. rewrite Hpa. pose proof Hf as Hf'. unfold fits in Hf'. apply andb_prop in Hf' as [Hf' _].
  apply andb_prop in Hf' as [Hal Hnt]. apply Nat.leb_le in Hal. done.
Qed.

Lemma has_move_buffer E ms : e_soos E <> 0 -> has_move E ms = true -> has_move_ms ms = true.
Proof. intros Hz. unfold has_move. destruct (Nat.eqb_spec (e_soos E) 0); [done|]. by rewrite orb_false_r. Qed.
Lemma has_move_method E ms : has_move_ms ms = true -> has_move E ms = true.
Proof. unfold has_move. by intros ->. Qed.
Lemma has_move_assign_has E ms : has_move_assign E ms = true -> has_move E ms = true.
Proof. unfold has_move_assign. by destruct (has_move E ms). Qed.
Lemma has_move_assign_method E ms : has_move_assign E ms = true -> movable_alloc E = false -> has_move_ms ms = true.
Proof. unfold has_move_assign. intros H Hf. rewrite Hf, orb_false_r in H. by apply andb_prop in H as [_ ?]. Qed.
Lemma has_move_assign_of E ms : has_move_ms ms = true -> has_move_assign E ms = true.
Proof. unfold has_move_assign, has_move. by intros ->. Qed.

Lemma move_value_from_spec E w i j a o reuse :
  env_wf E -> Inv E w -> i <> j -> w_any w !! i = Some a -> a_vt a = None -> a_vp a = PData i ->
  w_any w !! j = Some o -> contiguous (a_ms a) (a_ms o) -> has_move E (a_ms o) = true ->
  (reuse = true \/ e_soos E = 0 \/ a_vp o = PData j \/ a_vt o = None) ->
  (forall b, a_vp o = PHeap b -> a_vt o <> None -> alloc_eqb E (a_alloc a) (a_alloc o) = true) ->
  wp (move_value_from E reuse i j)
     (fun _ w' => moved E w w' i j a o /\ Quiet w w' /\
        (forall a' b, w_any w' !! i = Some a' -> a_vt o <> None ->
           a_vp o = PHeap b -> a_vp a' = PHeap b /\ a_un a' = a_un o) /\
        (forall a', w_any w' !! i = Some a' -> a_vp o = PData j -> a_vp a' = PData i))
     (fun _ => False) False w.
Proof.
  intros Hwf HI Hij Ha Hv Hp Ho Hc Hm Hreuse Hal. unfold move_value_from. apply wp_noexcept.
  eapply wp_bind_ok; [by apply get_any_ok|]. unfold has_val at 1. rewrite Hv.
  rewrite (proj2 (mem_allocated_false i a) Hp). cbn [negb andb ensure].
  eapply wp_bind_ok; [done|]. eapply wp_bind_ok; [by apply get_any_ok|]. unfold has_val.
  destruct (a_vt o) as [v|] eqn:Hov; cbn [negb].
  2:{ apply wp_ret. split; [|split; [done|]].
      - split; [done|]. split; [apply eff_refl|]. rewrite (content_empty _ _ _ Ho Hov), (content_empty _ _ _ Ha Hv).
        split; [done|]. split; [done|]. exists a, o. rewrite Hov. done.
      - split; [done|]. intros a' Ha' _. congruence. }
  destruct (any_value _ _ _ _ _ HI Ho Hov) as (T & x & id & He & Hobj & Hcont & Halg).
  destruct (subtable_some (a_ms a) (a_ms o) v Hc) as (v' & Hv').
  assert (He' : vt_entries (a_ms a) v' T) by by eapply subtable_entries.
  pose proof (subtable_home _ _ _ _ Hv') as Hhome.
  pose proof (inv_ok _ _ HI _ _ Ha) as [Hda Hoka]. rewrite Hp, Hv in Hoka. destruct Hoka as [_ Huf].
  pose proof (inv_ok _ _ HI _ _ Ho) as [Hdo Hoko]. unfold block_of in Hoko. rewrite Hov in Hoko.
  (* the memory of j changes hands *)
  assert (Hsteal : forall b, a_vp o = PHeap b -> forall Q : unit -> world -> Prop,
    (forall w', moved E w w' i j a o /\ Quiet w w' /\
        (forall a' b, w_any w' !! i = Some a' -> Some v <> None ->
           a_vp o = PHeap b -> a_vp a' = PHeap b /\ a_un a' = a_un o) /\
        (forall a', w_any w' !! i = Some a' -> a_vp o = PData j -> a_vp a' = PData i) -> Q tt w') ->
    forall X t,
    wp (((let! o := get_any j in
       set_vp j (PData j) ;;;
       set_vp i (a_vp o) ;;;
       let! n := get_size j in
       set_size E i n) ;;;
       let! o := get_any j in
         match a_vt o with
         | None => ubM UbAssert
         | Some v =>
             let! v' := subtableM (a_ms a) (a_ms o) v in
             set_vt i (Some v') ;;;
             set_vt j None
         end)) Q X t w).
  { intros b Hpo Q HQ X t. rewrite Hpo in Hoko. destruct Hoko as (al & n & bo & Hb & Hae & Hu & Hbo).
    destruct Hbo as (T' & x' & id' & HeT & -> & Hsz & _). cbn in Hobj. rewrite Hpo in Hobj. cbn in Hobj. rewrite Hb in Hobj.
    cbn in Hobj. injection Hobj as -> -> ->.
    apply wp_bind. eapply wp_bind_ok; [by apply get_any_ok|].
    eapply wp_bind_ok; [by apply set_vp_ok|].
    eapply wp_bind_ok; [apply (set_vp_ok _ _ _ a); cbn; by rewrite lookup_insert_ne|]. cbn.
    eapply wp_bind_ok.
    { eapply get_size_ok; [cbn; rewrite lookup_insert_ne by done; by rewrite lookup_insert|]. cbn. exact Hu. }
    eapply wp_ok; [apply set_size_ok; [cbn; by rewrite lookup_insert|cbn; done]|].
    eapply wp_bind_ok.
    { eapply get_any_ok. cbn. rewrite !lookup_insert_ne by done. by rewrite lookup_insert. }
    cbn. rewrite Hov. unfold subtableM. rewrite Hv'. eapply wp_bind_ok; [done|].
    eapply wp_bind_ok; [apply set_vt_ok; cbn; by rewrite lookup_insert|].
    eapply wp_ok.
    { apply set_vt_ok. cbn. rewrite !lookup_insert_ne by done. by rewrite lookup_insert. }
    cbn. apply HQ. match goal with |- moved _ _ ?x _ _ _ _ /\ _ => set (w' := x) end.
    assert (Hany : w_any w' = <[i := Any (Some v') (PHeap b) (USize n) (a_alloc a) (a_ms a)]>
                        (<[j := Any None (PData j) (USize n) (a_alloc o) (a_ms o)]> (w_any w))).
    { unfold w'. cbn. rewrite !insert_insert. rewrite insert_commute, insert_insert by done. by rewrite Hu, Hpo. }
    assert (Hheap : w_heap w' = w_heap w) by done.
    assert (Hs : w_sref w' = w_sref w) by done. assert (Hn : w_next w' = w_next w) by done.
    assert (HQt : Quiet w w') by done. clearbody w'.
    assert (Hae' : alloc_eqb E (a_alloc a) al = true).
    { eapply alloc_eqb_trans; [|done]. by eapply Hal. }
    assert (Hown : forall b, own1 i w b <-> a_vp a = PHeap b) by (intros; by eapply own1_same).
    assert (Hown' : forall b, own1 j w b <-> a_vp o = PHeap b) by (intros; by eapply own1_same).
    destruct (inv_upd2 E w w' i j (Any (Some v') (PHeap b) (USize n) (a_alloc a) (a_ms a))
       (Any None (PData j) (USize n) (a_alloc o) (a_ms o))) as [I2 F2]; try done.
    - lia.
    - split; [done|]. cbn. exists al, n, (Some (Obj T x id)). unfold block_of. cbn. rewrite Hheap, Hb.
      repeat split; try done. exists T, x, id. done.
    - unfold home_ok. cbn. pose proof (any_home _ _ _ _ _ HI Ho Hov) as Hvo. unfold vt_alive in *. by rewrite Hhome, Hs.
    - intros b' _ _ _. by rewrite Hheap.
    - cbn. intros b' [= <-]. right. left. by rewrite Hown'.
    - cbn. intros b' y. rewrite Hheap. intros Hy. pose proof (inv_fresh _ _ HI _ _ Hy). split; [lia|].
      destruct (decide (b = b')) as [<-|Hne]; [by left|]. right. right. rewrite Hown, Hown'.
      repeat split; try done; congruence.
    - split; [|split; [done|]].
      + split; [done|]. split; [done|]. rewrite Hcont. unfold content, view. rewrite Hany, lookup_insert, lookup_insert_ne, lookup_insert by done.
        unfold content_of, block_of. cbn. rewrite Hheap, Hb. cbn. split; [done|]. split; [done|].
        eexists _, _. split; [done|]. split; [done|]. cbn. do 5 (split; [done|]). rewrite Hov. by exists v'.
      + split; [|congruence]. intros a' b'. rewrite Hany, lookup_insert. intros [= <-] _. cbn. rewrite Hpo, Hu. done. }
  assert (Hreloc : e_soos E <> 0 -> a_vp o = PData j ->
    wp ((let! T := get_move_fn j in
            let! a := get_any i in
            relocate E T (a_vp o) (a_vp a)) ;;;
       let! o := get_any j in
         match a_vt o with
         | None => ubM UbAssert
         | Some v =>
             let! v' := subtableM (a_ms a) (a_ms o) v in
             set_vt i (Some v') ;;;
             set_vt j None
         end)
      (fun _ w' => moved E w w' i j a o /\ Quiet w w' /\
        (forall a' b, w_any w' !! i = Some a' -> Some v <> None ->
           a_vp o = PHeap b -> a_vp a' = PHeap b /\ a_un a' = a_un o) /\
        (forall a', w_any w' !! i = Some a' -> a_vp o = PData j -> a_vp a' = PData i))
      (fun _ => False) False w).
  { intros Hz Hpo. apply (has_move_buffer _ _ Hz) in Hm. destruct (room_fits E w i j a o v T HI Ho Hov He Hpo Hp) as [Hroom Hnt].
    apply wp_bind. eapply wp_bind_ok; [by eapply get_move_fn_ok|]. eapply wp_bind_ok; [by apply get_any_ok|].
    eapply wp_mono; [by eapply (relocate_transfer E w i j a o v v' T x id)| |done|].
    2:{ rewrite Hnt. done. }
    intros [] w1 (a1 & o1 & Ha1 & Ho1 & Hv1 & Hp1 & Hl1 & Hm1 & Hu1 & Hvo1 & Hpo1 & Hlo1 & Hmo1 & Huo1 & Hall & Hs1 & Hn1 & Htk & Hfin).
    eapply wp_bind_ok; [by apply get_any_ok|]. rewrite Hvo1, Hov, Hmo1. unfold subtableM. rewrite Hv'.
    eapply wp_bind_ok; [done|]. eapply wp_bind_ok; [by apply set_vt_ok|].
    eapply wp_ok; [apply set_vt_ok; cbn; by rewrite lookup_insert_ne|].
    match goal with |- moved _ _ ?x _ _ _ _ /\ _ => set (w' := x) end.
    assert (Hany' : w_any w' = <[i:=Any (Some v') (a_vp a1) (a_un a1) (a_alloc a1) (a_ms a1)]>
      (<[j:=Any None (a_vp o1) (a_un o1) (a_alloc o1) (a_ms o1)]> (w_any w1))).
    { unfold w'. cbn. by rewrite insert_commute. }
    destruct (Hfin w' Hany') as (I2 & F2 & C2 & C2'); try done.
    split; [|split; [|split]].
    - split; [done|]. split; [done|]. split; [congruence|]. split; [done|]. rewrite Hany'.
      rewrite lookup_insert, lookup_insert_ne, lookup_insert by done.
      eexists _, _. split; [done|]. split; [done|]. cbn. do 4 (split; [congruence|]). split; [done|].
      rewrite Hov. by exists v'.
    - split; [by apply Htk|]. exact Hall.
    - intros a' b _ _. congruence.
    - intros a'. rewrite Hany', lookup_insert. intros [= <-]. cbn. congruence. }
  destruct (Nat.eqb_spec (e_soos E) 0) as [Hz|Hz].
  { destruct (a_vp o) as [k|b] eqn:Hpo.
    - (* impossible: nothing fits into no bytes *)
      destruct Hoko as [_ (T' & _ & _ & _ & _ & Hf)]. unfold fits in Hf. apply andb_prop in Hf as [_ Hf].
      apply Nat.leb_le in Hf. pose proof (wf_size _ Hwf T'). lia.
    - apply (Hsteal b eq_refl). intros w' H. exact H. }
  destruct (vp_cases _ _ _ _ HI Ho) as [[Hpo Hma]|(b & Hpo & Hma)]; rewrite Hma; cbn [negb].
  - eapply wp_mono; [by apply Hreloc|done| |done]. intros ? [].
  - destruct Hreuse as [-> |[?|[?|?]]]; [|lia|congruence|congruence].
    apply (Hsteal b Hpo). intros w' H. exact H.
Qed.

Lemma inv_tick E w n : Inv E w -> Inv E (set_tick w n).
Proof. intros [H1 H2 H3 H4 H5]. by split. Qed.
Lemma eff_tick S w n : Eff S w (set_tick w n).
Proof. by split. Qed.

Lemma move_value_copy_spec E w i j a o v b n T :
  Inv E w -> i <> j -> w_any w !! i = Some a -> a_vt a = None -> a_vp a = PData i ->
  w_any w !! j = Some o -> contiguous (a_ms a) (a_ms o) -> has_move_ms (a_ms o) = true ->
  e_soos E <> 0 -> a_vp o = PHeap b -> a_un o = USize n -> a_vt o = Some v -> vt_entries (a_ms o) v T ->
  wp (move_value_from E false i j)
     (fun _ w' => moved E w w' i j a o /\ allocs w' = S (allocs w) /\
        exists a' o', w_any w' !! i = Some a' /\ w_any w' !! j = Some o' /\
           (exists b', a_vp a' = PHeap b') /\ a_un a' = USize n /\ a_vp o' = PHeap b /\ a_un o' = USize n)
     (fun w' => e_throws E (w_tick w) = true /\ w' = set_tick w (S (w_tick w)))
     (ty_ntmove (e_ty E T) = false) w.
Proof.
  intros HI Hij Ha Hv Hp Ho Hc Hm Hz Hpo Huo Hov He. unfold move_value_from. apply wp_noexcept.
  eapply wp_bind_ok; [by apply get_any_ok|]. unfold has_val at 1. rewrite Hv.
  rewrite (proj2 (mem_allocated_false i a) Hp). cbn [negb andb ensure].
  eapply wp_bind_ok; [done|]. eapply wp_bind_ok; [by apply get_any_ok|]. unfold has_val. rewrite Hov. cbn [negb].
  destruct (Nat.eqb_spec (e_soos E) 0) as [?|_]; [done|]. rewrite (mem_allocated_heap j o b Hpo). cbn [negb].
  apply wp_bind. eapply wp_bind_ok; [by eapply get_size_ok|]. apply wp_bind.
  destruct (e_throws E (w_tick w)) eqn:Ht.
  { eapply wp_exn; [by apply allocate_exn|]. done. }
  eapply wp_ok; [by apply allocate_ok|].
  eapply wp_bind_ok; [by apply set_vp_ok|]. 
  pose proof (inv_ok _ _ HI _ _ Ha) as [_ Hok]. rewrite Hp, Hv in Hok.
  eapply wp_bind_ok; [eapply get_size_ok; [cbn; by rewrite lookup_insert_ne|done]|].
  eapply wp_bind_ok; [apply set_size_ok; [cbn; by rewrite lookup_insert|cbn; by destruct Hok]|].
  cbn [a_vt a_vp a_un a_alloc a_ms w_any alloc_w set_any add_log set_heap set_next set_tick].
  match goal with |- wp _ _ _ _ ?x => set (w1 := x) end.
  assert (Hany1 : w_any w1 = <[i := Any None (PHeap (w_next w)) (USize n) (a_alloc a) (a_ms a)]> (w_any w)).
  { unfold w1. cbn. rewrite insert_insert. by rewrite Hv. }
  destruct (grow_inv E w w1 i a n (a_alloc a)) as [I1 F1]; try done.
  { apply alloc_eqb_refl. }
  { unfold w1. cbn. lia. }
  assert (Hal1 : allocs w1 = S (allocs w)) by done.
  set (b' := w_next w) in *. clearbody w1 b'.
  assert (Ha1 : w_any w1 !! i = Some (Any None (PHeap b') (USize n) (a_alloc a) (a_ms a))) by by rewrite Hany1, lookup_insert.
  set (a1 := Any None (PHeap b') (USize n) (a_alloc a) (a_ms a)) in *.
  assert (Ho1 : w_any w1 !! j = Some o) by by rewrite Hany1, lookup_insert_ne.
  destruct (any_value _ _ _ _ _ I1 Ho1 Hov) as (T' & x & id & He' & Hobj & Hcont & Halg).
  assert (T = T') as <-.
  { pose proof (inv_ok _ _ HI _ _ Ho) as [Hd _]. apply In_nth_error in Hd as (k & Hk).
    pose proof (He _ _ Hk) as H1. pose proof (He' _ _ Hk) as H2. rewrite H1 in H2. by injection H2. }
  destruct (subtable_some (a_ms a) (a_ms o) v Hc) as (v' & Hv').
  assert (Hroom : room E i T a1).
  { split; [done|]. cbn. exists n. split; [done|]. pose proof (inv_ok _ _ I1 _ _ Ho1) as [_ Hoko].
    unfold block_of in Hoko. rewrite Hpo, Hov in Hoko.
    destruct Hoko as (al & n' & bo & Hb & _ & Hu' & T' & x' & id' & _ & -> & Hsz & _).
    rewrite Hpo in Hobj. cbn in Hobj. rewrite Hb in Hobj. injection Hobj as -> _ _.
    rewrite Huo in Hu'. by injection Hu' as <-. }
  apply wp_onexn. eapply wp_bind_ok; [by eapply get_move_fn_ok|].
  change (PHeap b') with (a_vp a1).
  eapply wp_mono; [eapply (relocate_transfer E w1 i j a1 o v v' T x id); try done| |done|].
  - by eapply subtable_entries.
  - by eapply subtable_home.
  - intros [] w2 (a2 & o2 & Ha2 & Ho2 & Hv2 & Hp2 & Hl2 & Hm2 & Hu2 & Hvo2 & Hpo2 & Hlo2 & Hmo2 & Huo2 & Hall & Hs2 & Hn2 & Htk & Hfin).
    eapply wp_bind_ok; [by apply get_any_ok|]. rewrite Hvo2, Hov, Hmo2. unfold subtableM. rewrite Hv'.
    eapply wp_bind_ok; [done|]. eapply wp_bind_ok; [by apply set_vt_ok|].
    eapply wp_ok; [apply set_vt_ok; cbn; by rewrite lookup_insert_ne|].
    match goal with |- moved _ _ ?x _ _ _ _ /\ _ => set (w' := x) end.
    assert (Hany' : w_any w' = <[i:=Any (Some v') (a_vp a2) (a_un a2) (a_alloc a2) (a_ms a2)]>
      (<[j:=Any None (a_vp o2) (a_un o2) (a_alloc o2) (a_ms o2)]> (w_any w2))).
    { unfold w'. cbn. by rewrite insert_commute. }
    destruct (Hfin w' Hany') as (I2 & F2 & C2 & C2'); try done.
    split; [|split].
    + split; [done|]. split.
      { eapply eff_trans; [|exact F2]. eapply eff_mono; [|exact F1]. set_solver. }
      assert (Hcf : content w1 j = content w j) by (apply (content_frame {[i]}); [done|set_solver]).
      split; [by rewrite C2, <- Hcf, Hcont|].
      split; [done|]. rewrite Hany'. rewrite lookup_insert, lookup_insert_ne, lookup_insert by done.
      eexists _, _. split; [done|]. split; [done|]. cbn. do 4 (split; [first [congruence|rewrite Hl2; done|rewrite Hm2; done]|]). split; [done|].
      rewrite Hov. by exists v'.
    + rewrite <- Hal1, <- Hall. done.
    + rewrite Hany'. rewrite lookup_insert, lookup_insert_ne, lookup_insert by done.
      eexists _, _. split; [done|]. split; [done|]. cbn. rewrite Hp2, (Hu2 b'), Hpo2, (Huo2 b) by done.
      split; [by exists b'|]. done.
  - done.
Qed.
