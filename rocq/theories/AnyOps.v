(** Specifications (in the weakest-precondition style of AnySteps) of the members of basic_any. *)
From stdpp Require Import gmap list.
From Verif Require Import TypeListModel TypeListSpec TypeListProofs AnyModel AnyInv AnySteps.

(** one allocation more *)
Lemma allocs_add w e : allocs (add_log w e) = (if is_alloc e then S (allocs w) else allocs w).
Proof. unfold allocs. cbn. by destruct (is_alloc e). Qed.

(** an empty any without memory gets a fresh, empty block *)
Lemma grow_inv E w w' i a n al :
  Inv E w -> w_any w !! i = Some a -> a_vt a = None -> a_vp a = PData i ->
  alloc_eqb E (a_alloc a) al = true ->
  w_sref w' = w_sref w -> w_next w < w_next w' ->
  w_any w' = <[i := Any None (PHeap (w_next w)) (USize n) (a_alloc a) (a_ms a)]> (w_any w) ->
  w_heap w' = <[w_next w := Block al n None]> (w_heap w) ->
  Inv E w' /\ Eff {[i]} w w'.
Proof.
  intros HI Ha Hv Hp Hae Hs Hn Hany Hh. pose proof (inv_ok _ _ HI _ _ Ha) as [Hd _].
  destruct (inv_upd1 E w w' i (Any None (PHeap (w_next w)) (USize n) (a_alloc a) (a_ms a))) as [I V]; try done.
  - lia.
  - split; [done|]. cbn. exists al, n, None. unfold block_of. cbn. rewrite Hh, lookup_insert. done.
  - intros b Hlt _. rewrite Hh, lookup_insert_ne by lia. done.
  - cbn. intros b [= <-]. right. lia.
  - cbn. intros b x. rewrite Hh. destruct (decide (b = w_next w)) as [->|Hne].
    + intros _. split; [lia|]. by left.
    + rewrite lookup_insert_ne by done. intros Hb. pose proof (inv_fresh _ _ HI _ _ Hb). split; [lia|]. right.
      split; [done|]. split; [|done]. rewrite (own1_same E i w b a HI Ha). congruence.
  - split; [done|]. eapply eff_upd1; try done. lia.
Qed.

Lemma emplace_in_empty_spec E w i a T force s v nt :
  Inv E w -> w_any w !! i = Some a -> a_vt a = None -> a_vp a = PData i ->
  ty_align (e_ty E T) <= max_align -> src_from w i T s v ->
  wp (emplace_in_empty E i T force s nt)
     (fun _ w' => Inv E w' /\ Eff {[i]} w w' /\ content w' i = Some (Some (T, v)) /\
        allocs w' = (if fits E T && negb force then allocs w else S (allocs w)) /\
        exists a', w_any w' !! i = Some a' /\ a_vt a' = Some (addr_vtable_for T (a_ms a)) /\
          a_alloc a' = a_alloc a /\ a_ms a' = a_ms a /\
          (if fits E T && negb force then a_vp a' = PData i
           else (exists b, a_vp a' = PHeap b) /\ a_un a' = USize (ty_size (e_ty E T))))
     (fun w' => fits E T && negb force && nt = false /\ Inv E w' /\ Eff {[i]} w w' /\ w_heap w' = w_heap w /\
        exists a', w_any w' = <[i := a']> (w_any w) /\ a_vt a' = None /\ a_vp a' = PData i /\
          a_alloc a' = a_alloc a /\ a_ms a' = a_ms a)
     False w.
Proof.
  intros HI Ha Hv Hp Hal Hsrc. unfold emplace_in_empty. destruct (fits E T && negb force) eqn:Hf.
  { apply andb_prop in Hf as [Hf _].
    eapply wp_mono; [apply (construct_value_spec E w i a T s v nt False); try done| | |done].
    - split; [done|]. by rewrite Hp.
    - intros [] w' (I & F & C & L & a' & Ha' & Hv' & Hp' & Hl & Hm & _).
      do 4 (split; [done|]). exists a'. rewrite Hp in Hp'. done.
    - intros w' (-> & I & F & L & Hh & Hh' & a' & Ha' & Hv' & Hp' & Hl & Hm & _ & Hany). split; [done|].
      split; [done|]. split; [done|]. split; [by apply Hh'|]. exists a'. rewrite Hp in Hp'. done. }
  eapply wp_bind_ok; [by apply get_any_ok|]. apply wp_bind.
  destruct (e_throws E (w_tick w)) eqn:Ht.
  { eapply wp_exn; [by apply allocate_exn|]. split; [done|].
    destruct (inv_upd1 E w (set_tick w (S (w_tick w))) i a) as [I V]; try done; cbn.
    - by rewrite insert_id.
    - by apply (inv_ok _ _ HI).
    - by apply (inv_home _ _ HI _ _ Ha).
    - intros b Hb. left. by exists a.
    - intros b x Hb. split; [by eapply inv_fresh|]. destruct (decide (a_vp a = PHeap b)); [by left|]. right.
      split; [by eapply inv_fresh|]. split; [|done]. by rewrite (own1_same E i w b a HI Ha).
    - split; [done|]. split. { eapply eff_upd1; try done. cbn. by rewrite insert_id. }
      split; [done|]. exists a. split; [by rewrite insert_id|]. done. }
  eapply wp_ok; [by apply allocate_ok|]. set (n := ty_size (e_ty E T)).
  eapply wp_bind_ok; [by apply set_vp_ok|]. pose proof (inv_ok _ _ HI _ _ Ha) as [_ Hok]. rewrite Hp, Hv in Hok.
  eapply wp_bind_ok; [apply set_size_ok; [cbn; by rewrite lookup_insert|cbn; by destruct Hok]|]. cbn [a_vt a_vp a_un a_alloc a_ms w_any alloc_w set_any add_log set_heap set_next set_tick].
  match goal with |- wp _ _ _ _ ?x => set (w1 := x) end.
  assert (Hany1 : w_any w1 = <[i := Any None (PHeap (w_next w)) (USize n) (a_alloc a) (a_ms a)]> (w_any w)).
  { unfold w1. cbn. rewrite insert_insert. by rewrite Hv. }
  destruct (grow_inv E w w1 i a n (a_alloc a)) as [I1 F1]; try done.
  { unfold alloc_eqb. rewrite Nat.eqb_refl. by rewrite orb_true_r. }
  { unfold w1. cbn. lia. }
  assert (Hh1 : w_heap w1 = <[w_next w := Block (a_alloc a) n None]> (w_heap w)) by done.
  assert (Hal1 : allocs w1 = S (allocs w)) by done.
  assert (Hb0 : w_heap w !! w_next w = None) by by eapply fresh_none.
  set (b := w_next w) in *. clearbody w1 b.
  assert (Ha1 : w_any w1 !! i = Some (Any None (PHeap b) (USize n) (a_alloc a) (a_ms a))) by by rewrite Hany1, lookup_insert.
  set (a1 := Any None (PHeap b) (USize n) (a_alloc a) (a_ms a)) in *.
  assert (Hsrc1 : src_from w1 i T s v) by by eapply src_from_eff.
  assert (Hroom : room E i T a1). { split; [done|]. cbn. by exists n. }
  pose proof (construct_value_spec E w1 i a1 T s v nt False I1 Ha1 eq_refl Hroom Hsrc1) as Hcv.
  assert (Hgoal : forall w', Inv E w' /\ Eff {[i]} w1 w' /\ content w' i = Some (Some (T, v)) /\ allocs w' = allocs w1 /\
    (exists a', w_any w' !! i = Some a' /\ a_vt a' = Some (addr_vtable_for T (a_ms a1)) /\
      a_vp a' = a_vp a1 /\ a_alloc a' = a_alloc a1 /\ a_ms a' = a_ms a1 /\
      (forall b0 : nat, a_vp a1 = PHeap b0 -> a_un a' = a_un a1)) ->
   Inv E w' /\ Eff {[i]} w w' /\ content w' i = Some (Some (T, v)) /\ allocs w' = S (allocs w) /\
   (exists a' : any, w_any w' !! i = Some a' /\ a_vt a' = Some (addr_vtable_for T (a_ms a)) /\
       a_alloc a' = a_alloc a /\ a_ms a' = a_ms a /\ (exists b0, a_vp a' = PHeap b0) /\ a_un a' = USize n)).
  { intros w' (I & F & C & L & a' & Ha' & Hv' & Hp' & Hl & Hm & Hu).
    split; [done|]. split; [by eapply eff_trans|]. split; [done|]. split; [congruence|]. exists a'.
    split; [done|]. split; [done|]. split; [done|]. split; [done|]. split; [by exists b|]. by rewrite (Hu b). }
  destruct nt.
  - eapply wp_mono; [exact Hcv| | |done].
    + intros [] w'. apply Hgoal.
    + intros w' [Hbad _]. done.
  - apply wp_onexn. eapply wp_mono; [exact Hcv| | |done].
    + intros [] w'. apply Hgoal.
    + intros w' (_ & I & F & L & Hh & _ & a' & Ha' & Hv' & Hp' & Hl & Hm & Hu & Hany).
      eapply wp_bind_ok; [by apply get_any_ok|].
      specialize (Hh b (Block (a_alloc a) n None)). cbn in Hh. rewrite Hh1, lookup_insert, insert_insert in Hh.
      specialize (Hh eq_refl eq_refl). rewrite Hp'. cbn [a_vp a1].
      eapply wp_bind_ok.
      { eapply (deallocate_ok E w' _ b (Block (a_alloc a) n None)); cbn; try done.
        - by rewrite Hh, lookup_insert.
        - rewrite Hl. cbn. unfold alloc_eqb. rewrite Nat.eqb_refl. by rewrite orb_true_r. }
      eapply wp_ok; [by apply set_vp_ok|]. split; [done|].
      match goal with |- Inv _ ?x /\ _ => set (w2 := x) end.
      assert (Hany2 : w_any w2 = <[i := Any None (PData i) (a_un a') (a_alloc a) (a_ms a)]> (w_any w)).
      { unfold w2. cbn. rewrite Hany, Hany1, !insert_insert. rewrite Hv', Hl, Hm. done. }
      assert (Hh2 : w_heap w2 = w_heap w).
      { unfold w2. cbn. rewrite Hh. rewrite delete_insert; done. }
      destruct (inv_upd1 E w w2 i (Any None (PData i) (a_un a') (a_alloc a) (a_ms a))) as [I2 V2]; try done.
      * unfold w2. cbn. rewrite (eff_sref _ _ _ F), (eff_sref _ _ _ F1). done.
      * unfold w2. cbn. pose proof (eff_next _ _ _ F). pose proof (eff_next _ _ _ F1). lia.
      * split; [by apply (inv_ok _ _ HI) in Ha as [? _]|]. cbn. split; [done|]. by rewrite (Hu b).
      * intros b' _ _. by rewrite Hh2.
      * rewrite Hh2. intros b' x Hx. pose proof (inv_fresh _ _ HI _ _ Hx).
        pose proof (eff_next _ _ _ F). pose proof (eff_next _ _ _ F1). split; [unfold w2; cbn; lia|]. right.
        split; [done|]. split; [|done]. rewrite (own1_same E i w b' a HI Ha). congruence.
      * split; [done|]. split.
        { eapply eff_upd1; try done.
          - unfold w2. cbn. rewrite (eff_sref _ _ _ F), (eff_sref _ _ _ F1). done.
          - unfold w2. cbn. pose proof (eff_next _ _ _ F). pose proof (eff_next _ _ _ F1). lia. }
        split; [done|]. eexists. split; [exact Hany2|]. done.
Qed.

(** ** emplace *)
Lemma emplace_spec E w i a T s v nt :
  Inv E w -> w_any w !! i = Some a -> ty_align (e_ty E T) <= max_align -> src_from w i T s v ->
  wp (emplace E i T s nt)
     (fun _ w' => Inv E w' /\ Eff {[i]} w w' /\ content w' i = Some (Some (T, v)) /\
        exists a', w_any w' !! i = Some a' /\ a_vt a' = Some (addr_vtable_for T (a_ms a)) /\
          a_alloc a' = a_alloc a /\ a_ms a' = a_ms a /\
          (* room in the memory it already has: reused; otherwise buffer or a new block *)
          ((exists b n, a_vp a = PHeap b /\ a_un a = USize n /\ ty_size (e_ty E T) <= n /\
              a_vp a' = PHeap b /\ a_un a' = USize n /\ allocs w' = allocs w) \/
           ((forall b n, a_vp a = PHeap b -> a_un a = USize n -> n < ty_size (e_ty E T)) /\
            if fits E T then a_vp a' = PData i /\ allocs w' = allocs w
            else (exists b, a_vp a' = PHeap b) /\ a_un a' = USize (ty_size (e_ty E T)) /\
                 allocs w' = S (allocs w))))
     (fun w' => nt && fits E T = false /\ Inv E w' /\ Eff {[i]} w w' /\
        exists a', w_any w' !! i = Some a' /\ a_vt a' = None /\ a_alloc a' = a_alloc a /\ a_ms a' = a_ms a)
     False w.
Proof.
  intros HI Ha Hal Hsrc. unfold emplace. apply wp_noexcept.
  destruct (destroy_value_spec _ _ _ _ HI Ha) as
    (w1 & a1 & H1 & I1 & E1 & Q1 & Ha1 & Hv1 & Hp1 & Hal1 & Hm1 & Hu1).
  eapply wp_bind_ok; [done|]. eapply wp_bind_ok; [by apply get_any_ok|].
  assert (Hsrc1 : src_from w1 i T s v) by by eapply src_from_eff.
  assert (Hempty : forall w2 a2, Inv E w2 -> w_any w2 !! i = Some a2 -> a_vt a2 = None -> a_vp a2 = PData i ->
     a_alloc a2 = a_alloc a -> a_ms a2 = a_ms a -> Eff {[i]} w w2 -> src_from w2 i T s v -> allocs w2 = allocs w ->
     (forall b n, a_vp a = PHeap b -> a_un a = USize n -> n < ty_size (e_ty E T)) ->
     wp (emplace_in_empty E i T false s nt)
     (fun _ w' => Inv E w' /\ Eff {[i]} w w' /\ content w' i = Some (Some (T, v)) /\
        exists a', w_any w' !! i = Some a' /\ a_vt a' = Some (addr_vtable_for T (a_ms a)) /\
          a_alloc a' = a_alloc a /\ a_ms a' = a_ms a /\
          ((exists b n, a_vp a = PHeap b /\ a_un a = USize n /\ ty_size (e_ty E T) <= n /\
              a_vp a' = PHeap b /\ a_un a' = USize n /\ allocs w' = allocs w) \/
           ((forall b n, a_vp a = PHeap b -> a_un a = USize n -> n < ty_size (e_ty E T)) /\
            if fits E T then a_vp a' = PData i /\ allocs w' = allocs w
            else (exists b, a_vp a' = PHeap b) /\ a_un a' = USize (ty_size (e_ty E T)) /\
                 allocs w' = S (allocs w))))
     (fun w' => if nt && fits E T then False else
        nt && fits E T = false /\ Inv E w' /\ Eff {[i]} w w' /\
        exists a', w_any w' !! i = Some a' /\ a_vt a' = None /\ a_alloc a' = a_alloc a /\ a_ms a' = a_ms a)
     False w2).
  { intros w2 a2 I2 Ha2 Hv2 Hp2 Hl2 Hm2 E2 Hs2 Hc2 Hsz.
    eapply wp_mono; [apply (emplace_in_empty_spec E w2 i a2 T false s v nt); done| | |done].
    - intros [] w' (I & F & C & L & a' & Ha' & Hv' & Hl & Hm & Hpl). split; [done|].
      split; [by eapply eff_trans|]. split; [done|]. exists a'. rewrite Hm2 in Hv'.
      split; [done|]. split; [done|]. split; [congruence|]. split; [congruence|]. right. split; [done|].
      rewrite andb_true_r in *. destruct (fits E T); [by rewrite L|]. destruct Hpl. by rewrite L, Hc2.
    - intros w' (Hf & I & F & Hh & a' & Ha' & Hv' & Hp' & Hl & Hm). rewrite andb_true_r in Hf.
      rewrite (andb_comm nt), Hf. split; [done|]. split; [done|].
      split; [by eapply eff_trans|]. exists a'. rewrite Ha', lookup_insert. repeat split; congruence. }
  destruct (vp_cases _ _ _ _ I1 Ha1) as [[Hp Hma]|(b & Hp & Hma)]; rewrite Hma; cbn [negb].
  { apply (Hempty w1 a1); try done; [by destruct Q1|]. intros b n Hb. congruence. }
  destruct (any_block _ _ _ _ _ I1 Ha1 Hp) as (al & n & bo & Hb & Hae & Hu).
  eapply wp_bind_ok; [by eapply get_size_ok|]. destruct (Nat.ltb_spec n (ty_size (e_ty E T))) as [Hlt|Hge].
  - destruct (deallocate_memory_spec _ _ _ _ _ I1 Ha1 Hv1 Hp) as (w2 & H2 & I2 & E2 & Q2 & Hany2 & _).
    eapply wp_bind_ok; [done|]. eapply (Hempty w2 (Any None (PData i) (a_un a1) (a_alloc a1) (a_ms a1))); try done.
    + by rewrite Hany2, lookup_insert.
    + by eapply eff_trans.
    + by eapply src_from_eff.
    + destruct Q1, Q2; congruence.
    + intros b' n' Hb' Hn'. rewrite (Hu1 b') in Hu by done. rewrite Hu in Hn'. by injection Hn' as <-.
  - eapply wp_mono; [apply (construct_value_spec E w1 i a1 T s v nt False); try done| | |done].
    + split; [done|]. rewrite Hp. by exists n.
    + intros [] w' (I & F & C & L & a' & Ha' & Hv' & Hp' & Hl & Hm & Hu'). split; [done|].
      split; [by eapply eff_trans|]. split; [done|]. exists a'. rewrite Hm1 in Hv'.
      split; [done|]. split; [done|]. split; [congruence|]. split; [congruence|]. left. exists b, n.
      split; [congruence|]. rewrite (Hu1 b) in Hu by congruence. rewrite (Hu' b), (Hu1 b) by congruence. destruct Q1. repeat split; congruence.
    + intros w' (-> & I & F & L & _ & _ & a' & Ha' & Hv' & Hp' & Hl & Hm & _). cbn. split; [done|]. split; [done|].
      split; [by eapply eff_trans|]. exists a'. repeat split; congruence.
Qed.

(** ** replace_with_bytes *)
Lemma replace_with_bytes_spec E w i a n :
  Inv E w -> w_any w !! i = Some a ->
  wp (replace_with_bytes E i n)
     (fun _ w' => Inv E w' /\ Eff {[i]} w w' /\
        exists a', w_any w' !! i = Some a' /\ a_vt a' = None /\ a_alloc a' = a_alloc a /\ a_ms a' = a_ms a /\
        ((a_vp a = PData i /\ a_vp a' = PData i /\ n <= e_soos E /\ allocs w' = allocs w) \/
         (exists b m, a_vp a = PHeap b /\ a_un a = USize m /\ n <= m /\ a_vp a' = PHeap b /\ a_un a' = USize m /\
            allocs w' = allocs w) \/
         (n > (match a_vp a, a_un a with PHeap _, USize m => m | _, _ => e_soos E end) /\
          exists b', a_vp a' = PHeap b' /\ a_un a' = USize n /\ allocs w' = S (allocs w))))
     (fun w' => e_throws E (w_tick w) = true /\ Inv E w' /\ Eff {[i]} w w' /\
        exists a', w_any w' !! i = Some a' /\ a_vt a' = None /\ a_vp a' = a_vp a /\ a_alloc a' = a_alloc a /\
          a_ms a' = a_ms a /\ (forall b, a_vp a = PHeap b -> a_un a' = a_un a))
     False w.
Proof.
  intros HI Ha. unfold replace_with_bytes.
  destruct (destroy_value_spec _ _ _ _ HI Ha) as
    (w1 & a1 & H1 & I1 & E1 & [Qt1 Qa1] & Ha1 & Hv1 & Hp1 & Hal1 & Hm1 & Hu1).
  eapply wp_bind_ok; [done|].
  assert (Hcap : exists c, capacity E i w1 = Ok c w1 /\
    ((a_vp a1 = PData i /\ c = e_soos E /\ mem_allocated i a1 = false) \/
     (exists b al bo, a_vp a1 = PHeap b /\ a_un a1 = USize c /\ w_heap w1 !! b = Some (Block al c bo) /\
        alloc_eqb E (a_alloc a1) al = true /\ mem_allocated i a1 = true))).
  { unfold capacity. destruct (vp_cases _ _ _ _ I1 Ha1) as [[Hp Hma]|(b & Hp & Hma)].
    - exists (e_soos E). split; [|by left]. by rewrite (bind_get_any _ _ _ _ Ha1), Hma.
    - destruct (any_block _ _ _ _ _ I1 Ha1 Hp) as (al & m & bo & Hb & Hae & Hu). exists m.
      split; [|right; by exists b, al, bo]. rewrite (bind_get_any _ _ _ _ Ha1), Hma. by eapply get_size_ok. }
  destruct Hcap as (c & Hc & Hcase). eapply wp_bind_ok; [done|].
  destruct (Nat.leb_spec n c) as [Hle|Hgt].
  { apply wp_ret. split; [done|]. split; [done|]. exists a1. split; [done|]. split; [done|]. split; [done|]. split; [done|].
    destruct Hcase as [(Hp & -> & _)|(b & al & bo & Hp & Hu & _)].
    - left. repeat split; congruence || lia.
    - right. left. exists b, c. rewrite (Hu1 b) in * by congruence. repeat split; congruence || lia. }
  eapply wp_bind_ok; [by apply get_any_ok|]. apply wp_bind. destruct (e_throws E (w_tick w1)) eqn:Ht.
  { eapply wp_exn; [by apply allocate_exn|]. split; [congruence|].
    destruct (inv_upd1 E w1 (set_tick w1 (S (w_tick w1))) i a1) as [I V]; try done; cbn.
    - by rewrite insert_id.
    - by apply (inv_ok _ _ I1).
    - by apply (inv_home _ _ I1 _ _ Ha1).
    - intros b Hb. left. by exists a1.
    - intros b x Hb. split; [by eapply inv_fresh|]. destruct (decide (a_vp a1 = PHeap b)); [by left|]. right.
      split; [by eapply inv_fresh|]. split; [|done]. by rewrite (own1_same E i w1 b a1 I1 Ha1).
    - split; [done|]. split.
      { eapply eff_trans; [done|]. eapply eff_upd1; try done. cbn. by rewrite insert_id. }
      exists a1. done. }
  eapply wp_ok; [by apply allocate_ok|]. 
  pose proof (inv_ok _ _ I1 _ _ Ha1) as [Hd Hok]. unfold block_of in Hok. rewrite Hv1 in Hok.
  assert (Hb0 : w_heap w1 !! w_next w1 = None) by by eapply fresh_none.
  assert (Hgt' : n > (match a_vp a, a_un a with PHeap _, USize m => m | _, _ => e_soos E end)).
  { destruct Hcase as [(Hp & -> & _)|(b & al & bo & Hp & Hu & _)].
    - rewrite <- Hp1, Hp. lia.
    - rewrite <- Hp1, Hp. rewrite <- (Hu1 b), Hu by congruence. lia. }
  destruct Hcase as [(Hp & _ & Hma)|(b & al & bo & Hp & Hu & Hb & Hae & Hma)].
  - apply wp_bind. eapply wp_bind_ok; [by apply get_any_ok|]. rewrite Hma. apply wp_ret. rewrite Hp in Hok.
    eapply wp_bind_ok; [by apply set_vp_ok|].
    eapply wp_ok; [apply set_size_ok; [cbn; by rewrite lookup_insert|cbn; by destruct Hok]|].
    match goal with |- Inv _ ?x /\ _ => set (w2 := x) end.
    destruct (grow_inv E w1 w2 i a1 n (a_alloc a1)) as [I2 F2]; try done.
    + unfold alloc_eqb. rewrite Nat.eqb_refl. by rewrite orb_true_r.
    + unfold w2. cbn. lia.
    + unfold w2. cbn. rewrite insert_insert. by rewrite Hv1.
    + split; [done|]. split; [by eapply eff_trans|]. unfold w2. cbn. rewrite insert_insert, lookup_insert.
      eexists. split; [done|]. split; [done|]. split; [done|]. split; [done|]. right. right. split; [done|].
      eexists. split; [done|]. split; [done|]. rewrite <- Qa1. done.
  - rewrite Hp in Hok. destruct Hok as (al' & m & bo' & Hb' & _ & Hu' & Hbf). rewrite Hb in Hb'.
    injection Hb' as -> <- ->.
    assert (Hbn : b <> w_next w1). { pose proof (inv_fresh _ _ I1 _ _ Hb). lia. }
    apply wp_bind. eapply wp_bind_ok; [by apply get_any_ok|]. rewrite Hma.
    eapply wp_ok.
    { unfold deallocate_memory. apply noexcept_ok. erewrite bind_get_any by exact Ha1.
      unfold has_val. rewrite Hv1, Hma. cbn [negb andb ensure]. unfold bindM at 1, retM.
      erewrite bind_ok by (eapply get_size_ok; [exact Ha1|done]). rewrite Hp.
      erewrite bind_ok by (eapply deallocate_ok; cbn; [by rewrite lookup_insert_ne|done|done|done]).
      eapply set_vp_ok. exact Ha1. }
    cbn [b_size].
    eapply wp_bind_ok; [apply set_vp_ok; cbn; by rewrite lookup_insert|].
    eapply wp_ok; [apply set_size_ok; [cbn; by rewrite lookup_insert|cbn; by rewrite Hu]|].
    match goal with |- Inv _ ?x /\ _ => set (w2 := x) end.
    assert (Hany2 : w_any w2 = <[i := Any None (PHeap (w_next w1)) (USize n) (a_alloc a1) (a_ms a1)]> (w_any w1)).
    { unfold w2. cbn. rewrite !insert_insert. by rewrite Hv1. }
    assert (Hh2 : w_heap w2 = <[w_next w1 := Block (a_alloc a1) n None]> (delete b (w_heap w1))).
    { unfold w2. cbn. rewrite delete_insert_ne by done. done. }
    assert (Hal2 : allocs w2 = S (allocs w1)) by done.
    assert (Hn2 : w_next w2 = S (w_next w1)) by done.
    assert (Hs2 : w_sref w2 = w_sref w1) by done.
    clearbody w2.
    destruct (inv_upd1 E w1 w2 i (Any None (PHeap (w_next w1)) (USize n) (a_alloc a1) (a_ms a1))) as [I2 V2]; try done.
    + lia.
    + split; [done|]. cbn. exists (a_alloc a1), n, None. unfold block_of. cbn. rewrite Hh2, lookup_insert.
      repeat split; try done. unfold alloc_eqb. rewrite Nat.eqb_refl. by rewrite orb_true_r.
    + intros b' Hlt Hno. rewrite Hh2, lookup_insert_ne by lia. rewrite lookup_delete_ne; [done|].
      intros ->. apply Hno. by exists a1.
    + cbn. intros b' [= <-]. right. lia.
    + cbn. intros b' x. rewrite Hh2, Hn2. destruct (decide (b' = w_next w1)) as [->|Hne].
      * intros _. split; [lia|]. by left.
      * rewrite lookup_insert_ne by done. destruct (decide (b' = b)) as [->|Hne']; [by rewrite lookup_delete|].
        rewrite lookup_delete_ne by done. intros Hx. pose proof (inv_fresh _ _ I1 _ _ Hx). split; [lia|]. right.
        split; [done|]. split; [|done]. rewrite (own1_same E i w1 b' a1 I1 Ha1). congruence.
    + split; [done|]. split.
      { eapply eff_trans; [done|]. eapply eff_upd1; try done. lia. }
      rewrite Hany2, lookup_insert. eexists. split; [done|]. split; [done|]. split; [done|]. split; [done|].
      right. right. split; [done|]. eexists. split; [done|]. split; [done|]. by rewrite Hal2, Qa1.
Qed.
