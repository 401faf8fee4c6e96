(** Proofs about unique_ptr over an interface. *)
From stdpp Require Import gmap list.
From Verif Require Import TypeListModel TypeListSpec TypeListProofs AnyModel AnyInv UniqueModel UniqueSpec.

Section Proofs.
  Context (dealloc : method).
  Definition pok (s : ust) (ms : list method) (p : upointer) : Prop :=
    match p with None => True | Some (v, a) => exists T, vp_home v = None /\ vt_entries (dealloc :: ms) v T /\ u_heap s !! a = Some T end.
  Definition val_at (s : ust) (u : nat) : upointer := match u_ptr s !! u with Some p => up_val p | None => None end.
  Definition addr (p : upointer) : option nat := match p with Some (_, a) => Some a | None => None end.

  (** [x] is a pointer value that is currently held by no variable (between release and reset) *)
  Record UInv (objs : list (nat * nat)) (x : upointer) (s : ust) : Prop := {
    ui_ptr : forall u p, u_ptr s !! u = Some p -> pok s (up_ms p) (up_val p);
    ui_inj : forall u v a, addr (val_at s u) = Some a -> addr (val_at s v) = Some a -> u = v;
    ui_out : forall u a, addr x = Some a -> addr (val_at s u) <> Some a;
    ui_owned : forall a T, u_heap s !! a = Some T -> addr x = Some a \/ exists u, addr (val_at s u) = Some a;
    ui_objs : u_log s ++ map (fun p => (snd p, fst p)) (map_to_list (u_heap s)) ≡ₚ objs;
    ui_next : forall T a, In (T, a) objs -> a < u_next s;
    ui_nodup : NoDup (map snd objs)
  }.

  Lemma read_dealloc ms v T : vp_home v = None -> vt_entries (dealloc :: ms) v T -> vt_read (dealloc :: ms) v dealloc init_world = Ok T init_world.
  Proof. intros Hh He. apply vt_read_ok; [unfold vt_alive; by rewrite Hh|done|by left]. Qed.

  (** deleting a pointer value not held by any variable *)
  Lemma drop_ok objs ms x s : UInv objs x s -> pok s ms x -> exists s', u_drop dealloc ms x s = UOk s' /\ UInv objs None s' /\ u_ptr s' = u_ptr s /\ u_next s' = u_next s.
  Proof.
    intros HI Hp. destruct x as [[v a]|]; [|by exists s]. destruct Hp as (T & Hh & He & Ha). cbn [u_drop u_deleter]. rewrite (read_dealloc ms v T Hh He).
    unfold u_delete. rewrite Ha, Nat.eqb_refl. eexists. split; [done|]. split; [|done]. destruct HI as [H1 H2 H3 H4 H5 H6 H7]. split; cbn; try done.
    - intros u p Hu. specialize (H1 u p Hu). unfold pok in *. destruct (up_val p) as [[v' a']|] eqn:Hv; [|done]. destruct H1 as (T' & ? & ? & ?).
      exists T'. split; [done|]. split; [done|]. cbn. rewrite lookup_delete_ne; [done|]. intros ->. apply (H3 u a' eq_refl). unfold val_at. by rewrite Hu, Hv.
    - intros b U Hb. destruct (decide (b = a)) as [->|Hne]; [by rewrite lookup_delete in Hb|]. rewrite lookup_delete_ne in Hb by done.
      destruct (H4 b U Hb) as [[= <-]|H]; [done|]. by right.
    - rewrite <- H5. rewrite <- app_assoc. f_equiv. cbn. rewrite <- (map_to_list_delete _ _ _ Ha). done.
  Qed.

  Lemma val_set s u p : val_at (u_set u p s) u = up_val p.
  Proof. unfold val_at, u_set. cbn. by rewrite lookup_insert. Qed.
  Lemma val_set_ne s u v p : v <> u -> val_at (u_set u p s) v = val_at s v.
  Proof. intros H. unfold val_at, u_set. cbn. by rewrite lookup_insert_ne. Qed.

  (** storing a value that no variable holds; the old value of the variable becomes unheld *)
  Lemma store_ok objs u p x s : UInv objs x s -> up_val p = x -> pok s (up_ms p) x -> UInv objs (val_at s u) (u_set u p s).
  Proof.
    intros [H1 H2 H3 H4 H5 H6 H7] Hx Hp. split; try done.
    - intros v q. cbn. destruct (decide (v = u)) as [->|Hne]; [rewrite lookup_insert; intros [= <-]; by rewrite Hx|]. rewrite lookup_insert_ne by done. apply H1.
    - intros v w a. destruct (decide (v = u)) as [->|Hv], (decide (w = u)) as [->|Hw]; rewrite ?val_set, ?val_set_ne by done; try done.
      + rewrite Hx. intros Ha Hb. by apply H3 in Hb.
      + rewrite Hx. intros Ha Hb. by apply H3 in Ha.
      + apply H2.
    - intros v a Ha. destruct (decide (v = u)) as [->|Hv]; [rewrite val_set, Hx; intros Hb; by apply (H3 u a Hb)|]. rewrite val_set_ne by done. intros Hb. by apply Hv, (H2 _ _ a).
    - intros a T Ha. destruct (H4 a T Ha) as [H|(v & H)]; [right; exists u; by rewrite val_set, Hx|]. destruct (decide (v = u)) as [->|Hv]; [by left|]. right. exists v. by rewrite val_set_ne.
  Qed.
  Lemma new_ok objs T s : UInv objs None s -> UInv (objs ++ [(T, u_next s)]) (Some (addr_vtable_for T [], u_next s)) (snd (u_new T s)).
  Proof.
    intros [H1 H2 H3 H4 H5 H6 H7].
    assert (Hfresh : u_heap s !! u_next s = None).
    { destruct (u_heap s !! u_next s) as [U|] eqn:Hu; [|done]. exfalso. assert (In (U, u_next s) objs); [|apply H6 in H; lia].
      eapply Permutation_in; [exact H5|]. apply in_app_iff. right. apply in_map_iff. exists (u_next s, U). split; [done|]. by apply elem_of_list_In, elem_of_map_to_list. }
    split; cbn; try done.
    - intros u p Hu. specialize (H1 u p Hu). unfold pok in *. destruct (up_val p) as [[v a]|]; [|done]. destruct H1 as (U & ? & ? & Ha). exists U. split; [done|]. split; [done|].
      cbn. rewrite lookup_insert_ne; [done|]. intros <-. congruence.
    - intros u a [= <-] Hu. unfold val_at in Hu. cbn in Hu. destruct (u_ptr s !! u) as [p|] eqn:Hp; [|done]. specialize (H1 u p Hp). unfold pok in H1. destruct (up_val p) as [[v b]|]; [|done].
      cbn in Hu. injection Hu as ->. destruct H1 as (U & _ & _ & Ha). congruence.
    - intros a U Ha. destruct (decide (a = u_next s)) as [->|Hne]; [by left|]. rewrite lookup_insert_ne in Ha by done. destruct (H4 a U Ha) as [?|H]; [done|]. by right.
    - rewrite map_to_list_insert by done. cbn. rewrite <- H5. rewrite <- app_assoc. f_equiv. apply Permutation_cons_append.
    - intros U a Ha. apply in_app_iff in Ha as [Ha|[[= <- <-]|[]]]; [apply H6 in Ha|]; lia.
    - rewrite map_app. apply NoDup_app. split; [done|]. split; [|apply NoDup_singleton]. intros a Ha Hb. apply elem_of_list_singleton in Hb. cbn in Hb. subst a.
      apply elem_of_list_In, in_map_iff in Ha as ([U a] & Ha & Hin). cbn in Ha. subst a. apply H6 in Hin. lia.
  Qed.
  Lemma inv_addr objs x y s : addr x = addr y -> UInv objs x s -> UInv objs y s.
  Proof. intros H [H1 H2 H3 H4 H5 H6 H7]. split; try done; rewrite <- H; done. Qed.

  Lemma reset_ok objs u x p s : UInv objs p s -> u_ptr s !! u = Some x -> pok s (up_ms x) p ->
    exists s', u_reset dealloc u p s = UOk s' /\ UInv objs None s' /\ dom (u_ptr s') = dom (u_ptr s) /\ u_next s' = u_next s.
  Proof.
    intros HI Hu Hp. unfold u_reset. rewrite Hu. pose proof (store_ok objs u (Uptr (up_ms x) (up_const x) p) p s HI eq_refl Hp) as HI'.
    assert (Hv : val_at s u = up_val x) by (unfold val_at; by rewrite Hu). rewrite Hv in HI'.
    destruct (drop_ok objs (up_ms x) (up_val x) _ HI') as (s' & Hd & HI2 & Hptr & Hn).
    - apply (ui_ptr _ _ _ HI u x Hu).
    - exists s'. split; [done|]. split; [done|]. rewrite Hptr, Hn. split; [|done]. cbn. apply elem_of_dom_2 in Hu. set_solver.
  Qed.
  Lemma release_ok objs v x s : UInv objs None s -> u_ptr s !! v = Some x ->
    exists s', u_release v s = Some (up_val x, s') /\ UInv objs (up_val x) s' /\ u_ptr s' = <[v := Uptr (up_ms x) (up_const x) None]> (u_ptr s) /\ u_heap s' = u_heap s /\ u_next s' = u_next s.
  Proof.
    intros HI Hv. unfold u_release. rewrite Hv. eexists. split; [done|]. split; [|done].
    pose proof (store_ok objs v (Uptr (up_ms x) (up_const x) None) None s HI eq_refl I) as H. assert (val_at s v = up_val x) as <-; [|done]. unfold val_at. by rewrite Hv.
  Qed.
  Lemma convert_ok to from p s : contiguous (dealloc :: to) (dealloc :: from) -> pok s from p ->
    exists p', u_convert dealloc to from p = Some p' /\ pok s to p' /\ addr p' = addr p.
  Proof.
    intros Hc Hp. destruct p as [[v a]|]; [|by exists None]. destruct Hp as (T & Hh & He & Ha). destruct (subtable_some _ _ v Hc) as (v' & Hv'). exists (Some (v', a)). cbn. rewrite Hv'.
    split; [done|]. split; [|done]. exists T. split; [by rewrite (subtable_home _ _ _ _ Hv')|]. split; [by eapply subtable_entries|done].
  Qed.
  (** declaring u with a value that no variable holds *)
  Lemma declare_ok objs u p x s : UInv objs x s -> u_ptr s !! u = None -> up_val p = x -> pok s (up_ms p) x -> UInv objs None (u_set u p s).
  Proof. intros HI Hu Hx Hp. pose proof (store_ok objs u p x s HI Hx Hp) as H. assert (val_at s u = None) as Hn; [|by rewrite Hn in H]. unfold val_at. by rewrite Hu. Qed.
  Lemma from_obj_ok s ms T a : u_heap s !! a = Some T -> pok s ms (u_from_obj dealloc ms T a).
  Proof. intros Ha. exists T. split; [done|]. split; [apply addr_vtable_entries|done]. Qed.

  Lemma step_ok objs o s : UInv objs None s -> u_legal dealloc s o ->
    exists s', ustep dealloc o s = UOk s' /\ UInv (objs ++ zip (u_creates o) (seq (u_next s) (length (u_creates o)))) None s' /\ u_next s' = u_next s + length (u_creates o).
  Proof.
    intros HI. destruct o as [u c ms|u c ms T|u T|u|u v|u v c ms|u v|u v|u v|u]; cbn [u_legal ustep u_creates].
    all: try (cbn [zip zip_with seq length]; rewrite app_nil_r, Nat.add_0_r).
    - intros Hu. eexists. split; [done|]. split; [|done]. by eapply declare_ok.
    - intros Hu. cbn [u_new]. eexists. split; [done|]. cbn [length seq zip zip_with]. split; [|cbn; lia].
      eapply (declare_ok _ _ _ (u_from_obj dealloc ms T (u_next s))); [exact (inv_addr _ (Some (addr_vtable_for T [], u_next s)) (u_from_obj dealloc ms T (u_next s)) _ eq_refl (new_ok objs T s HI))|done|done|]. apply from_obj_ok. cbn. by rewrite lookup_insert.
    - intros (x & Hu). rewrite Hu. cbn [u_new length seq zip zip_with].
      destruct (reset_ok (objs ++ [(T, u_next s)]) u x (u_from_obj dealloc (up_ms x) T (u_next s)) (snd (u_new T s))) as (s' & H1 & H2 & H3 & H4).
      + exact (inv_addr _ (Some (addr_vtable_for T [], u_next s)) (u_from_obj dealloc (up_ms x) T (u_next s)) _ eq_refl (new_ok objs T s HI)).
      + done.
      + apply from_obj_ok. cbn. by rewrite lookup_insert.
      + exists s'. split; [exact H1|]. split; [done|]. rewrite H4. cbn. lia.
    - intros (x & Hu). destruct (reset_ok objs u x None s HI Hu I) as (s' & H1 & H2 & H3 & H4). by exists s'.
    - intros (Hu & x & Hv). rewrite Hv. destruct (release_ok objs v x s HI Hv) as (s' & -> & HI' & Hp & Hh & Hn). eexists. split; [done|]. split; [|done].
      assert (u <> v) by congruence. eapply declare_ok; [exact HI'|by rewrite Hp, lookup_insert_ne|done|].
      pose proof (ui_ptr _ _ _ HI v x Hv) as Hok. unfold pok in *. cbn. destruct (up_val x) as [[w a]|]; [|done]. by rewrite Hh.
    - intros (Hu & x & Hv & Hc & _). rewrite Hv. destruct (release_ok objs v x s HI Hv) as (s' & -> & HI' & Hp & Hh & Hn).
      assert (Hok : pok s' (up_ms x) (up_val x)). { pose proof (ui_ptr _ _ _ HI v x Hv) as Hok. unfold pok in *. destruct (up_val x) as [[w a]|]; [|done]. by rewrite Hh. }
      destruct (convert_ok ms (up_ms x) (up_val x) s' Hc Hok) as (p' & -> & Hp' & Ha). eexists. split; [done|]. split; [|done].
      assert (u <> v) by congruence. eapply declare_ok; [eapply inv_addr; [|exact HI']; symmetry; exact Ha|by rewrite Hp, lookup_insert_ne|done|done].
    - intros (x & y & Hu & Hv & Hms & _). destruct (release_ok objs v y s HI Hv) as (s' & -> & HI' & Hp & Hh & Hn).
      assert (Hok : pok s' (up_ms y) (up_val y)). { pose proof (ui_ptr _ _ _ HI v y Hv) as Hok. unfold pok in *. destruct (up_val y) as [[w a]|]; [|done]. by rewrite Hh. }
      assert (exists x', u_ptr s' !! u = Some x' /\ up_ms x' = up_ms y) as (x' & Hu' & Hms').
      { rewrite Hp. destruct (decide (u = v)) as [->|Hne]; [rewrite lookup_insert; by eexists|]. rewrite lookup_insert_ne by done. by eexists. }
      destruct (reset_ok objs u x' (up_val y) s' HI' Hu') as (s2 & H1 & H2 & H3 & H4); [by rewrite Hms'|]. exists s2. split; [done|]. split; [done|]. by rewrite H4.
    - intros (y & x & Hu & Hv & Hc & _). rewrite Hu, Hv. destruct (release_ok objs v x s HI Hv) as (s' & -> & HI' & Hp & Hh & Hn).
      assert (Hok : pok s' (up_ms x) (up_val x)). { pose proof (ui_ptr _ _ _ HI v x Hv) as Hok. unfold pok in *. destruct (up_val x) as [[w a]|]; [|done]. by rewrite Hh. }
      destruct (convert_ok (up_ms y) (up_ms x) (up_val x) s' Hc Hok) as (p' & -> & Hp' & Ha).
      assert (exists y', u_ptr s' !! u = Some y' /\ up_ms y' = up_ms y) as (y' & Hu' & Hms').
      { rewrite Hp. destruct (decide (u = v)) as [->|Hne]; [rewrite lookup_insert; eexists; split; [done|]; cbn; congruence|]. rewrite lookup_insert_ne by done. by eexists. }
      destruct (reset_ok objs u y' p' s') as (s2 & H1 & H2 & H3 & H4); [eapply inv_addr; [|exact HI']; by symmetry|done|by rewrite Hms'|]. exists s2. split; [done|]. split; [done|]. by rewrite H4.
    - intros (x & y & Hu & Hv & Hms & _). rewrite Hu, Hv. eexists. split; [done|]. split; [|done].
      (* take u's value out, store v's value in u, then put it in v *)
      destruct HI as [H1 H2 H3 H4 H5 H6 H7]. pose proof (H1 u x Hu) as Hx. pose proof (H1 v y Hv) as Hy.
      assert (Hvu : val_at s u = up_val x) by (unfold val_at; by rewrite Hu). assert (Hvv : val_at s v = up_val y) by (unfold val_at; by rewrite Hv).
      set (s' := u_set v _ _).
      assert (Hval : forall t, val_at s' t = val_at s (if decide (t = u) then v else if decide (t = v) then u else t)).
      { intros t. subst s'. destruct (decide (t = v)) as [->|Htv].
        - rewrite val_set. cbn [up_val]. destruct (decide (v = u)) as [->|Hne]; congruence.
        - rewrite val_set_ne by done. destruct (decide (t = u)) as [->|Htu]; [by rewrite val_set|by rewrite val_set_ne]. }
      split; try done.
      + intros t p Ht. subst s'. cbn in Ht. destruct (decide (t = v)) as [->|Htv]; [rewrite lookup_insert in Ht; injection Ht as <-; cbn; by rewrite <- Hms|].
        rewrite lookup_insert_ne in Ht by done. destruct (decide (t = u)) as [->|Htu]; [rewrite lookup_insert in Ht; injection Ht as <-; cbn; by rewrite Hms|].
        rewrite lookup_insert_ne in Ht by done. by apply (H1 t p).
      + intros t t' a. rewrite !Hval. intros Ha Hb. pose proof (H2 _ _ _ Ha Hb) as He. repeat destruct (decide _); subst; try done.
      + intros a T Ha. destruct (H4 a T Ha) as [?|(t & Ht)]; [done|]. right. exists (if decide (t = u) then v else if decide (t = v) then u else t). rewrite Hval.
        repeat destruct (decide _); subst; try done.
    - intros (x & Hu). rewrite Hu.
      pose proof (store_ok objs u (Uptr (up_ms x) (up_const x) None) None s HI eq_refl I) as HI'. assert (Hvu : val_at s u = up_val x) by (unfold val_at; by rewrite Hu). rewrite Hvu in HI'.
      (* deleting first or clearing first is the same *)
      pose proof (ui_ptr _ _ _ HI u x Hu) as Hok. destruct (up_val x) as [[v a]|] eqn:Hx.
      + destruct (drop_ok objs (up_ms x) (Some (v, a)) _ HI') as (s' & Hd & HI2 & Hptr & Hn); [exact Hok|].
        destruct Hok as (T & Hh & He & Ha). cbn [u_drop u_deleter] in *. rewrite (read_dealloc (up_ms x) v T Hh He) in *. unfold u_delete in *. cbn in Hd. rewrite Ha, Nat.eqb_refl in *.
        cbn [ubind]. injection Hd as <-. eexists. split; [done|]. split; [|done]. destruct HI2 as [J1 J2 J3 J4 J5 J6 J7]. cbn in *.
        assert (Hval : forall t, val_at (USt (delete a (u_heap s)) (u_next s) (u_log s ++ [(T, a)]) (delete u (u_ptr s))) t =
          val_at (USt (delete a (u_heap s)) (u_next s) (u_log s ++ [(T, a)]) (<[u := Uptr (up_ms x) (up_const x) None]> (u_ptr s))) t).
        { intros t. unfold val_at. cbn. destruct (decide (t = u)) as [->|Hne]; [by rewrite lookup_delete, lookup_insert|by rewrite lookup_delete_ne, lookup_insert_ne]. }
        split; cbn; try done.
        * intros t p Ht. destruct (decide (t = u)) as [->|Hne]; [by rewrite lookup_delete in Ht|]. rewrite lookup_delete_ne in Ht by done. apply (J1 t p). by rewrite lookup_insert_ne.
        * intros t t' b. rewrite !Hval. apply J2.
        * intros b U Hb. destruct (J4 b U Hb) as [?|(t & Ht)]; [done|]. right. exists t. by rewrite Hval.
      + cbn [u_drop ubind]. eexists. split; [done|]. split; [|done]. destruct HI' as [J1 J2 J3 J4 J5 J6 J7]. cbn in *.
        assert (Hval : forall t, val_at (USt (u_heap s) (u_next s) (u_log s) (delete u (u_ptr s))) t = val_at (u_set u (Uptr (up_ms x) (up_const x) None) s) t).
        { intros t. unfold val_at. cbn. destruct (decide (t = u)) as [->|Hne]; [by rewrite lookup_delete, lookup_insert|by rewrite lookup_delete_ne, lookup_insert_ne]. }
        split; cbn; try done.
        * intros t p Ht. destruct (decide (t = u)) as [->|Hne]; [by rewrite lookup_delete in Ht|]. rewrite lookup_delete_ne in Ht by done. apply (J1 t p). by rewrite lookup_insert_ne.
        * intros t t' b. rewrite !Hval. apply J2.
        * intros b U Hb. destruct (J4 b U Hb) as [?|(t & Ht)]; [done|]. right. exists t. by rewrite Hval.
  Qed.

  Lemma zip_app_seq (l l' : list nat) n : zip (l ++ l') (seq n (length (l ++ l'))) = zip l (seq n (length l)) ++ zip l' (seq (n + length l) (length l')).
  Proof. rewrite app_length, seq_app. by rewrite zip_with_app by by rewrite seq_length. Qed.
  Lemma exec_ok l : forall objs s, UInv objs None s -> u_allowed dealloc l s ->
    exists s', uexec dealloc l s = UOk s' /\ UInv (objs ++ zip (u_created l) (seq (u_next s) (length (u_created l)))) None s'.
  Proof.
    induction l as [|o l IH]; intros objs s HI Hl; [exists s; cbn; by rewrite app_nil_r|]. destruct Hl as [Ho Hl].
    destruct (step_ok objs o s HI Ho) as (s1 & H1 & HI1 & Hn). rewrite H1 in Hl. destruct (IH _ s1 HI1 Hl) as (s2 & H2 & HI2). exists s2. cbn. rewrite H1. cbn. split; [done|].
    unfold u_created in *. cbn. rewrite zip_app_seq, app_assoc, <- Hn. done.
  Qed.
  Lemma init_inv : UInv [] None u_init.
  Proof. split; cbn; try done. constructor. Qed.

  Lemma unique_safe : forall l, u_allowed dealloc l u_init -> exists s, uexec dealloc l u_init = UOk s.
  Proof. intros l H. destruct (exec_ok l [] u_init init_inv H) as (s & Hs & _). by exists s. Qed.
  Lemma unique_once : forall l s, u_allowed dealloc l u_init -> uexec dealloc l u_init = UOk s ->
    NoDup (u_log s) /\
    (forall T a, In (T, a) (u_log s) -> In (T, a) (u_objects l) /\ u_heap s !! a = None /\ forall u, ~ u_owns s u a) /\
    (forall T a, In (T, a) (u_objects l) -> ~ In (T, a) (u_log s) -> u_heap s !! a = Some T /\ exists! u, u_owns s u a).
  Proof.
    intros l s Hl Hs. destruct (exec_ok l [] u_init init_inv Hl) as (s' & Hs' & HI). rewrite Hs in Hs'. injection Hs' as <-. cbn in HI. fold (u_objects l) in HI.
    destruct HI as [H1 H2 _ H4 H5 _ H7].
    assert (Hnd : NoDup (map snd (u_log s) ++ map fst (map_to_list (u_heap s)))).
    { rewrite <- H5 in H7. rewrite map_app, map_map in H7. exact H7. }
    apply NoDup_app in Hnd as (Hn1 & Hdisj & _).
    assert (Hown : forall u a, u_owns s u a <-> addr (val_at s u) = Some a).
    { intros u a. unfold u_owns, val_at. split.
      - intros (p & v & -> & Hv). by rewrite Hv.
      - destruct (u_ptr s !! u) as [p|] eqn:Hp; [|done]. destruct (up_val p) as [[v b]|] eqn:Hv; [|done]. intros [= <-]. by exists p, v. }
    assert (Hheap : forall T a, u_heap s !! a = Some T -> a ∈ map fst (map_to_list (u_heap s))).
    { intros T a Ha. apply elem_of_list_In, in_map_iff. exists (a, T). split; [done|]. by apply elem_of_list_In, elem_of_map_to_list. }
    split; [|split].
    - eapply NoDup_fmap_1. exact Hn1.
    - intros T a Hin. assert (a ∈ map snd (u_log s)) by (apply elem_of_list_In, in_map_iff; by exists (T, a)). split.
      + eapply Permutation_in; [exact H5|]. apply in_app_iff. by left.
      + assert (Hnone : u_heap s !! a = None). { destruct (u_heap s !! a) as [U|] eqn:Ha; [|done]. exfalso. eapply Hdisj; [done|by eapply Hheap]. }
        split; [done|]. intros u Hu. apply Hown in Hu. unfold val_at in Hu. destruct (u_ptr s !! u) as [p|] eqn:Hp; [|done]. specialize (H1 u p Hp). unfold pok in H1.
        destruct (up_val p) as [[v b]|]; [|done]. cbn in Hu. injection Hu as ->. destruct H1 as (U & _ & _ & Ha). congruence.
    - intros T a Hin Hno. assert (In (T, a) (u_log s ++ map (fun p => (snd p, fst p)) (map_to_list (u_heap s)))) as Hin' by (eapply Permutation_in; [symmetry; exact H5|done]).
      apply in_app_iff in Hin' as [?|Hin']; [done|]. apply in_map_iff in Hin' as ([a' T'] & [= -> ->] & Hin'). apply elem_of_list_In, elem_of_map_to_list in Hin'.
      split; [done|]. destruct (H4 a T Hin') as [?|(u & Hu)]; [done|]. exists u. split; [by apply Hown|]. intros u' Hu'. apply Hown in Hu'. by eapply H2.
  Qed.
  Lemma unique_all : forall l s, u_allowed dealloc l u_init -> uexec dealloc l u_init = UOk s -> u_ptr s = ∅ -> u_log s ≡ₚ u_objects l.
  Proof.
    intros l s Hl Hs He. destruct (exec_ok l [] u_init init_inv Hl) as (s' & Hs' & HI). rewrite Hs in Hs'. injection Hs' as <-. cbn in HI. fold (u_objects l) in HI.
    destruct HI as [_ _ _ H4 H5 _ _]. rewrite <- H5. assert (u_heap s = ∅) as ->; [|by rewrite map_to_list_empty, app_nil_r].
    apply map_eq. intros a. rewrite lookup_empty. destruct (u_heap s !! a) as [T|] eqn:Ha; [|done]. destruct (H4 a T Ha) as [?|(u & Hu)]; [done|].
    unfold val_at in Hu. by rewrite He in Hu.
  Qed.

  (** a sufficient test for [u_allowed] *)
  Definition u_legalb (s : ust) (o : uop) : bool :=
    match o with
    | UDefault u _ _ | UMake u _ _ _ => bool_decide (u_ptr s !! u = None)
    | UResetNew u _ | UResetNull u | UDtor u => bool_decide (is_Some (u_ptr s !! u))
    | UMove u v => bool_decide (u_ptr s !! u = None) && bool_decide (is_Some (u_ptr s !! v))
    | UConv u v c ms => bool_decide (u_ptr s !! u = None) &&
        match u_ptr s !! v with Some x => bool_decide (ms `prefix_of` up_ms x) && implb (up_const x) c | None => false end
    | UAssign u v | USwap u v =>
        match u_ptr s !! u, u_ptr s !! v with Some x, Some y => bool_decide (up_ms x = up_ms y) && Bool.eqb (up_const x) (up_const y) | _, _ => false end
    | UAssignConv u v =>
        match u_ptr s !! u, u_ptr s !! v with Some y, Some x => bool_decide (up_ms y `prefix_of` up_ms x) && implb (up_const x) (up_const y) | _, _ => false end
    end.
  Fixpoint u_allowedb (l : list uop) (s : ust) : bool :=
    match l with [] => true | o :: tl => u_legalb s o && match ustep dealloc o s with UOk s' => u_allowedb tl s' | UBad _ => true end end.
  Lemma prefix_contiguous ms ms' : ms `prefix_of` ms' -> contiguous (dealloc :: ms) (dealloc :: ms').
  Proof. intros (r & ->). exists 0, [], r. done. Qed.
  Lemma u_allowedb_ok l : forall s, u_allowedb l s = true -> u_allowed dealloc l s.
  Proof.
    induction l as [|o l IH]; intros s H; [done|]. cbn in *. apply andb_prop in H as [H1 H2]. split; [|destruct (ustep dealloc o s); [by apply IH|done]].
    clear H2. destruct o as [u c ms|u c ms T|u T|u|u v|u v c ms|u v|u v|u v|u]; cbn in *; try by apply bool_decide_eq_true in H1.
    - apply andb_prop in H1 as [H1 H2]. apply bool_decide_eq_true in H1, H2. done.
    - apply andb_prop in H1 as [H1 H2]. apply bool_decide_eq_true in H1. split; [done|]. destruct (u_ptr s !! v) as [x|]; [|done]. apply andb_prop in H2 as [H2 H3].
      apply bool_decide_eq_true in H2. exists x. split; [done|]. split; [by apply prefix_contiguous|]. intros Hx. by rewrite Hx in H3.
    - destruct (u_ptr s !! u) as [x|], (u_ptr s !! v) as [y|]; try done. apply andb_prop in H1 as [H1 H2]. apply bool_decide_eq_true in H1. apply Bool.eqb_prop in H2. by exists x, y.
    - destruct (u_ptr s !! u) as [y|], (u_ptr s !! v) as [x|]; try done. apply andb_prop in H1 as [H1 H2]. apply bool_decide_eq_true in H1. exists y, x.
      split; [done|]. split; [done|]. split; [by apply prefix_contiguous|]. intros Hx. by rewrite Hx in H2.
    - destruct (u_ptr s !! u) as [x|], (u_ptr s !! v) as [y|]; try done. apply andb_prop in H1 as [H1 H2]. apply bool_decide_eq_true in H1. apply Bool.eqb_prop in H2. by exists x, y.
  Qed.
End Proofs.
