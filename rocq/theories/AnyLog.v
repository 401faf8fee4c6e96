(** The event log agrees with memory: preserved by every primitive, hence by every program. *)
From stdpp Require Import gmap list.
From Verif Require Import TypeListModel TypeListSpec TypeListProofs AnyModel AnyInv AnySteps AnyOps AnyMove
  AnyLife AnyAssign AnyRefs AnyHistory AnyLogSpec.

Section Log.
  Context (E : env) (Hwf : env_wf E).

  (** identity and type of the object at a place, if it needs a destructor call *)
  Definition nt_of (o : option obj) : option (nat * nat) :=
    match o with
    | Some o => if ty_tdestr (e_ty E (o_ty o)) then None else Some (o_id o, o_ty o)
    | None => None
    end.
  Definition nt_at (w : world) (p : ptr) : option (nat * nat) := nt_of (obj_at w p).
  Definition bsig (x : block) : nat * nat := (b_alloc x, b_size x).
  Definition aeq (a b : nat) : Prop := alloc_eqb E a b = true.

  Record LI (w : world) : Prop := {
    li_blocks : blocks aeq (w_log w) (bsig <$> w_heap w);
    li_bfresh : forall b al n, In (EvAlloc b al n) (w_log w) -> b < w_next w;
    li_ofresh : forall id T, In (EvCtor id T) (w_log w) -> id < w_next w;
    li_objs : exists mo, objects (w_log w) mo /\ forall id T, mo !! id = Some T <-> exists p, nt_at w p = Some (id, T);
    li_inj : forall p p' id T T', nt_at w p = Some (id, T) -> nt_at w p' = Some (id, T') -> p = p'
  }.

  Definition pres {A} (m : M A) : Prop := forall w, LI w ->
    match m w with Ok _ w' => LI w' | Exn w' => LI w' | _ => True end.

  Lemma pres_ret {A} (a : A) : pres (retM a). Proof. intros w H. exact H. Qed.
  Lemma pres_ub {A} r : pres (@ubM A r). Proof. intros w H. exact I. Qed.
  Lemma pres_throw {A} : pres (@throwM A). Proof. intros w H. exact H. Qed.
  Lemma pres_bind {A B} (m : M A) (f : A -> M B) : pres m -> (forall a, pres (f a)) -> pres (bindM m f).
  Proof.
    intros Hm Hf w Hw. specialize (Hm w Hw). unfold bindM. destruct (m w) as [a w'|w'| |]; try done.
    by apply Hf.
  Qed.
  Lemma pres_noexcept {A} b (m : M A) : pres m -> pres (noexcept_if b m).
  Proof. intros Hm w Hw. specialize (Hm w Hw). unfold noexcept_if. destruct (m w); try done. by destruct b. Qed.
  Lemma pres_onexn {A} (m : M A) h : pres m -> pres h -> pres (on_exn m h).
  Proof.
    intros Hm Hh w Hw. specialize (Hm w Hw). unfold on_exn. destruct (m w) as [|w'| |]; try done.
    specialize (Hh w' Hm). by destruct (h w').
  Qed.
  Lemma pres_ensure b r : pres (ensure b r).
  Proof. destruct b; [apply pres_ret|apply pres_ub]. Qed.

  (** a change that touches neither the log nor any object with a destructor nor the set of blocks *)
  Lemma LI_same w w' : LI w -> w_log w' = w_log w -> w_next w <= w_next w' ->
    bsig <$> w_heap w' = bsig <$> w_heap w -> (forall p, nt_at w' p = nt_at w p) -> LI w'.
  Proof.
    intros [H1 H2 H3 (mo & H4 & H5) H6] Hl Hn Hb Hnt. split; rewrite ?Hl, ?Hb; try done.
    - intros b al n Hin. specialize (H2 _ _ _ Hin). lia.
    - intros id T Hin. specialize (H3 _ _ Hin). lia.
    - exists mo. split; [done|]. intros id T. rewrite H5. split; intros (p & Hp); exists p; by rewrite ?Hnt in *.
    - intros p p' id T T'. rewrite !Hnt. apply H6.
  Qed.

  Lemma pres_get_any i : pres (get_any i).
  Proof. intros w Hw. unfold get_any. by destruct (w_any w !! i). Qed.
  Lemma pres_get_block i : pres (get_block i).
  Proof. intros w Hw. unfold get_block. by destruct (w_heap w !! i). Qed.
  Lemma pres_ask : pres (ask E).
  Proof. intros w Hw. cbn. by eapply LI_same. Qed.

  (** replacing the fields of an any by fields with an equally harmless union *)
  Lemma LI_upd_any w i a a' : LI w -> w_any w !! i = Some a ->
    nt_of (match a_un a with UObj o => Some o | _ => None end) = nt_of (match a_un a' with UObj o => Some o | _ => None end) ->
    LI (set_any w (<[i := a']> (w_any w))).
  Proof.
    intros Hw Ha Hu. eapply LI_same; try done. intros p. unfold nt_at. destruct p as [k|b]; [|done]. cbn.
    destruct (decide (k = i)) as [->|]; [|by rewrite lookup_insert_ne]. by rewrite lookup_insert, Ha.
  Qed.
  Lemma un_free_nt u : un_free E u = true -> nt_of (match u with UObj o => Some o | _ => None end) = None.
  Proof. destruct u as [| |o]; try done. cbn. unfold nontrivial. rewrite negb_involutive. by intros ->. Qed.
  Lemma bo_free_nt o : bo_free E o = true -> nt_of o = None.
  Proof. destruct o as [o|]; [|done]. cbn. unfold nontrivial. rewrite negb_involutive. by intros ->. Qed.

  Lemma pres_field i (f : any -> any) : (forall a, a_un (f a) = a_un a) ->
    pres (let! a := get_any i in put_any i (f a)).
  Proof.
    intros Hf w Hw. unfold bindM, get_any, put_any. destruct (w_any w !! i) as [a|] eqn:Ha; [|done]. rewrite Ha.
    eapply LI_upd_any; try done. by rewrite Hf.
  Qed.
  Lemma pres_set_vt i v : pres (set_vt i v).
  Proof. by apply (pres_field i (fun a => Any v (a_vp a) (a_un a) (a_alloc a) (a_ms a))). Qed.
  Lemma pres_set_vp i v : pres (set_vp i v).
  Proof. by apply (pres_field i (fun a => Any (a_vt a) v (a_un a) (a_alloc a) (a_ms a))). Qed.
  Lemma pres_set_alloc i v : pres (set_alloc i v).
  Proof. by apply (pres_field i (fun a => Any (a_vt a) (a_vp a) (a_un a) v (a_ms a))). Qed.
  Lemma pres_set_size i n : pres (set_size E i n).
  Proof.
    intros w Hw. unfold set_size, bindM, get_any, put_any, ensure, ubM, retM.
    destruct (w_any w !! i) as [a|] eqn:Ha; [|done]. destruct (un_free E (a_un a)) eqn:Hu; [|done]. rewrite Ha.
    eapply LI_upd_any; try done. by rewrite (un_free_nt _ Hu).
  Qed.
  Lemma pres_get_size i : pres (get_size i).
  Proof. apply pres_bind; [apply pres_get_any|]. intros a. destruct (a_un a); first [apply pres_ret|apply pres_ub]. Qed.
  Lemma pres_read_obj p : pres (read_obj p).
  Proof.
    destruct p; cbn; apply pres_bind; try apply pres_get_any; try apply pres_get_block; intros a.
    - destruct (a_un a); first [apply pres_ret|apply pres_ub].
    - destruct (b_obj a); first [apply pres_ret|apply pres_ub].
  Qed.
  Lemma pres_read_as T p : pres (read_as T p).
  Proof. apply pres_bind; [apply pres_read_obj|]. intros o. apply pres_bind; [apply pres_ensure|]. intros _. apply pres_ret. Qed.
  Lemma pres_read_src T s : pres (read_src T s).
  Proof. destruct s; [apply pres_ret|]. apply pres_bind; [apply pres_read_as|]. intros o. apply pres_ret. Qed.

  (** pure reads do not change the world *)
  Definition stays {A} (m : M A) : Prop := forall w, match m w with Ok _ w' => w' = w | Exn _ => False | _ => True end.
  Lemma stays_bind {A B} (m : M A) (f : A -> M B) : stays m -> (forall a, stays (f a)) -> stays (bindM m f).
  Proof.
    intros Hm Hf w. unfold bindM. specialize (Hm w). destruct (m w) as [a w'|w'| |]; try done. subst. apply Hf.
  Qed.
  Lemma stays_ret {A} (a : A) : stays (retM a). Proof. by intros w. Qed.
  Lemma stays_ub {A} r : stays (@ubM A r). Proof. by intros w. Qed.
  Lemma stays_ensure b r : stays (ensure b r). Proof. by destruct b. Qed.
  Lemma stays_get_any i : stays (get_any i).
  Proof. intros w. unfold get_any. by destruct (w_any w !! i). Qed.
  Lemma stays_get_block i : stays (get_block i).
  Proof. intros w. unfold get_block. by destruct (w_heap w !! i). Qed.
  Lemma stays_read_as T p : stays (read_as T p).
  Proof.
    apply stays_bind.
    - destruct p; cbn; apply stays_bind; try apply stays_get_any; try apply stays_get_block; intros a.
      + destruct (a_un a); first [apply stays_ret|apply stays_ub].
      + destruct (b_obj a); first [apply stays_ret|apply stays_ub].
    - intros o. apply stays_bind; [apply stays_ensure|]. intros _. apply stays_ret.
  Qed.
  Lemma stays_read_src T s : stays (read_src T s).
  Proof. destruct s; [apply stays_ret|]. apply stays_bind; [apply stays_read_as|]. intros o. apply stays_ret. Qed.

  Lemma check_place_case T p w :
    match check_place E T p w with
    | Ok _ w' => w' = w /\ nt_at w p = None /\ place_exists w p
    | Exn _ => False | _ => True end.
  Proof.
    unfold check_place, bindM, ensure, retM, ubM, get_any, get_block.
    destruct (ty_align _ <=? max_align); [|done]. destruct p as [i|b].
    - destruct (w_any w !! i) as [a|] eqn:Ha; [|done]. destruct (ty_size _ <=? _); [|done].
      destruct (un_free E (a_un a)) eqn:Hu; [|done]. split; [done|]. split; [|by eexists].
      unfold nt_at. cbn. rewrite Ha. by apply un_free_nt.
    - destruct (w_heap w !! b) as [a|] eqn:Ha; [|done]. destruct (ty_size _ <=? _); [|done].
      destruct (bo_free E (b_obj a)) eqn:Hu; [|done]. split; [done|]. split; [|by eexists].
      unfold nt_at. cbn. rewrite Ha. by apply bo_free_nt.
  Qed.

  Lemma nt_write w p o q : place_exists w p ->
    nt_at (write_w w p o) q = if decide (q = p) then nt_of o else nt_at w q.
  Proof.
    unfold nt_at. destruct p as [i|b]; intros [x Hx]; cbn in Hx |- *; rewrite Hx; destruct q as [k|b']; cbn.
    - destruct (decide (PData k = PData i)) as [[= ->]|Hne].
      + rewrite lookup_insert. cbn. by destruct o.
      + rewrite lookup_insert_ne by congruence. done.
    - by destruct (decide (PHeap b' = PData i)).
    - by destruct (decide (PData k = PHeap b)).
    - destruct (decide (PHeap b' = PHeap b)) as [[= ->]|Hne].
      + by rewrite lookup_insert.
      + by rewrite lookup_insert_ne by congruence.
  Qed.
  Lemma bsig_write w p o : bsig <$> w_heap (write_w w p o) = bsig <$> w_heap w.
  Proof.
    destruct p as [i|b]; cbn; [by destruct (w_any w !! i)|]. destruct (w_heap w !! b) as [x|] eqn:Hb; [|done]. cbn.
    rewrite fmap_insert. rewrite insert_id; [done|]. rewrite lookup_fmap, Hb. done.
  Qed.

  (** overwriting a place without destructor obligations by something without *)
  Lemma LI_write_plain w p o : LI w -> place_exists w p -> nt_of o = nt_at w p -> LI (write_w w p o).
  Proof.
    intros Hw Hp Ho. eapply LI_same; [done|by rewrite write_w_log|by rewrite write_w_next|apply bsig_write|].
    intros q. rewrite nt_write by done. destruct (decide (q = p)) as [->|]; done.
  Qed.

  Lemma LI_next w : LI w -> LI (set_next w (S (w_next w))).
  Proof. intros H. eapply LI_same; try done. cbn. lia. Qed.

  (** creation of an object with destructor *)
  Lemma LI_create w w' p T id : LI w -> place_exists w p -> nt_at w p = None -> ty_tdestr (e_ty E T) = false ->
    w_next w <= id -> id < w_next w' -> w_log w' = EvCtor id T :: w_log w -> w_next w <= w_next w' ->
    bsig <$> w_heap w' = bsig <$> w_heap w ->
    (forall q, nt_at w' q = if decide (q = p) then Some (id, T) else nt_at w q) -> LI w'.
  Proof.
    intros [H1 H2 H3 (mo & H4 & H5) H6] Hp Hn Ht Hge Hlt Hl Hnn Hb Hnt.
    assert (Hold : forall q T', nt_at w q <> Some (id, T')).
    { intros q T' Hq. assert (exists q, nt_at w q = Some (id, T')) as Hex by by exists q. apply H5 in Hex.
      assert (exists T'', In (EvCtor id T'') (w_log w)) as (T'' & Hin).
      { clear - H4 Hex. revert T' Hex. induction H4 as [|l m i T Ho IH Hnew|l m i T Ho IH Hm|l m b al n Ho IH|l m b al n Ho IH]; intros T' Hex.
        - done.
        - destruct (decide (i = id)) as [->|]; [exists T; by left|]. rewrite lookup_insert_ne in Hex by done.
          destruct (IH _ Hex) as (T'' & ?). exists T''. by right.
        - apply lookup_delete_Some in Hex as [_ Hex]. destruct (IH _ Hex) as (T'' & ?). exists T''. by right.
        - destruct (IH _ Hex) as (T'' & ?). exists T''. by right.
        - destruct (IH _ Hex) as (T'' & ?). exists T''. by right. }
      specialize (H3 _ _ Hin). lia. }
    split; rewrite ?Hl, ?Hb.
    - by constructor.
    - intros b al n [?|Hin]; [done|]. specialize (H2 _ _ _ Hin). lia.
    - intros i T' [[= -> ->]|Hin]; [done|]. specialize (H3 _ _ Hin). lia.
    - exists (<[id := T]> mo). split.
      + constructor; [done|]. intros T' Hin. specialize (H3 _ _ Hin). lia.
      + intros i T'. destruct (decide (i = id)) as [->|Hne].
        * rewrite lookup_insert. split.
          -- intros [= <-]. exists p. rewrite Hnt. by destruct (decide (p = p)).
          -- intros (q & Hq). rewrite Hnt in Hq. destruct (decide (q = p)); [congruence|]. by apply Hold in Hq.
        * rewrite lookup_insert_ne by done. rewrite H5. split; intros (q & Hq); exists q; rewrite Hnt in *.
          -- destruct (decide (q = p)) as [->|]; [congruence|done].
          -- destruct (decide (q = p)); [congruence|done].
    - intros q q' i T1 T2 Hq Hq'. rewrite Hnt in Hq, Hq'.
      destruct (decide (q = p)) as [->|], (decide (q' = p)) as [->|]; try done.
      + injection Hq as <- <-. by apply Hold in Hq'.
      + injection Hq' as <- <-. by apply Hold in Hq.
      + by eapply H6.
  Qed.

  Lemma pres_construct T p s nt : pres (construct E T p s nt).
  Proof.
    intros w Hw. unfold construct, bindM at 1.
    pose proof (check_place_case T p w) as Hc. destruct (check_place E T p w) as [[] w0|w0| |]; try done.
    destruct Hc as (-> & Hnt & Hp). unfold bindM at 1.
    pose proof (stays_read_src T s w) as Hr. destruct (read_src T s w) as [v w0|w0| |]; try done. subst w0.
    set (w1 := if nt then w else set_tick w (S (w_tick w))).
    assert (Hw1 : LI w1 /\ place_exists w1 p /\ nt_at w1 p = None).
    { unfold w1. destruct nt; [done|]. split; [by eapply LI_same|]. by destruct p. }
    destruct Hw1 as (Hw1 & Hp1 & Hn1).
    assert (Hcreate : match (let! id := fresh in write_place p (Some (Obj T v id));;;
        (if ty_tdestr (e_ty E T) then retM tt else emit (EvCtor id T))) w1 with
        | Ok _ w' => LI w' | Exn w' => LI w' | _ => True end).
    { unfold bindM at 1, fresh. unfold bindM at 1.
      rewrite (write_place_ok (set_next w1 (S (w_next w1))) p) by by apply place_exists_next.
      assert (Hbase : LI (set_next w1 (S (w_next w1)))) by by apply LI_next.
      assert (Hpx : place_exists (set_next w1 (S (w_next w1))) p) by by apply place_exists_next.
      assert (Hnx : nt_at (set_next w1 (S (w_next w1))) p = None) by by destruct p.
      destruct (ty_tdestr (e_ty E T)) eqn:Htd; cbn.
      - apply LI_write_plain; [done|done|]. cbn. by rewrite Htd, Hnx.
      - eapply (LI_create w1 _ p T (w_next w1)); cbn; rewrite ?write_w_next, ?write_w_log; cbn; try done; try lia.
        + by rewrite bsig_write.
        + intros q. etransitivity; [apply (nt_write (set_next w1 (S (w_next w1))) p)|]; [done|].
          destruct (decide (q = p)); [cbn; by rewrite Htd|]. by destruct q. }
    destruct nt; cbn [w1] in *.
    - unfold bindM at 1, retM at 1. exact Hcreate.
    - unfold bindM at 1, ask. destruct (e_throws E (w_tick w)); [|exact Hcreate].
      unfold bindM. rewrite write_place_ok by done. cbn. apply LI_write_plain; done.
  Qed.

  Lemma pres_memcpy T s d : ty_tdestr (e_ty E T) = true -> pres (memcpy E T s d).
  Proof.
    intros Htd w Hw. unfold memcpy, bindM at 1.
    pose proof (check_place_case T d w) as Hc. destruct (check_place E T d w) as [[] w0|w0| |]; try done.
    destruct Hc as (-> & Hnt & Hp). unfold bindM at 1.
    pose proof (stays_read_as T s w) as Hr. destruct (read_as T s w) as [v w0|w0| |]; try done. subst w0.
    unfold bindM, fresh. rewrite write_place_ok by by apply place_exists_next.
    apply LI_write_plain; [by apply LI_next|by apply place_exists_next|]. cbn. rewrite Htd. symmetry. by destruct d.
  Qed.

  Lemma read_as_case T p w :
    match read_as T p w with
    | Ok o w' => w' = w /\ obj_at w p = Some o /\ o_ty o = T | Exn _ => False | _ => True end.
  Proof.
    unfold read_as, bindM at 1.
    assert (Hr : match read_obj p w with Ok o w' => w' = w /\ obj_at w p = Some o | Exn _ => False | _ => True end).
    { unfold read_obj, obj_at, bindM, get_any, get_block. destruct p as [i|b].
      - destruct (w_any w !! i) as [a|]; [|done]. by destruct (a_un a).
      - destruct (w_heap w !! b) as [a|]; [|done]. cbn. by destruct (b_obj a). }
    destruct (read_obj p w) as [o w0|w0| |]; try done. destruct Hr as [-> Ho].
    unfold bindM, ensure, retM, ubM. case_bool_decide; done.
  Qed.

  Lemma pres_destroy_at T p : pres (destroy_at E T p).
  Proof.
    intros w Hw. unfold destroy_at, bindM at 1.
    pose proof (read_as_case T p w) as Hr. destruct (read_as T p w) as [o w0|w0| |]; try done.
    destruct Hr as (-> & Ho & Ht). assert (Hp : place_exists w p) by by eapply obj_at_exists.
    unfold bindM. rewrite write_place_ok by done. destruct (ty_tdestr (e_ty E T)) eqn:Htd; cbn.
    { apply LI_write_plain; try done. unfold nt_at. rewrite Ho. cbn. by rewrite Ht, Htd. }
    assert (Hnt : nt_at w p = Some (o_id o, T)). { unfold nt_at. rewrite Ho. cbn. by rewrite Ht, Htd. }
    assert (Hq : forall q, nt_at (add_log (write_w w p None) (EvDtor (o_id o) T)) q = if decide (q = p) then None else nt_at w q).
    { intros q. etransitivity; [apply (nt_write w p None q); done|]. done. }
    destruct Hw as [H1 H2 H3 (mo & H4 & H5) H6].
    split; cbn; rewrite ?write_w_log, ?write_w_next.
    - rewrite bsig_write. by constructor.
    - intros b al n [?|Hin]; [done|]. by eapply H2.
    - intros i T' [?|Hin]; [done|]. by eapply H3.
    - exists (delete (o_id o) mo). split.
      + constructor; [done|]. apply H5. by exists p.
      + intros i T'. rewrite lookup_delete_Some, H5. split.
        * intros (Hne & q & Hqq). exists q. rewrite Hq. destruct (decide (q = p)) as [->|]; [congruence|done].
        * intros (q & Hqq). rewrite Hq in Hqq. destruct (decide (q = p)) as [|Hne]; [done|].
          split; [|by exists q]. intros <-. apply Hne. by eapply H6.
    - intros q q' i T1 T2. rewrite !Hq. destruct (decide (q = p)), (decide (q' = p)); try done. by apply H6.
  Qed.

  Lemma pres_allocate al n : pres (allocate E al n).
  Proof.
    intros w Hw. destruct (e_throws E (w_tick w)) eqn:Ht.
    { rewrite allocate_exn by done. by eapply LI_same. }
    rewrite allocate_ok by done. assert (Hbn : w_heap w !! w_next w = None).
    { destruct (w_heap w !! w_next w) as [x|] eqn:Hx; [|done]. exfalso. destruct Hw as [H1 H2 _ _ _].
      assert (Hm : (bsig <$> w_heap w) !! w_next w = Some (bsig x)) by by rewrite lookup_fmap, Hx.
      assert (forall l m, blocks aeq l m -> forall b y, m !! b = Some y -> exists al n, In (EvAlloc b al n) l) as Hg.
      { clear. induction 1 as [|l m b al n Hb IH Hnew|l m b al al' n Hb IH Hm|l m id T Hb IH|l m id T Hb IH]; intros b' y Hy.
        - done.
        - destruct (decide (b' = b)) as [->|]; [exists al, n; by left|]. rewrite lookup_insert_ne in Hy by done.
          destruct (IH _ _ Hy) as (? & ? & ?). eexists _, _. by right.
        - apply lookup_delete_Some in Hy as [_ Hy]. destruct (IH _ _ Hy) as (? & ? & ?). eexists _, _. by right.
        - destruct (IH _ _ Hy) as (? & ? & ?). eexists _, _. by right.
        - destruct (IH _ _ Hy) as (? & ? & ?). eexists _, _. by right. }
      destruct (Hg _ _ H1 _ _ Hm) as (al' & n' & Hin). specialize (H2 _ _ _ Hin). lia. }
    assert (Hq : forall q, nt_at (alloc_w w al n) q = nt_at w q).
    { intros [k|b]; [done|]. unfold nt_at. cbn. destruct (decide (b = w_next w)) as [->|].
      - by rewrite lookup_insert, Hbn.
      - by rewrite lookup_insert_ne. }
    destruct Hw as [H1 H2 H3 (mo & H4 & H5) H6]. split; cbn.
    - rewrite fmap_insert. cbn. constructor; [done|]. intros al' n' Hin. specialize (H2 _ _ _ Hin). lia.
    - intros b al' n' [[= <- <- <-]|Hin]; [lia|]. specialize (H2 _ _ _ Hin). lia.
    - intros i T [?|Hin]; [done|]. specialize (H3 _ _ Hin). lia.
    - exists mo. split; [by constructor|]. intros id T. rewrite H5. split; intros (q & Hqq); exists q; rewrite ?Hq in *; done.
    - intros p p' id T T'. rewrite !Hq. apply H6.
  Qed.

  Lemma pres_deallocate al p n : pres (deallocate E al p n).
  Proof.
    destruct p as [|b]; [apply pres_ub|]. intros w Hw. unfold deallocate, bindM, get_block, ensure, retM, ubM, emit.
    destruct (w_heap w !! b) as [x|] eqn:Hx; [|done]. destruct (alloc_eqb E al (b_alloc x)) eqn:Ha; [|done].
    destruct (Nat.eqb_spec n (b_size x)) as [->|]; [|done]. destruct (bo_free E (b_obj x)) eqn:Hb; [|done].
    assert (Hq : forall q, nt_at (add_log (set_heap w (delete b (w_heap w))) (EvFree b al (b_size x))) q = nt_at w q).
    { intros [k|b']; [done|]. unfold nt_at. cbn. destruct (decide (b = b')) as [<-|].
      - rewrite lookup_delete, Hx. symmetry. by apply bo_free_nt.
      - by rewrite lookup_delete_ne. }
    destruct Hw as [H1 H2 H3 (mo & H4 & H5) H6]. split; cbn.
    - rewrite fmap_delete. eapply blocks_free; [done| |exact Ha]. by rewrite lookup_fmap, Hx.
    - intros b' al' n' [?|Hin]; [done|]. by eapply H2.
    - intros i T [?|Hin]; [done|]. by eapply H3.
    - exists mo. split; [by constructor|]. intros id T. rewrite H5. split; intros (q & Hqq); exists q; by rewrite ?Hq in *.
    - intros p p' id T T'. rewrite !Hq. apply H6.
  Qed.

  Lemma pres_vt_read ms v m : pres (vt_read ms v m).
  Proof.
    intros w Hw. unfold vt_read. destruct (match vp_home v with None => _ | Some _ => _ end); [|done].
    destruct (number_of_first meqb m ms); [|done]. destruct (nth_error _ _) as [[T m']|]; [|done]. by destruct (meqb m m').
  Qed.
  Lemma pres_subtableM to from v : pres (subtableM to from v).
  Proof. unfold subtableM. destruct (subtable to from v); [apply pres_ret|apply pres_ub]. Qed.
  Lemma pres_any_slot i m : pres (any_slot i m).
  Proof. apply pres_bind; [apply pres_get_any|]. intros a. destruct (a_vt a); [apply pres_vt_read|apply pres_ub]. Qed.

  Lemma pres_new_any i al ms : pres (new_any i al ms).
  Proof.
    intros w Hw. unfold new_any. destruct (w_any w !! i) eqn:Hi; [done|]. eapply LI_same; try done.
    intros [k|b]; [|done]. unfold nt_at. cbn. destruct (decide (k = i)) as [->|]; [by rewrite lookup_insert, Hi|by rewrite lookup_insert_ne].
  Qed.
  Lemma pres_drop_any i : pres (drop_any E i).
  Proof.
    intros w Hw. unfold drop_any, bindM, get_any, ensure, retM, ubM. destruct (w_any w !! i) as [a|] eqn:Hi; [|done].
    destruct (un_free E (a_un a)) eqn:Hu; [|done]. eapply LI_same; try done.
    intros [k|b]; [|done]. unfold nt_at. cbn. destruct (decide (i = k)) as [<-|]; [|by rewrite lookup_delete_ne].
    rewrite lookup_delete, Hi. symmetry. by apply un_free_nt.
  Qed.

  (** structural closure *)
  Local Hint Resolve pres_ret pres_ub pres_throw pres_ensure pres_get_any pres_get_block pres_ask pres_set_vt pres_set_vp
    pres_set_alloc pres_set_size pres_get_size pres_read_as pres_construct pres_destroy_at pres_allocate pres_deallocate
    pres_vt_read pres_subtableM pres_any_slot pres_new_any pres_drop_any pres_memcpy : pres.
  Ltac pgo := repeat first
    [ solve [eauto with pres]
    | apply pres_noexcept | apply pres_onexn
    | apply pres_bind; [|intros ?]
    | match goal with |- pres (if ?b then _ else _) => destruct b eqn:? end
    | match goal with |- pres (match ?x with _ => _ end) => destruct x eqn:? end ].

  Lemma pres_get_move_fn i : pres (get_move_fn i).
  Proof. unfold get_move_fn. pgo. Qed.
  Lemma pres_relocate T s d : pres (relocate E T s d).
  Proof.
    unfold relocate. destruct (ty_tcopy _ && ty_tdestr _) eqn:Hb; [|pgo]. apply andb_prop in Hb as [_ Hb]. by apply pres_memcpy.
  Qed.
  Lemma pres_copy_fn T al s d : pres (copy_fn E T al s d).
  Proof.
    unfold copy_fn, write_size_at. destruct (ty_tcopy (e_ty E T)) eqn:Hb; [apply (wf_tcopy _ Hwf) in Hb|]; pgo; by apply pres_memcpy.
  Qed.
  Local Hint Resolve pres_get_move_fn pres_relocate pres_copy_fn : pres.

  Lemma pres_construct_value i T s nt : pres (construct_value E i T s nt).
  Proof. unfold construct_value. pgo. Qed.
  Local Hint Resolve pres_construct_value : pres.
  Lemma pres_emplace_in_empty i T f s nt : pres (emplace_in_empty E i T f s nt).
  Proof. unfold emplace_in_empty. pgo. Qed.
  Lemma pres_destroy_value i : pres (destroy_value E i).
  Proof. unfold destroy_value, call_destroy. pgo. Qed.
  Lemma pres_deallocate_memory i : pres (deallocate_memory E i).
  Proof. unfold deallocate_memory. pgo. Qed.
  Local Hint Resolve pres_emplace_in_empty pres_destroy_value pres_deallocate_memory : pres.
  Lemma pres_reset i : pres (reset E i).
  Proof. unfold reset. pgo. Qed.
  Lemma pres_replace i n : pres (replace_with_bytes E i n).
  Proof. unfold replace_with_bytes, capacity. pgo. Qed.
  Lemma pres_emplace i T s nt : pres (emplace E i T s nt).
  Proof. unfold emplace. pgo. Qed.
  Lemma pres_move_value_from r i j : pres (move_value_from E r i j).
  Proof. unfold move_value_from. pgo. Qed.
  Lemma pres_copy_body i j : pres (copy_body E i j).
  Proof. unfold copy_body. pgo. Qed.
  Local Hint Resolve pres_reset pres_replace pres_emplace pres_move_value_from pres_copy_body : pres.
  Lemma pres_dtor i : pres (dtor E i).
  Proof. unfold dtor. pgo. Qed.
  Lemma pres_copy_ctor i j ms : pres (copy_ctor E i j ms).
  Proof. unfold copy_ctor, ctor. pgo. Qed.
  Lemma pres_move_assign i j : pres (move_assign E i j).
  Proof. unfold move_assign. pgo. Qed.
  Lemma pres_move_ctor i j : pres (move_ctor E i j).
  Proof. unfold move_ctor, ctor. pgo. Qed.
  Local Hint Resolve pres_dtor pres_copy_ctor pres_move_assign pres_move_ctor : pres.

  Lemma pres_write_same T v p o : forall w, LI w -> obj_at w p = Some o -> o_ty o = T ->
    LI (write_w w p (Some (Obj T v (o_id o)))).
  Proof.
    intros w Hw Ho Ht. apply LI_write_plain; [done|by eapply obj_at_exists|]. unfold nt_at. rewrite Ho. cbn. by rewrite Ht.
  Qed.
  Lemma pres_invoke i n x : pres (invoke E i n x).
  Proof.
    unfold invoke. apply pres_bind; [auto with pres|intros T]. apply pres_bind; [auto with pres|intros a].
    intros w Hw. unfold bindM at 1. pose proof (read_as_case T (a_vp a) w) as Hr.
    destruct (read_as T (a_vp a) w) as [o w0|w0| |]; try done. destruct Hr as (-> & Ho & Ht).
    unfold bindM. rewrite write_place_ok by by eapply obj_at_exists.
    assert (LI (write_w w (a_vp a) (Some (Obj T (fst (e_meth E T n (o_val o) x)) (o_id o))))) as HL by by apply pres_write_same.
    by destruct (snd _).
  Qed.
  Lemma pres_pick from v ms : pres (pick_slots from v ms).
  Proof. induction ms as [|m tl IH]; cbn; pgo. Qed.
  Lemma pres_new_sref r j ms : pres (new_sref r j ms).
  Proof.
    unfold new_sref. apply pres_bind; [auto with pres|intros a]. destruct (a_vt a); [|auto with pres].
    apply pres_bind; [apply pres_pick|]. intros tab w Hw. destruct (w_sref w !! r); [done|]. by eapply LI_same.
  Qed.
  Lemma pres_make_ref x : pres (make_ref x).
  Proof. destruct x as [j ms|r]; cbn; [pgo|]. intros w Hw. by destruct (w_sref w !! r). Qed.
  Lemma pres_materialize i al x : pres (materialize E i al x).
  Proof. unfold materialize. destruct (e_copy_req_alloc E); [apply pres_ub|]. apply pres_bind; [apply pres_make_ref|intros r]. pgo. Qed.

  Lemma pres_eval_arg s : pres (eval_arg s).
  Proof. destruct s; cbn; pgo. Qed.
  Local Hint Resolve pres_invoke pres_new_sref pres_materialize pres_eval_arg : pres.

  Lemma pres_run o : pres (run E o).
  Proof.
    destruct o; cbn [run]; unfold default_ctor, value_ctor, force_ctor, trans_move_ctor, copy_assign, swap_any, ctor; pgo.
    intros w Hw. cbn. by eapply LI_same.
  Qed.

  Lemma LI_init : LI init_world.
  Proof.
    split; cbn; try done.
    - rewrite fmap_empty. constructor.
    - exists ∅. split; [constructor|]. intros id T. rewrite lookup_empty. split; [done|]. intros ([k|b] & Hp); done.
    - intros [k|b]; done.
  Qed.

  Lemma reachable_LI w : reachable E w -> LI w.
  Proof.
    induction 1 as [|w o w' _ IH Hp Hs Hr|w o w' _ IH Hp Hs Hr]; [apply LI_init| |].
    - pose proof (pres_run o w IH) as H. by rewrite Hr in H.
    - pose proof (pres_run o w IH) as H. by rewrite Hr in H.
  Qed.
End Log.
