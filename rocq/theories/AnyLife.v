(** Specifications of constructors, destructor, copy and assignment. *)
From stdpp Require Import gmap list.
From Verif Require Import TypeListModel TypeListSpec TypeListProofs AnyModel AnyInv AnySteps AnyOps AnyMove.

(** memory exactly as before (only counters and the log may differ) *)
Definition same_mem (w w' : world) : Prop :=
  w_any w' = w_any w /\ w_heap w' = w_heap w /\ w_sref w' = w_sref w /\ w_next w <= w_next w'.
Lemma same_mem_inv E w w' : Inv E w -> same_mem w w' -> Inv E w'.
Proof.
  intros [H1 H2 H3 H4 H5] (Ha & Hh & Hs & Hn). split; unfold block_of, home_ok, vt_alive; rewrite ?Ha, ?Hh, ?Hs; try done.
  intros b x Hb. specialize (H5 _ _ Hb). lia.
Qed.
Lemma same_mem_eff S w w' : same_mem w w' -> Eff S w w'.
Proof. intros (Ha & Hh & Hs & Hn). split; try done. intros k _. unfold view, block_of. by rewrite Ha, Hh. Qed.
Lemma same_mem_refl w : same_mem w w.
Proof. done. Qed.
Lemma same_mem_trans w1 w2 w3 : same_mem w1 w2 -> same_mem w2 w3 -> same_mem w1 w3.
Proof. intros (A1 & H1 & S1 & N1) (A2 & H2 & S2 & N2). repeat split; try congruence. lia. Qed.

Lemma new_any_inv E w i al ms : Inv E w -> w_any w !! i = None -> In MDestroy ms ->
  let w1 := set_any w (<[i := Any None (PData i) UEmpty al ms]> (w_any w)) in
  new_any i al ms w = Ok tt w1 /\ Inv E w1 /\ Eff {[i]} w w1.
Proof.
  intros HI Hi Hd w1. split; [unfold new_any; by rewrite Hi|].
  assert (Hno : forall b, ~ own1 i w b) by (intros b (a & Ha & _); congruence).
  destruct (inv_upd1 E w w1 i (Any None (PData i) UEmpty al ms)) as [I V]; try done.
  - intros b x Hb. cbn in *. split; [by eapply inv_fresh|]. right. split; [by eapply inv_fresh|]. done.
  - split; [done|]. split; [|done|done]. intros k Hk. apply V. set_solver.
Qed.

Lemma drop_any_ok E w i a : w_any w !! i = Some a -> un_free E (a_un a) = true ->
  drop_any E i w = Ok tt (set_any w (delete i (w_any w))).
Proof. intros Ha Hu. unfold drop_any. rewrite (bind_get_any _ _ _ _ Ha), Hu. done. Qed.

(** a constructor whose body, when it throws, has touched only the new any *)
Lemma ctor_spec E w i al ms body (Q : unit -> world -> Prop) (P t : Prop) :
  w_any w !! i = None ->
  wp body Q (fun w' => P /\ w_heap w' = w_heap w /\ w_sref w' = w_sref w /\ w_next w <= w_next w' /\
               exists a', w_any w' = <[i := a']> (w_any w) /\ un_free E (a_un a') = true) t
     (set_any w (<[i := Any None (PData i) UEmpty al ms]> (w_any w))) ->
  wp (ctor E i al ms body) Q (fun w' => P /\ same_mem w w') t w.
Proof.
  intros Hi Hb. unfold ctor. eapply wp_bind_ok; [unfold new_any; by rewrite Hi|]. apply wp_onexn.
  eapply wp_mono; [exact Hb|done| |done].
  intros w' (HP & Hh & Hs & Hn & a' & Hany & Hu). eapply wp_ok.
  { eapply drop_any_ok; [|exact Hu]. by rewrite Hany, lookup_insert. }
  split; [done|]. repeat split; cbn; try done. rewrite Hany. by rewrite delete_insert.
Qed.

Lemma src_from_new w i T s v w1 : w_any w !! i = None -> src_from w i T s v -> Eff {[i]} w w1 -> src_from w1 i T s v.
Proof. intros _ Hs HE. by eapply src_from_eff. Qed.

Definition built (E : env) (w w' : world) (i al : nat) (ms : list method) (T v : nat) (inbuf : bool) : Prop :=
  Inv E w' /\ Eff {[i]} w w' /\ content w' i = Some (Some (T, v)) /\
  allocs w' = (if inbuf then allocs w else S (allocs w)) /\
  exists a', w_any w' !! i = Some a' /\ a_alloc a' = al /\ a_ms a' = ms /\
    (if inbuf then a_vp a' = PData i
     else (exists b, a_vp a' = PHeap b) /\ a_un a' = USize (ty_size (e_ty E T))).

Lemma ctor_emplace_spec E w i al ms T force s v nt :
  Inv E w -> w_any w !! i = None -> In MDestroy ms -> ty_align (e_ty E T) <= max_align -> src_from w i T s v ->
  wp (ctor E i al ms (emplace_in_empty E i T force s nt))
     (fun _ w' => built E w w' i al ms T v (fits E T && negb force))
     (fun w' => fits E T && negb force && nt = false /\ same_mem w w')
     False w.
Proof.
  intros HI Hi Hd Hal Hsrc. destruct (new_any_inv E w i al ms HI Hi Hd) as (Hnew & I1 & F1).
  set (a1 := Any None (PData i) UEmpty al ms) in *. set (w1 := set_any w (<[i := a1]> (w_any w))) in *.
  assert (Ha1 : w_any w1 !! i = Some a1) by (cbn; by rewrite lookup_insert).
  apply ctor_spec; [done|].
  eapply wp_mono; [apply (emplace_in_empty_spec E w1 i a1 T force s v nt); try done| | |done].
  - by eapply src_from_eff.
  - intros [] w' (I & F & C & L & a' & Ha' & Hv' & Hl & Hm & Hpl). split; [done|].
    split; [by eapply eff_trans|]. split; [done|]. split; [done|]. exists a'. done.
  - intros w' (Hc & I & F & Hh & a' & Ha' & Hv' & Hp' & Hl & Hm). split; [done|]. split; [done|].
    split; [by rewrite (eff_sref _ _ _ F)|]. split; [by apply (eff_next _ _ _ F)|]. exists a'.
    split; [by rewrite Ha'; cbn; rewrite insert_insert|].
    assert (Hai : w_any w' !! i = Some a') by by rewrite Ha', lookup_insert.
    pose proof (inv_ok _ _ I _ _ Hai) as [_ Hok]. rewrite Hp', Hv' in Hok. by destruct Hok.
Qed.

Lemma value_ctor_spec E w i al ms T s v nt :
  Inv E w -> w_any w !! i = None -> In MDestroy ms -> ty_align (e_ty E T) <= max_align -> src_from w i T s v ->
  wp (value_ctor E i al ms T s nt)
     (fun _ w' => built E w w' i al ms T v (fits E T))
     (fun w' => fits E T && nt = false /\ same_mem w w')
     False w.
Proof.
  intros HI Hi Hd Hal Hsrc. unfold value_ctor. apply wp_noexcept.
  eapply wp_mono; [by apply (ctor_emplace_spec E w i al ms T false s v nt)| | |done].
  - intros [] w'. cbn [negb]. by rewrite andb_true_r.
  - intros w'. cbn [negb]. rewrite andb_true_r, (andb_comm nt). intros [-> H]. done.
Qed.

Lemma force_ctor_spec E w i ms T s v nt :
  Inv E w -> w_any w !! i = None -> In MDestroy ms -> ty_align (e_ty E T) <= max_align -> src_from w i T s v ->
  wp (force_ctor E i ms T s nt)
     (fun _ w' => built E w w' i (e_def_alloc E) ms T v false)
     (fun w' => nt && fits E T = false /\ same_mem w w')
     (nt && fits E T = true) w.
Proof.
  intros HI Hi Hd Hal Hsrc. unfold force_ctor. apply wp_noexcept.
  eapply wp_mono; [by apply (ctor_emplace_spec E w i (e_def_alloc E) ms T true s v nt)| | |done].
  - intros [] w'. cbn [negb]. by rewrite andb_false_r.
  - intros w' [_ H]. by destruct (nt && fits E T).
Qed.

(** ** destructor *)
Lemma dtor_spec E w i a : Inv E w -> w_any w !! i = Some a ->
  exists w', dtor E i w = Ok tt w' /\ Inv E w' /\ Eff {[i]} w w' /\ Quiet w w' /\ w_any w' !! i = None.
Proof.
  intros HI Ha. destruct (reset_spec E w i a HI Ha) as (w1 & a1 & H1 & I1 & F1 & Q1 & Ha1 & Hv1 & Hp1 & _).
  pose proof (inv_ok _ _ I1 _ _ Ha1) as [_ Hok]. rewrite Hp1, Hv1 in Hok. destruct Hok as [_ Hu].
  eexists. split.
  { unfold dtor. rewrite (bind_ok _ _ _ _ _ H1). by eapply drop_any_ok. }
  assert (Hno : forall b, ~ own1 i w1 b). { intros b. rewrite (own1_same E i w1 b a1 I1 Ha1). congruence. }
  match goal with |- Inv _ ?x /\ _ => set (w2 := x) end.
  assert (Hlk : forall k, k <> i -> w_any w2 !! k = w_any w1 !! k).
  { intros k Hk. cbn. by rewrite lookup_delete_ne. }
  assert (Hdi : w_any w2 !! i = None) by (cbn; by rewrite lookup_delete).
  assert (Hor : forall k a, w_any w2 !! k = Some a -> w_any w1 !! k = Some a).
  { intros k a' Hk. destruct (decide (k = i)) as [->|]; [congruence|]. by rewrite <- Hlk. }
  split; [|split; [|split; [done|done]]].
  - destruct I1 as [J1 J2 J3 J4 J5]. split.
    + intros k a' Hk. apply (J1 k a'). by apply Hor.
    + intros k a' Hk. apply (J2 k a'). by apply Hor.
    + intros k k' x x' b Hk Hk'. eapply J3; by apply Hor.
    + intros b x Hb. destruct (J4 b x Hb) as (k & a' & Hk & Hp). exists k, a'. split; [|done].
      rewrite Hlk; [done|]. intros ->. congruence.
    + done.
  - eapply eff_trans; [exact F1|]. split; [|done|done]. intros k Hk. unfold view, block_of.
    rewrite Hlk by set_solver. done.
Qed.

(** ** copying a value into a new any *)
Lemma copy_alloc_eq E al : env_wf E -> alloc_eqb E al (copy_alloc E al) = true.
Proof.
  intros Hwf. unfold copy_alloc. destruct (e_copy_req_alloc E) eqn:Hc; [apply alloc_eqb_refl|].
  unfold alloc_eqb. by rewrite (wf_copy_alloc _ Hwf Hc).
Qed.

(** the finished new any *)
Lemma new_any_filled E w0 w2 i al ms v' T x id' p u :
  env_wf E -> Inv E w0 -> w_any w0 !! i = None -> In MDestroy ms -> ty_align (e_ty E T) <= max_align ->
  vt_entries ms v' T -> vt_alive w0 v' ->
  w_any w2 = <[i := Any (Some v') p u al ms]> (w_any w0) -> w_sref w2 = w_sref w0 -> w_next w0 <= w_next w2 ->
  ((p = PData i /\ u = UObj (Obj T x id') /\ fits E T = true /\ w_heap w2 = w_heap w0) \/
   (exists b n, p = PHeap b /\ u = USize n /\ ty_size (e_ty E T) <= n /\ w_next w0 <= b < w_next w2 /\
      w_heap w2 = <[b := Block (copy_alloc E al) n (Some (Obj T x id'))]> (w_heap w0))) ->
  Inv E w2 /\ Eff {[i]} w0 w2 /\ content w2 i = Some (Some (T, x)).
Proof.
  intros Hwf HI Hi Hd Hal He Hv Hany Hs Hn Hc.
  assert (Hno : forall b, ~ own1 i w0 b) by (intros b (a & Ha & _); congruence).
  destruct (inv_upd1 E w0 w2 i (Any (Some v') p u al ms)) as [I V]; try done.
  - split; [done|]. cbn. destruct Hc as [(-> & -> & Hf & Hh)|(b & n & -> & -> & Hsz & Hb & Hh)].
    + split; [done|]. by exists T, x, id'.
    + exists (copy_alloc E al), n, (Some (Obj T x id')). unfold block_of. cbn. rewrite Hh, lookup_insert.
      repeat split; try done; [by apply copy_alloc_eq|]. by exists T, x, id'.
  - unfold home_ok, vt_alive in *. cbn. by rewrite Hs.
  - intros b Hlt _. destruct Hc as [(_ & _ & _ & ->)|(b' & n & _ & _ & _ & Hb & ->)]; [done|].
    by rewrite lookup_insert_ne by lia.
  - cbn. intros b Hp. right. destruct Hc as [(-> & _)|(b' & n & -> & _ & _ & Hb & _)]; [done|]. injection Hp as ->. lia.
  - cbn. intros b y. destruct Hc as [(_ & _ & _ & ->)|(b' & n & -> & _ & _ & Hb & ->)].
    + intros Hy. pose proof (inv_fresh _ _ HI _ _ Hy). split; [lia|]. right. done.
    + destruct (decide (b = b')) as [->|Hne]; [intros _; split; [lia|by left]|].
      rewrite lookup_insert_ne by done. intros Hy. pose proof (inv_fresh _ _ HI _ _ Hy). split; [lia|]. by right.
  - split; [done|]. split; [split; [|done|done]; intros k Hk; apply V; set_solver|].
    unfold content, view. rewrite Hany, lookup_insert. unfold content_of, block_of. cbn.
    destruct Hc as [(-> & -> & _)|(b' & n & -> & _ & _ & Hb & ->)]; [done|]. by rewrite lookup_insert.
Qed.

Lemma copy_fn_spec E w0 w i vt0 al ms T s x id :
  env_wf E -> Inv E w0 -> w_any w0 !! i = None -> ty_align (e_ty E T) <= max_align ->
  obj_at w0 s = Some (Obj T x id) ->
  w_any w = <[i := Any vt0 (PData i) UEmpty al ms]> (w_any w0) -> w_heap w = w_heap w0 -> w_sref w = w_sref w0 ->
  w_next w = w_next w0 ->
  wp (copy_fn E T (copy_alloc E al) s (PData i))
     (fun p w1 => exists u, w_any w1 = <[i := Any vt0 (PData i) u al ms]> (w_any w0) /\ w_sref w1 = w_sref w0 /\
        w_next w0 <= w_next w1 /\
        allocs w1 = (if fits E T then allocs w else S (allocs w)) /\
        (if fits E T then p = PData i else (exists b, p = PHeap b) /\ u = USize (ty_size (e_ty E T))) /\
        forall v' w2, In MDestroy ms -> vt_entries ms v' T -> vt_alive w0 v' ->
          w_any w2 = <[i := Any (Some v') p u al ms]> (w_any w0) -> w_heap w2 = w_heap w1 ->
          w_sref w2 = w_sref w0 -> w_next w1 <= w_next w2 ->
          Inv E w2 /\ Eff {[i]} w0 w2 /\ content w2 i = Some (Some (T, x)))
     (fun w1 => fits E T && (ty_tcopy (e_ty E T) || ty_ntcopy (e_ty E T)) = false /\
        w_heap w1 = w_heap w0 /\ w_sref w1 = w_sref w0 /\ w_next w0 <= w_next w1 /\
        exists u, w_any w1 = <[i := Any vt0 (PData i) u al ms]> (w_any w0) /\ un_free E u = true)
     False w.
Proof.
  intros Hwf HI Hi Hal Ho Hany Hh Hs Hn. unfold copy_fn.
  assert (Hai : w_any w !! i = Some (Any vt0 (PData i) UEmpty al ms)) by by rewrite Hany, lookup_insert.
  assert (Hsi : s <> PData i). { intros ->. cbn in Ho. by rewrite Hi in Ho. }
  assert (Hobj : forall w1 u, w_any w1 = <[i := Any vt0 (PData i) u al ms]> (w_any w0) ->
     (forall b, b < w_next w0 -> w_heap w1 !! b = w_heap w0 !! b) -> obj_at w1 s = Some (Obj T x id)).
  { intros w1 u H1 H2. destruct s as [k|b]; cbn in *.
    - rewrite H1, lookup_insert_ne by congruence. done.
    - rewrite H2; [done|]. destruct (w_heap w0 !! b) eqn:Hb; [|done]. by eapply inv_fresh. }
  assert (Hobjw : obj_at w s = Some (Obj T x id)). { eapply Hobj; [done|]. intros b _. by rewrite Hh. }
  assert (Hw : forall w' o, w_any w' = w_any w -> write_w w' (PData i) o =
     set_any w' (<[i := Any vt0 (PData i) (match o with Some x => UObj x | None => UEmpty end) al ms]> (w_any w0))).
  { intros w' o H. cbn. rewrite H, Hai. cbn. by rewrite Hany, insert_insert. }
  destruct (fits E T) eqn:Hf.
  - assert (Hpf : place_fit E w T (PData i)).
    { split; [done|]. eexists. split; [done|]. split; [|done]. unfold fits in Hf. apply andb_prop in Hf as [_ Hf].
      by apply Nat.leb_le. }
    assert (Hdone : forall w1 id', w_any w1 = <[i := Any vt0 (PData i) (UObj (Obj T x id')) al ms]> (w_any w0) ->
      w_heap w1 = w_heap w0 -> w_sref w1 = w_sref w0 -> w_next w0 <= w_next w1 -> allocs w1 = allocs w ->
      exists u, w_any w1 = <[i := Any vt0 (PData i) u al ms]> (w_any w0) /\ w_sref w1 = w_sref w0 /\
        w_next w0 <= w_next w1 /\ allocs w1 = allocs w /\ PData i = PData i /\
        forall v' w2, In MDestroy ms -> vt_entries ms v' T -> vt_alive w0 v' ->
          w_any w2 = <[i := Any (Some v') (PData i) u al ms]> (w_any w0) -> w_heap w2 = w_heap w1 ->
          w_sref w2 = w_sref w0 -> w_next w1 <= w_next w2 ->
          Inv E w2 /\ Eff {[i]} w0 w2 /\ content w2 i = Some (Some (T, x))).
    { intros w1 id' A1 H1 S1 N1 L1. exists (UObj (Obj T x id')). do 5 (split; [done|]).
      intros v' w2 Hd He Hv A2 H2 S2 N2. eapply (new_any_filled E w0 w2 i al ms v' T x id'); try done; [lia|].
      left. repeat split; congruence. }
    destruct (ty_tcopy (e_ty E T)) eqn:Htc.
    + eapply wp_bind_ok; [by eapply memcpy_ok|]. apply wp_ret. rewrite Hw by done.
      eapply (Hdone _ (w_next w)); cbn; try done. lia.
    + apply wp_bind.
      destruct (decide (ty_ntcopy (e_ty E T) = true \/ e_throws E (w_tick w) = false)) as [Hnt|Hnt].
      * eapply wp_ok; [apply construct_ok; [done|by exists id|done]|]. apply wp_ret. unfold ctor_w.
        rewrite Hw by (by destruct (ty_ntcopy _)).
        eapply (Hdone _ (w_next w)); destruct (ty_tdestr _), (ty_ntcopy _); cbn; try done; lia.
      * assert (ty_ntcopy (e_ty E T) = false /\ e_throws E (w_tick w) = true) as [-> Ht].
        { destruct (ty_ntcopy _), (e_throws E (w_tick w)); try done; exfalso; apply Hnt; auto. }
        eapply wp_exn; [by eapply construct_exn; [|exists id|]|]. rewrite Hw by done. cbn.
        split; [done|]. split; [done|]. split; [done|]. split; [lia|]. by eexists.
  - assert (Hdone : forall w1 b id' al', al' = copy_alloc E al -> w_next w0 <= b < w_next w1 ->
      w_any w1 = <[i := Any vt0 (PData i) (USize (ty_size (e_ty E T))) al ms]> (w_any w0) ->
      w_heap w1 = <[b := Block al' (ty_size (e_ty E T)) (Some (Obj T x id'))]> (w_heap w0) ->
      w_sref w1 = w_sref w0 -> allocs w1 = S (allocs w) ->
      exists u, w_any w1 = <[i := Any vt0 (PData i) u al ms]> (w_any w0) /\ w_sref w1 = w_sref w0 /\
        w_next w0 <= w_next w1 /\ allocs w1 = S (allocs w) /\ ((exists b', PHeap b = PHeap b') /\ u = USize (ty_size (e_ty E T))) /\
        forall v' w2, In MDestroy ms -> vt_entries ms v' T -> vt_alive w0 v' ->
          w_any w2 = <[i := Any (Some v') (PHeap b) u al ms]> (w_any w0) -> w_heap w2 = w_heap w1 ->
          w_sref w2 = w_sref w0 -> w_next w1 <= w_next w2 ->
          Inv E w2 /\ Eff {[i]} w0 w2 /\ content w2 i = Some (Some (T, x))).
    { intros w1 b id' al' -> Hb A1 H1 S1 L1. exists (USize (ty_size (e_ty E T))). split; [done|]. split; [done|]. split; [lia|].
      split; [done|]. split; [split; [by exists b|done]|].
      intros v' w2 Hd He Hv A2 H2 S2 N2. eapply (new_any_filled E w0 w2 i al ms v' T x id'); try done; [lia|].
      right. exists b, (ty_size (e_ty E T)). split; [done|]. split; [done|]. split; [lia|]. split; [lia|]. congruence. }
    set (n := ty_size (e_ty E T)) in *.
    assert (Hpf : place_fit E (alloc_w w (copy_alloc E al) n) T (PHeap (w_next w))).
    { split; [done|]. eexists. cbn. rewrite lookup_insert. done. }
    assert (Hobj1 : obj_at (alloc_w w (copy_alloc E al) n) s = Some (Obj T x id)).
    { eapply Hobj; [done|]. intros b Hb. cbn. rewrite lookup_insert_ne by lia. by rewrite Hh. }
    assert (Hexn : e_throws E (w_tick w) = true ->
      fits E T && (ty_tcopy (e_ty E T) || ty_ntcopy (e_ty E T)) = false /\
      let w1 := set_tick w (S (w_tick w)) in
        w_heap w1 = w_heap w0 /\ w_sref w1 = w_sref w0 /\ w_next w0 <= w_next w1 /\
        exists u, w_any w1 = <[i := Any vt0 (PData i) u al ms]> (w_any w0) /\ un_free E u = true).
    { intros _. rewrite Hf. split; [done|]. cbn. repeat split; [done|done|lia|]. by exists UEmpty. }
    rewrite Hf in Hexn.
    set (b := w_next w) in *.
    destruct (ty_tcopy (e_ty E T)) eqn:Htc.
    + apply wp_bind. destruct (e_throws E (w_tick w)) eqn:Ht.
      { eapply wp_exn; [by apply allocate_exn|]. by apply Hexn. }
      eapply wp_ok; [by apply allocate_ok|]. fold b.
      eapply wp_bind_ok; [by eapply memcpy_ok|]. cbn [write_w]. cbn. rewrite lookup_insert. cbn.
      eapply wp_bind_ok; [apply set_size_ok; [cbn; exact Hai|done]|]. apply wp_ret.
      eapply (Hdone _ b); cbn; try done.
      * unfold b. lia.
      * by rewrite Hany, insert_insert.
      * by rewrite insert_insert, Hh.
    + apply wp_bind. destruct (e_throws E (w_tick w)) eqn:Ht.
      { eapply wp_exn; [by apply allocate_exn|]. by apply Hexn. }
      eapply wp_ok; [by apply allocate_ok|]. fold b. set (w1 := alloc_w w (copy_alloc E al) n) in *.
      assert (Hrest : forall nt, nt = true \/ e_throws E (w_tick w1) = false ->
        wp (write_size_at E (PData i) n ;;; retM (PHeap b))
        (fun p w1 => exists u, w_any w1 = <[i := Any vt0 (PData i) u al ms]> (w_any w0) /\ w_sref w1 = w_sref w0 /\
        w_next w0 <= w_next w1 /\ allocs w1 = S (allocs w) /\
        ((exists b, p = PHeap b) /\ u = USize n) /\
        forall v' w2, In MDestroy ms -> vt_entries ms v' T -> vt_alive w0 v' ->
          w_any w2 = <[i := Any (Some v') p u al ms]> (w_any w0) -> w_heap w2 = w_heap w1 ->
          w_sref w2 = w_sref w0 -> w_next w1 <= w_next w2 ->
          Inv E w2 /\ Eff {[i]} w0 w2 /\ content w2 i = Some (Some (T, x)))
        (fun _ => False) False (ctor_w E w1 T (PHeap b) x (negb nt))).
      { intros nt _. eapply wp_bind_ok.
        { apply set_size_ok with (a := Any vt0 (PData i) UEmpty al ms); [|done]. unfold ctor_w.
          destruct (ty_tdestr _), nt; cbn; rewrite lookup_insert; cbn; exact Hai. }
        apply wp_ret. eapply (Hdone _ b (w_next w1)); cbn; try done; unfold ctor_w;
          destruct (ty_tdestr _), nt; cbn; rewrite ?lookup_insert; cbn; try done; try (unfold b; lia);
          rewrite ?insert_insert; by rewrite ?Hany, ?Hh, ?insert_insert. }
      apply wp_bind. destruct (ty_ntcopy (e_ty E T)) eqn:Hnt.
      * eapply wp_ok; [apply (construct_ok E w1 T (PHeap b) (SRef s) x true); [done|by exists id|by left]|].
        eapply wp_mono; [apply (Hrest true); by left|done| |done]. intros ? [].
      * apply wp_onexn. destruct (e_throws E (w_tick w1)) eqn:Ht1.
        -- eapply wp_exn; [by eapply construct_exn; [|exists id|]|]. cbn [write_w]. cbn. rewrite lookup_insert. cbn.
           eapply wp_ok.
           { eapply (deallocate_ok E _ _ b (Block (copy_alloc E al) n None)); cbn; try done.
             - by rewrite insert_insert, lookup_insert.
             - apply alloc_eqb_refl. }
           cbn. split; [done|]. split.
           { rewrite insert_insert, delete_insert; [done|]. rewrite Hh. by apply (fresh_none E); [|unfold b; lia]. }
           split; [done|]. split; [lia|]. by exists UEmpty.
        -- eapply wp_ok; [apply (construct_ok E w1 T (PHeap b) (SRef s) x false); [done|by exists id|by right]|].
           eapply wp_mono; [apply (Hrest false); by right|done| |done]. intros ? [].
Qed.

(** ** copy and move constructors *)
Lemma content_home w j o : w_any w !! j = Some o -> a_vt o = None -> content w j = Some None.
Proof. apply content_empty. Qed.

Lemma copy_ctor_spec E w i j o ms :
  env_wf E -> Inv E w -> w_any w !! i = None -> w_any w !! j = Some o ->
  In MDestroy ms -> contiguous ms (a_ms o) -> In (MCopy true) (a_ms o) ->
  wp (copy_ctor E i j ms)
     (fun _ w' => Inv E w' /\ Eff {[i]} w w' /\ content w' i = content w j /\
        exists a', w_any w' !! i = Some a' /\ a_alloc a' = e_socc E (a_alloc o) /\ a_ms a' = ms /\
        match content w j with
        | Some (Some (T, _)) =>
            if fits E T then a_vp a' = PData i /\ allocs w' = allocs w
            else (exists b, a_vp a' = PHeap b) /\ a_un a' = USize (ty_size (e_ty E T)) /\ allocs w' = S (allocs w)
        | _ => a_vt a' = None /\ a_vp a' = PData i /\ allocs w' = allocs w
        end)
     (fun w' => (forall T x, content w j = Some (Some (T, x)) -> fits E T && (ty_tcopy (e_ty E T) || ty_ntcopy (e_ty E T)) = false) /\
                content w j <> Some None /\ same_mem w w')
     False w.
Proof.
  intros Hwf HI Hi Ho Hd Hc Hcp. unfold copy_ctor. eapply wp_bind_ok; [by apply get_any_ok|].
  assert (Hij : i <> j) by congruence.
  set (al := e_socc E (a_alloc o)).
  destruct (new_any_inv E w i al ms HI Hi Hd) as (Hnew & I1 & F1).
  set (a1 := Any None (PData i) UEmpty al ms) in *. set (w1 := set_any w (<[i := a1]> (w_any w))) in *.
  assert (Ha1 : w_any w1 !! i = Some a1) by (cbn; by rewrite lookup_insert).
  assert (Ho1 : w_any w1 !! j = Some o) by (cbn; by rewrite lookup_insert_ne).
  eapply wp_mono with (X := fun w' => ((forall T x, content w j = Some (Some (T, x)) ->
     fits E T && (ty_tcopy (e_ty E T) || ty_ntcopy (e_ty E T)) = false) /\ content w j <> Some None) /\ same_mem w w');
    [apply ctor_spec; [done|]|intros u w' H; exact H|intros w' [[? ?] ?]; done|intros H; exact H].
  fold a1. fold w1. unfold copy_body. eapply wp_bind_ok; [by apply get_any_ok|].
  unfold has_val. destruct (a_vt o) as [v|] eqn:Hov; cbn [negb].
  2:{ apply wp_ret. rewrite (content_empty w j o Ho Hov). split; [done|]. split; [done|].
      split; [by eapply content_empty|]. exists a1. done. }
  destruct (any_value _ _ _ _ _ HI Ho Hov) as (T & x & id & He & Hobj & Hcont & Halg).
  eapply wp_bind_ok; [by eapply (any_slot_ok E w1)|]. eapply wp_bind_ok; [by apply get_any_ok|].
  apply wp_bind. cbn [a_alloc a_vp a1].
  eapply wp_mono; [by eapply (copy_fn_spec E w w1 i None al ms T (a_vp o) x id)| | |done].
  - intros p w2 (u & Hany2 & Hs2 & Hn2 & Hal2 & Hpl & Hfin).
    eapply wp_bind_ok; [apply set_vp_ok; by rewrite Hany2, lookup_insert|].
    destruct (subtable_some ms (a_ms o) v Hc) as (v' & Hv').
    unfold subtableM. change (a_ms a1) with ms. rewrite Hv'. eapply wp_bind_ok; [done|].
    eapply wp_ok; [apply set_vt_ok; cbn; by rewrite lookup_insert|].
    match goal with |- Inv _ ?x /\ _ => set (w3 := x) end.
    assert (Hany3 : w_any w3 = <[i := Any (Some v') p u al ms]> (w_any w)).
    { unfold w3. cbn. rewrite Hany2, !insert_insert. done. }
    destruct (Hfin v' w3) as (I3 & F3 & C3); try done.
    { by eapply subtable_entries. }
    { pose proof (any_home _ _ _ _ _ HI Ho Hov) as Hv. unfold vt_alive in *. by rewrite (subtable_home _ _ _ _ Hv'). }
    split; [done|]. split; [done|]. split; [by rewrite Hcont|].
    exists (Any (Some v') p u al ms). split; [by rewrite Hany3, lookup_insert|]. split; [done|]. split; [done|].
    rewrite Hcont. cbn. change (allocs w3) with (allocs w2). destruct (fits E T); [done|]. destruct Hpl. done.
  - intros w2 (Hr & Hh & Hs & Hn & u & Hany & Hu). split.
    { split; [|by rewrite Hcont]. intros T' x'. rewrite Hcont. by intros [= <- <-]. }
    do 3 (split; [done|]). exists (Any None (PData i) u al ms). done.
Qed.

Lemma move_into_new_spec E w i j o al ms :
  env_wf E -> Inv E w -> w_any w !! i = None -> w_any w !! j = Some o ->
  In MDestroy ms -> contiguous ms (a_ms o) -> has_move E (a_ms o) = true ->
  (forall b, a_vp o = PHeap b -> a_vt o <> None -> alloc_eqb E al (a_alloc o) = true) ->
  wp (ctor E i al ms (move_value_from E true i j))
     (fun _ w' => Inv E w' /\ Eff {[i; j]} w w' /\ content w' i = content w j /\ content w' j = Some None /\ Quiet w w' /\
        exists a' o', w_any w' !! i = Some a' /\ w_any w' !! j = Some o' /\ a_alloc a' = al /\ a_ms a' = ms /\
          a_alloc o' = a_alloc o /\ a_ms o' = a_ms o /\
          (forall b, a_vp o = PHeap b -> a_vt o <> None -> a_vp a' = PHeap b /\ a_un a' = a_un o) /\
          (a_vp o = PData j -> a_vp a' = PData i))
     (fun _ => False) False w.
Proof.
  intros Hwf HI Hi Ho Hd Hc Hm Hal. assert (Hij : i <> j) by congruence.
  destruct (new_any_inv E w i al ms HI Hi Hd) as (Hnew & I1 & F1).
  set (a1 := Any None (PData i) UEmpty al ms) in *. set (w1 := set_any w (<[i := a1]> (w_any w))) in *.
  assert (Ha1 : w_any w1 !! i = Some a1) by (cbn; by rewrite lookup_insert).
  assert (Ho1 : w_any w1 !! j = Some o) by (cbn; by rewrite lookup_insert_ne).
  eapply wp_mono with (X := fun w' => False /\ same_mem w w');
    [apply ctor_spec; [done|]|intros u w' H; exact H|intros w' [? ?]; done|intros H; exact H].
  fold a1. fold w1.
  eapply wp_mono; [apply (move_value_from_spec E w1 i j a1 o true); try done; by left| | |done].
  - intros [] w' ((I & F & C & C' & a' & o' & Ha' & Ho' & Hl & Hms & Hl' & Hms' & Hvo & _) & HQ & Hst & Hbuf).
    split; [done|]. split. { eapply eff_trans; [|exact F]. eapply eff_mono; [|exact F1]. set_solver. }
    assert (Hcf : content w1 j = content w j) by (apply (content_frame {[i]}); [done|set_solver]).
    split; [congruence|]. split; [done|]. split; [done|]. exists a', o'. do 6 (split; [done|]).
    split; [|by apply Hbuf]. intros b Hb Hv. by apply Hst.
  - intros w' [].
Qed.

Lemma contiguous_refl {A} (l : list A) : contiguous l l.
Proof. exists 0, [], []. by rewrite app_nil_r. Qed.

Lemma move_ctor_spec E w i j o :
  env_wf E -> Inv E w -> w_any w !! i = None -> w_any w !! j = Some o -> has_move E (a_ms o) = true ->
  wp (move_ctor E i j)
     (fun _ w' => Inv E w' /\ Eff {[i; j]} w w' /\ content w' i = content w j /\ content w' j = Some None /\ Quiet w w' /\
        exists a' o', w_any w' !! i = Some a' /\ w_any w' !! j = Some o' /\ a_alloc a' = a_alloc o /\ a_ms a' = a_ms o /\
          a_alloc o' = a_alloc o /\ a_ms o' = a_ms o /\
          (forall b, a_vp o = PHeap b -> a_vt o <> None -> a_vp a' = PHeap b /\ a_un a' = a_un o) /\
          (a_vp o = PData j -> a_vp a' = PData i))
     (fun _ => False) False w.
Proof.
  intros Hwf HI Hi Ho Hm. unfold move_ctor. eapply wp_bind_ok; [by apply get_any_ok|]. apply wp_noexcept.
  pose proof (inv_ok _ _ HI _ _ Ho) as [Hd _].
  eapply wp_mono; [apply (move_into_new_spec E w i j o (a_alloc o) (a_ms o)); try done| | |done].
  - apply contiguous_refl.
  - intros. apply alloc_eqb_refl.
  - done.
  - intros ? [].
Qed.

Lemma trans_move_ctor_spec E w i j o ms :
  env_wf E -> Inv E w -> w_any w !! i = None -> w_any w !! j = Some o ->
  In MDestroy ms -> contiguous ms (a_ms o) -> has_move_ms (a_ms o) = true ->
  (forall b, a_vp o = PHeap b -> a_vt o <> None -> alloc_eqb E (e_def_alloc E) (a_alloc o) = true) ->
  wp (trans_move_ctor E i j ms)
     (fun _ w' => Inv E w' /\ Eff {[i; j]} w w' /\ content w' i = content w j /\ content w' j = Some None /\ Quiet w w' /\
        exists a' o', w_any w' !! i = Some a' /\ w_any w' !! j = Some o' /\ a_alloc a' = e_def_alloc E /\ a_ms a' = ms /\
          a_alloc o' = a_alloc o /\ a_ms o' = a_ms o /\
          (forall b, a_vp o = PHeap b -> a_vt o <> None -> a_vp a' = PHeap b /\ a_un a' = a_un o) /\
          (a_vp o = PData j -> a_vp a' = PData i))
     (fun _ => False) False w.
Proof.
  intros Hwf HI Hi Ho Hd Hc Hm Hal. unfold trans_move_ctor. apply wp_noexcept.
  eapply wp_mono; [apply (move_into_new_spec E w i j o (e_def_alloc E) ms); try done; by apply has_move_method|done| |done]. intros ? [].
Qed.
