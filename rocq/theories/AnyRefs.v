(** Specifications of stateful references and materialize. *)
From stdpp Require Import gmap list.
From Verif Require Import TypeListModel TypeListSpec TypeListProofs AnyModel AnyInv AnySteps AnyOps AnyMove AnyLife AnyAssign.

Lemma pick_slots_ok w from v T ms : vt_alive w v -> vt_entries from v T -> (forall m, In m ms -> In m from) ->
  pick_slots from v ms w = Ok (map (fun m => (T, m)) ms) w.
Proof.
  intros Hv He. induction ms as [|m tl IH]; intros Hin; [done|]. cbn.
  rewrite (bind_ok _ _ _ _ _ (vt_read_ok w from v m T Hv He (Hin m (or_introl eq_refl)))).
  rewrite (bind_ok _ _ _ _ _ (IH (fun m' H => Hin m' (or_intror H)))). done.
Qed.

Lemma inv_add_sref E w r s : Inv E w -> w_sref w !! r = None -> Inv E (set_sref w (<[r := s]> (w_sref w))).
Proof.
  intros [H1 H2 H3 H4 H5] Hr. split; try done. intros i a Ha. specialize (H2 i a Ha).
  unfold home_ok, vt_alive in *. destruct (a_vt a) as [v|]; [|done]. destruct (vp_home v) as [k|]; [|done]. cbn.
  destruct (decide (k = r)) as [->|]; [rewrite lookup_insert; by eexists|by rewrite lookup_insert_ne].
Qed.
Lemma inv_del_sref E w r : Inv E w ->
  (forall i a v, w_any w !! i = Some a -> a_vt a = Some v -> vp_home v <> Some r) ->
  Inv E (set_sref w (delete r (w_sref w))).
Proof.
  intros [H1 H2 H3 H4 H5] Hr. split; try done. intros i a Ha. specialize (H2 i a Ha).
  unfold home_ok, vt_alive in *. destruct (a_vt a) as [v|] eqn:Hv; [|done]. specialize (Hr i a v Ha Hv).
  destruct (vp_home v) as [k|]; [|done]. cbn. by rewrite lookup_delete_ne by congruence.
Qed.

(** a stateful reference to the value of any [j] *)
Lemma new_sref_spec E w r j o ms T x :
  Inv E w -> w_any w !! j = Some o -> content w j = Some (Some (T, x)) -> w_sref w !! r = None ->
  (forall m, In m ms -> In m (a_ms o)) ->
  new_sref r j ms w = Ok tt (set_sref w (<[r := SRefObj (map (fun m => (T, m)) ms) ms (a_vp o)]> (w_sref w))).
Proof.
  intros HI Ho Hc Hr Hin. unfold new_sref. rewrite (bind_get_any _ _ _ _ Ho).
  destruct (a_vt o) as [v|] eqn:Hv; [|by rewrite (content_empty w j o Ho Hv) in Hc].
  destruct (any_value _ _ _ _ _ HI Ho Hv) as (T' & x' & id & He & Hobj & Hcont & _).
  rewrite Hc in Hcont. injection Hcont as <- <-.
  rewrite (bind_ok _ _ _ _ _ (pick_slots_ok w _ v T ms (any_home _ _ _ _ _ HI Ho Hv) He Hin)). by rewrite Hr.
Qed.

(** the reference denotes a live T with value x, and its table holds T's implementations *)
Definition ref_good (w : world) (r : pref) (T x : nat) : Prop :=
  vt_alive w (pr_vt r) /\ vt_entries (pr_ms r) (pr_vt r) T /\ exists id, obj_at w (pr_vp r) = Some (Obj T x id).

Lemma make_ref_any E w j o ms T x :
  Inv E w -> w_any w !! j = Some o -> content w j = Some (Some (T, x)) -> contiguous ms (a_ms o) ->
  exists r, make_ref (RAny j ms) w = Ok r w /\ ref_good w r T x /\ pr_ms r = ms /\ pr_vp r = a_vp o.
Proof.
  intros HI Ho Hc Hct. unfold make_ref. rewrite (bind_get_any _ _ _ _ Ho).
  destruct (a_vt o) as [v|] eqn:Hv; [|by rewrite (content_empty w j o Ho Hv) in Hc].
  destruct (any_value _ _ _ _ _ HI Ho Hv) as (T' & x' & id & He & Hobj & Hcont & _).
  rewrite Hc in Hcont. injection Hcont as <- <-.
  destruct (subtable_some ms (a_ms o) v Hct) as (v' & Hv'). exists (PRef v' (a_vp o) ms).
  split; [unfold subtableM; by rewrite Hv'|]. split; [|done]. split; [|split].
  - pose proof (any_home _ _ _ _ _ HI Ho Hv) as Hh. unfold vt_alive in *. cbn. by rewrite (subtable_home _ _ _ _ Hv').
  - by eapply subtable_entries.
  - by exists id.
Qed.

Lemma materialize_spec E w i al x r T val :
  env_wf E -> Inv E w -> e_copy_req_alloc E = false -> w_any w !! i = None -> make_ref x w = Ok r w -> ref_good w r T val ->
  In MDestroy (pr_ms r) -> In (MCopy true) (pr_ms r) -> ty_align (e_ty E T) <= max_align ->
  (ty_tdestr (e_ty E T) = true \/ fits E T && ty_ntcopy (e_ty E T) = true) ->
  wp (materialize E i al x)
     (fun _ w' => Inv E w' /\ Eff {[i]} w w' /\ content w' i = Some (Some (T, val)) /\
        exists a', w_any w' !! i = Some a' /\ a_alloc a' = al /\ a_ms a' = pr_ms r /\ a_vt a' = Some (pr_vt r))
     (fun w' => fits E T && (ty_tcopy (e_ty E T) || ty_ntcopy (e_ty E T)) = false /\ same_mem w w') False w.
Proof.
  intros Hwf HI Hst Hi Hr (Hal & He & id & Hobj) Hd Hcp Halg Hsafe. unfold materialize. rewrite Hst.
  eapply wp_bind_ok; [exact Hr|].
  destruct (new_any_inv E w i al (pr_ms r) HI Hi Hd) as (Hnew & _ & _).
  eapply wp_bind_ok; [exact Hnew|].
  eapply wp_bind_ok; [apply set_vt_ok; cbn; by rewrite lookup_insert|]. cbn.
  match goal with |- wp _ _ _ _ ?x => set (w1 := x) end.
  assert (Hany1 : w_any w1 = <[i := Any (Some (pr_vt r)) (PData i) UEmpty al (pr_ms r)]> (w_any w)).
  { unfold w1. cbn. by rewrite insert_insert. }
  assert (Ha1 : w_any w1 !! i = Some (Any (Some (pr_vt r)) (PData i) UEmpty al (pr_ms r))) by by rewrite Hany1, lookup_insert.
  apply wp_onexn. eapply wp_bind_ok; [by eapply vt_read_ok|].
  eapply wp_bind_ok; [by apply get_any_ok|]. apply wp_bind. cbn [a_alloc a_vp].
  eapply wp_mono; [by eapply (copy_fn_spec E w w1 i (Some (pr_vt r)) al (pr_ms r) T (pr_vp r) val id)| | |intros []].
  - intros p w2 (u & Hany2 & Hs2 & Hn2 & Hal2 & Hpl & Hfin).
    eapply wp_ok; [apply set_vp_ok; by rewrite Hany2, lookup_insert|].
    match goal with |- Inv _ ?x /\ _ => set (w3 := x) end.
    assert (Hany3 : w_any w3 = <[i := Any (Some (pr_vt r)) p u al (pr_ms r)]> (w_any w)).
    { unfold w3. cbn. rewrite Hany2, !insert_insert. done. }
    destruct (Hfin (pr_vt r) w3) as (I3 & F3 & C3); try done.
    do 3 (split; [done|]). eexists. split; [by rewrite Hany3, lookup_insert|]. done.
  - intros w2 (Hc & Hh & Hs & Hn & u & Hany & Hu).
    destruct Hsafe as [Htd|Hno].
    2:{ apply andb_prop in Hno as [H1 H2]. rewrite H1, H2, orb_true_r in Hc. done. }
    assert (Ha2 : w_any w2 !! i = Some (Any (Some (pr_vt r)) (PData i) u al (pr_ms r))) by by rewrite Hany, lookup_insert.
    assert (Hal2 : vt_alive w2 (pr_vt r)). { unfold vt_alive in *. destruct (vp_home _); [|done]. by rewrite Hs. }
    eapply wp_ok.
    { unfold dtor. erewrite bind_ok.
      2:{ unfold reset. apply noexcept_ok. erewrite bind_ok.
          2:{ unfold destroy_value. apply noexcept_ok. erewrite bind_get_any by exact Ha2. cbn [has_val a_vt].
              erewrite bind_ok.
              2:{ unfold any_slot. erewrite bind_get_any by exact Ha2. cbn. by eapply vt_read_ok. }
              unfold call_destroy. rewrite Htd. erewrite bind_ok by done. by apply set_vt_ok. }
          erewrite bind_get_any by (cbn; by rewrite lookup_insert). cbn.
          unfold mem_allocated. cbn. rewrite bool_decide_true by done. cbn. done. }
      eapply drop_any_ok; [cbn; by rewrite lookup_insert|]. done. }
    split; [done|]. repeat split; cbn; try done. rewrite Hany, insert_insert. by rewrite delete_insert.
Qed.
