(** Proofs about any_cast by value and by reference. *)
From stdpp Require Import gmap list.
From Verif Require Import TypeListModel TypeListSpec AnyModel AnyInv AnyHistory AnyFacts AnySteps DescModel PolyModel PolySpec PolyProofs PolyFacts PolyFacts2
  VisitModel DescSpec DescProofs CastModel CastSpec.

Lemma untouched_refl q w : untouched_but q w w.
Proof. repeat split; try done. intros p o _ H. exists (o_val o). by destruct o. Qed.
Lemma untouched_tick q w n : untouched_but q w (set_tick w n).
Proof. repeat split; try done. intros p o _ H. exists (o_val o). by destruct o. Qed.

Lemma write_obj w p o v : obj_at w p = Some o ->
  exists w', write_place p (Some (Obj (o_ty o) v (o_id o))) w = Ok tt w' /\ untouched_but (Some p) w w' /\
    obj_at w' p = Some (Obj (o_ty o) v (o_id o)).
Proof.
  intros Ho. destruct p as [i|b]; cbn in Ho |- *.
  - destruct (w_any w !! i) as [a|] eqn:Ha; [|done]. unfold bindM, get_any, put_any. rewrite Ha, Ha. eexists. split; [done|]. cbn. rewrite lookup_insert.
    split; [|done]. split; [|split; [|split; [|done]]].
    + intros j. unfold address. cbn. destruct (decide (j = i)) as [->|]; [by rewrite lookup_insert, Ha|by rewrite lookup_insert_ne].
    + intros [j|b] Hp; [|done]. cbn. rewrite lookup_insert_ne; [done|congruence].
    + intros p o' [= ->] H. cbn in H |- *. rewrite lookup_insert. rewrite Ha in H. assert (o' = o) as -> by congruence. eauto.
  - destruct (w_heap w !! b) as [x|] eqn:Hb; [|done]. unfold bindM, get_block, put_block. rewrite Hb, Hb. eexists. split; [done|]. cbn. rewrite lookup_insert.
    split; [|done]. split; [|split; [|split; [|done]]].
    + intros j. done.
    + intros [j|b'] Hp; [done|]. cbn. rewrite lookup_insert_ne; [done|congruence].
    + intros p o' [= ->] H. cbn in H |- *. rewrite lookup_insert. rewrite Hb in H. assert (o' = o) as -> by congruence. eauto.
Qed.

Section Proofs.
  Context (E : env) (O : obs) (V : movers).

  Lemma copy_out_ok T p o w : obj_at w p = Some o -> o_ty o = T ->
    cast_outcome E V ByCopy T (o_val o) p w (copy_out E T p w).
  Proof using Type.
    intros Ho HT. unfold copy_out. rewrite (bind_ok _ _ _ _ _ (read_as_ok _ _ _ T Ho HT)).
    destruct (ty_ntcopy (e_ty E T)) eqn:Hn; cbn.
    - exists w. split; [apply untouched_refl|by left].
    - exists (set_tick w (S (w_tick w))). split; [apply untouched_tick|]. unfold bindM, ask. destruct (e_throws E (w_tick w)); [by right|by left].
  Qed.

  Lemma untouched_trans_tick w n q w' : untouched_but q (set_tick w n) w' -> untouched_but q w w'.
  Proof using Type. done. Qed.

  Lemma move_out_ok T p o w : obj_at w p = Some o -> o_ty o = T ->
    cast_outcome E V ByMove T (o_val o) p w (move_out E V T p w).
  Proof using Type.
    intros Ho HT. unfold move_out. rewrite (bind_ok _ _ _ _ _ (read_as_ok _ _ _ T Ho HT)). subst T.
    assert (forall w1, (w1 = w \/ w1 = set_tick w (S (w_tick w))) ->
      forall (thr : bool), (thr = true -> ty_ntmove (e_ty E (o_ty o)) = false) ->
      cast_outcome E V ByMove (o_ty o) (o_val o) p w
        ((if thr then write_place p (Some (Obj (o_ty o) (mv_broken V (o_ty o) (o_val o)) (o_id o))) ;;; throwM
          else write_place p (Some (Obj (o_ty o) (mv_moved V (o_ty o) (o_val o)) (o_id o))) ;;; retM (NewObj (o_ty o) (o_val o))) w1)) as H.
    { intros w1 Hw1 thr Ht. assert (obj_at w1 p = Some o) as Ho1 by (by destruct Hw1 as [-> | ->]).
      destruct thr.
      - destruct (write_obj w1 p o (mv_broken V (o_ty o) (o_val o)) Ho1) as (w' & Hw & Hu & Hp). rewrite (bind_ok _ _ _ _ _ Hw).
        exists w'. split; [by destruct Hw1 as [-> | ->]|]. right. split; [done|]. by apply Ht.
      - destruct (write_obj w1 p o (mv_moved V (o_ty o) (o_val o)) Ho1) as (w' & Hw & Hu & Hp). rewrite (bind_ok _ _ _ _ _ Hw).
        exists w'. split; [by destruct Hw1 as [-> | ->]|]. left. split; [done|]. by eexists. }
    destruct (ty_ntmove (e_ty E (o_ty o))) eqn:Hn.
    - apply (H w (or_introl eq_refl) false). done.
    - unfold bindM at 1, ask. apply (H _ (or_intror eq_refl)). done.
  Qed.

  Lemma cast_any_as_ok w i a U t c rv : env_wf E -> obs_wf O -> reachable E w -> w_any w !! i = Some a -> reports_type (a_ms a) ->
    (forall x q, content w i = Some (Some (U, x)) -> address w i = Some q ->
       cast_outcome E V (how_any t c rv) U x q w (cast_any_as E O V i U t c rv w)) /\
    ((forall x, content w i <> Some (Some (U, x))) -> cast_any_as E O V i U t c rv w = Exn w).
  Proof using Type.
    intros Hwf HO Hr Ha Hm. pose proof (reachable_inv _ _ Hwf Hr) as HI.
    destruct (cast_any_fact E O w i a U Hwf HO Hr Ha Hm) as (r & Hc & Hiff & Hob & _). split.
    - intros x q Hx Hq. assert (r = Some q) as -> by (apply Hiff; eauto). unfold cast_any_as. rewrite (bind_ok _ _ _ _ _ Hc).
      destruct (Hob q eq_refl) as (o & Ho & HT).
      assert (x = o_val o) as ->.
      { unfold address in Hq. rewrite Ha in Hq. destruct (a_vt a) as [v|] eqn:Hv; [|done]. injection Hq as <-.
        destruct (any_value _ _ _ _ _ HI Ha Hv) as (T & y & id & _ & Ho' & Hx' & _). rewrite Ho' in Ho. injection Ho as <-. cbn. congruence. }
      destruct t, rv, c; cbn [how_any andb negb]; first [by apply copy_out_ok|by apply move_out_ok|done].
    - intros Hne. assert (r = None) as ->.
      { destruct r as [q|]; [|done]. destruct (proj1 (Hiff q) eq_refl) as (_ & x & Hx). by destruct (Hne x). }
      unfold cast_any_as. by rewrite (bind_ok _ _ _ _ _ Hc).
  Qed.

  Lemma cast_ref_as_ok w p k ms T q U t : Inv E w -> obs_wf O -> stands w (CView p) (VView k ms) (Some (T, q)) -> is_ptr k = false ->
    reports_type ms -> well_placed w (Some (T, q)) ->
    (T = U -> exists o, obj_at w q = Some o /\
       cast_outcome E V (how_ref t (sty_const (VView k ms))) U (o_val o) q w (cast_ref_as E O p U t w)) /\
    (T <> U -> cast_ref_as E O p U t w = Exn w).
  Proof using Type.
    intros HI HO Hs Hk Hm (o & Ho & HT). pose proof Hs as (Hpk & _). unfold cast_ref_as.
    pose proof (cast_ref_ok E O w p k ms U T q HI HO Hs Hk Hm) as Hc. cbn [cast_of] in Hc. split.
    - intros ->. exists o. split; [done|]. rewrite decide_True in Hc by done. rewrite (bind_ok _ _ _ _ _ Hc). rewrite Hpk.
      destruct k, t; try done; cbn [how_ref sty_const]; by apply copy_out_ok.
    - intros Hne. rewrite decide_False in Hc by done. by rewrite (bind_exn _ _ _ _ Hc).
  Qed.

  Lemma cast_cur_as_ok w o l s s' d U c w' t : env_wf E -> obs_wf O -> reachable E w -> begins w o s d -> chain s l s' ->
    (d = None -> null_safe l) -> fresh_names w (all_names o l) -> is_ref s' = true -> reports_type (sty_methods s') -> obtained O w o l c w' ->
    (forall q x, d = Some (U, q) -> value_at w d = Some (U, x) ->
       cast_outcome E V (how_ref t (sty_const s')) U x q w' (cast_cur_as E O c U t w')) /\
    ((forall q, d <> Some (U, q)) -> cast_cur_as E O c U t w' = Exn w').
  Proof using Type.
    intros Hwf HO Hr Hb Hch Hn Hf Hir Hm Ho. pose proof (reachable_inv _ _ Hwf Hr) as HI.
    destruct (obtained_stands _ _ _ _ _ _ _ _ _ _ HI Hb Hch Hn Hf Ho) as [Hx Hs]. pose proof (ext_inv _ _ _ _ Hx HI) as HI'.
    pose proof (begins_placed E w o s _ HI Hb) as Hwp.
    assert (exists T q, d = Some (T, q)) as (T & q & ->).
    { destruct c as [p|b n], s' as [k ms|b' ms]; try done.
      - destruct d as [[T q]|]; [eauto|]. destruct Hs as (_ & _ & _ & Hp & _). cbn in Hir. by rewrite Hp in Hir.
      - destruct Hs as (_ & T & q & _ & -> & _). eauto. }
    assert (well_placed w' (Some (T, q))) as Hwp'. { cbn in Hwp |- *. by rewrite (ext_obj _ _ _ _ Hx). }
    assert ((T = U -> exists o', obj_at w' q = Some o' /\
       cast_outcome E V (how_ref t (sty_const s')) U (o_val o') q w' (cast_cur_as E O c U t w')) /\
      (T <> U -> cast_cur_as E O c U t w' = Exn w')) as [H1 H2].
    { destruct c as [p|b n], s' as [k ms|b' ms]; try done.
      - cbn in Hir. apply (cast_ref_as_ok w' p k ms T q U t HI' HO Hs); [by destruct k|done|done].
      - pose proof Hs as (-> & T' & q' & s0 & [= <- <-] & Hr' & Hms & Hq & He). cbn [cast_cur_as]. unfold cast_state_as.
        assert (exists p, run_step O GetView (CState b' n) w' = Ok (CView p) w' /\ stands w' (CView p) (VView (if b' then KCRef else KRef) ms) (Some (T, q))) as (p & Hg & Hs').
        { cbn [run_step]. destruct (mk_view_some O w' (if b' then KCRef else KRef) ms (VPtr (Some n) (sr_tab s0) 0) q T) as (p & Hp & Hs'); [by exists s0|done|].
          exists p. split; [|done]. destruct b'; cbn [run_step]; rewrite (bind_ok _ _ _ _ _ (get_sref_ok _ _ _ Hr')); rewrite Hms, Hq; by rewrite (bind_ok _ _ _ _ _ Hp). }
        rewrite (bind_ok _ _ _ _ _ Hg).
        pose proof (cast_ref_as_ok w' p _ ms T q U t HI' HO Hs' ltac:(by destruct b') Hm Hwp') as H. destruct b'; exact H. }
    split.
    - intros q' x [= -> ->] Hv. destruct (H1 eq_refl) as (o' & Ho' & Hres). cbn in Hv. rewrite <- (ext_obj _ _ _ _ Hx), Ho' in Hv. injection Hv as <-. done.
    - intros Hne. apply H2. intros ->. by apply (Hne q).
  Qed.
End Proofs.

(** ** Other traits *)
Lemma cast_gen_obj O T q c U w : obs_wf O ->
  cast_gen O (VObj T q c) U w = Ok (c, if decide (T = U) then Some q else None) w /\
  cast_gen O (VVar (Some (T, q)) c) U w = Ok (c, if decide (T = U) then Some q else None) w.
Proof.
  intros HO. unfold cast_gen. cbn [arg_desc arg_addr arg_const]. unfold bindM at 1 4. cbn [retM].
  rewrite !(bind_ok _ _ _ _ _ (desc_eqM_ok O w _ _ HO)). destruct (decide (T = U)) as [->|Hne].
  - by rewrite bool_decide_true.
  - by rewrite bool_decide_false by congruence.
Qed.
Lemma cast_gen_valueless O c U w : cast_gen O (VVar None c) U w = Term.
Proof. done. Qed.

(** ** Static types *)
Lemma cast_type_decayed cc u v stored t :
  well_spelled cc u -> well_spelled cc v -> one_string cc u v -> agree cc u v -> distinct cc u v ->
  decays stored stored -> cast_matches cc u v stored t = Some true ->
  (forall s n, cast_pointee t <> CArray s n) -> (forall n, cast_pointee t <> CFun n) ->
  unqualified (cast_pointee t) stored.
Proof.
  intros W1 W2 A G D Hs Hm Harr Hfun. apply unqualified_iff. destruct (descriptor_identifies cc u v stored t W1 W2 A G D) as (e & He & Hiff).
  unfold cast_matches in Hm. rewrite Hm in He. injection He as <-. destruct (proj1 Hiff eq_refl) as (d & D1 & D2).
  apply decays_iff in Hs, D1, D2. assert (stored = decay t) as -> by congruence.
  unfold cast_pointee in *. unfold decay. destruct (remove_reference t) eqn:Ht; try done; exfalso; [by eapply Harr|by eapply Hfun].
Qed.
Lemma cast_type_array_decayed cc u v s n :
  well_spelled cc u -> well_spelled cc v -> one_string cc u v -> agree cc u v -> distinct cc u v ->
  cast_matches cc u v (CPtr s) (CArray s n) = Some true /\ decays (CPtr s) (CPtr s) /\ ~ unqualified (cast_pointee (CArray s n)) (CPtr s).
Proof.
  intros W1 W2 A G D. split; [|split; [by apply decays_iff|intros U; by apply unqualified_iff in U]].
  unfold cast_matches. destruct (descriptor_identifies cc u v (CPtr s) (CArray s n) W1 W2 A G D) as (e & He & H).
  rewrite He. f_equal. apply H. exists (CPtr s). split; by apply decays_iff.
Qed.
