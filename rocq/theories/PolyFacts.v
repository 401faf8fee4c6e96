(** What observers return: any_cast, type_descriptor, ==, <=>, hash, and method calls through views. *)
From stdpp Require Import gmap list.
From Verif Require Import TypeListModel TypeListSpec TypeListProofs AnyModel AnyInv AnySteps AnyOps AnyMove AnyLife AnyAssign
  AnyRefs AnyHistory AnyFacts DescModel DescSpec DescProofs PolyModel PolySpec PolyProofs.

Lemma converts_incl s st s' : converts s st s' -> incl (sty_methods s') (sty_methods s).
Proof.
  assert (Hc : forall ms ms0 : list method, contiguous ms ms0 -> incl ms ms0).
  { intros ms ms0 (n & pre & post & -> & _) m Hm. rewrite !in_app_iff. auto. }
  intros H. destruct H; cbn; auto; apply incl_refl.
Qed.
Lemma chain_incl s l s' : chain s l s' -> incl (sty_methods s') (sty_methods s).
Proof. induction 1; [apply incl_refl|]. eapply incl_tran; [done|]. by eapply converts_incl. Qed.
Lemma chain_snoc s l s' st s'' : chain s l s' -> converts s' st s'' -> chain s (l ++ [st]) s''.
Proof. induction 1 as [s|s st' s1 l s2 Hc Hch IH]; intros Hcv; cbn; [by econstructor; [|constructor]|]. econstructor; [done|]. by apply IH. Qed.
Lemma chain_app s l s' l' s'' : chain s l s' -> chain s' l' s'' -> chain s (l ++ l') s''.
Proof. induction 1 as [s|s st' s1 l s2 Hc Hch IH]; intros Hcv; cbn; [done|]. econstructor; [done|]. by apply IH. Qed.

(** ** Reading through a view *)
Lemma stands_slot w c s T q m : stands w c s (Some (T, q)) -> In m (sty_methods s) -> cur_slot c m w = Ok T w.
Proof.
  destruct c as [p|b r], s as [k ms|b' ms]; cbn; try done.
  - intros (_ & -> & _ & v & -> & Ha & He) Hm. by apply vt_read_ok.
  - intros (_ & T' & q' & s & [= <- <-] & Hs & Hms & Hq & He) Hm. rewrite (bind_ok _ _ _ _ _ (get_sref_ok _ _ _ Hs)).
    rewrite Hms. apply vt_read_ok; [by exists s|done|done].
Qed.
Lemma stands_self w c s T q : stands w c s (Some (T, q)) -> self_of c w = Ok q w.
Proof.
  unfold self_of, cur_ptr. destruct c as [p|b r], s as [k ms|b' ms]; cbn; try done.
  - intros (_ & _ & -> & _). done.
  - intros (_ & T' & q' & s & [= <- <-] & Hs & Hms & Hq & He).
    rewrite (bind_ok _ (fun q => match q with Some q => retM q | None => ubM UbNoObject end) w (Some (sr_ptr s)) w); [by rewrite Hq|].
    by rewrite (bind_ok _ _ _ _ _ (get_sref_ok _ _ _ Hs)).
Qed.
Lemma stands_methods w c s d : stands w c s d -> cur_methods w c = sty_methods s.
Proof.
  destruct c as [p|b r], s as [k ms|b' ms]; cbn; try done; [by intros (_ & -> & _)|].
  intros (_ & T' & q' & s & _ & -> & Hms & _). done.
Qed.

(** overwriting an object changes that object only *)
Lemma write_place_ok w q o o' : obj_at w q = Some o -> exists w', write_place q (Some o') w = Ok tt w' /\
  obj_at w' q = Some o' /\ (forall p, p <> q -> obj_at w' p = obj_at w p) /\ w_sref w' = w_sref w.
Proof.
  destruct q as [i|b]; cbn.
  - destruct (w_any w !! i) as [a|] eqn:Ha; [|done]. destruct (a_un a); try done. intros _.
    eexists. rewrite (bind_get_any _ _ _ _ Ha). split; [by apply put_any_ok with a|]. cbn. rewrite lookup_insert. split; [done|].
    split; [|done]. intros [j|b] Hp; cbn; [|done]. rewrite lookup_insert_ne; [done|congruence].
  - destruct (w_heap w !! b) as [x|] eqn:Hx; [|done]. intros _. eexists.
    unfold bindM, get_block, put_block. rewrite Hx, Hx. split; [reflexivity|]. cbn. rewrite lookup_insert. split; [done|]. split; [|done].
    intros [j|b'] Hp; cbn; [done|]. rewrite lookup_insert_ne; [done|congruence].
Qed.

Lemma stands_invoke E w c s T q n y x id : stands w c s (Some (T, q)) -> In (MUser n) (sty_methods s) -> obj_at w q = Some (Obj T x id) ->
  exists w', cur_invoke E c n y w = (match snd (e_meth E T n x y) with Some r => Ok r w' | None => Exn w' end) /\
    obj_at w' q = Some (Obj T (fst (e_meth E T n x y)) id) /\ (forall p, p <> q -> obj_at w' p = obj_at w p).
Proof.
  intros Hs Hm Ho. unfold cur_invoke. rewrite (bind_ok _ _ _ _ _ (stands_slot _ _ _ _ _ _ Hs Hm)).
  rewrite (bind_ok _ _ _ _ _ (stands_self _ _ _ _ _ Hs)). rewrite (bind_ok _ _ _ _ _ (read_as_ok _ _ _ T Ho eq_refl)). cbn [o_val o_id].
  destruct (write_place_ok w q _ (Obj T (fst (e_meth E T n x y)) id) Ho) as (w' & Hw & H1 & H2 & _). exists w'.
  rewrite (bind_ok _ _ _ _ _ Hw). split; [|done]. by destruct (snd (e_meth E T n x y)).
Qed.

Lemma stands_invoke_any E w c s T q n y i a x : Inv E w -> stands w c s (Some (T, q)) -> In (MUser n) (sty_methods s) ->
  w_any w !! i = Some a -> In (MUser n) (a_ms a) -> address w i = Some q -> content w i = Some (Some (T, x)) ->
  cur_invoke E c n y w = invoke E i n y w.
Proof.
  intros HI Hs Hm Ha Hma Hq Hc. destruct (any_target_some E w i a T q HI Ha (conj Hq (ex_intro _ x Hc))) as (-> & v & x' & id & Hv & Hal & He & Ho & _).
  unfold cur_invoke, invoke, any_slot. rewrite (bind_ok _ _ _ _ _ (stands_slot _ _ _ _ _ _ Hs Hm)).
  assert (Hsl : (let! a0 := get_any i in match a_vt a0 with Some v => vt_read (a_ms a0) v (MUser n) | None => ubM UbNullVtable end) w = Ok T w).
  { rewrite (bind_get_any _ _ _ _ Ha), Hv. by apply vt_read_ok. }
  rewrite (bind_ok _ _ _ _ _ Hsl). rewrite (bind_get_any _ _ _ _ Ha). by rewrite (bind_ok _ _ _ _ _ (stands_self _ _ _ _ _ Hs)).
Qed.

(** ** Descriptors *)
Lemma desc_eqM_ok O w t u : obs_wf O -> desc_eqM (ob_desc O t) (ob_desc O u) w = Ok (bool_decide (t = u)) w.
Proof.
  intros [(name & Hn & Hi) Hm]. unfold desc_eqM. destruct (desc_eq_spec _ _ _ _ (Hn t) (Hn u) (Hm t u)) as (e & -> & _ & _ & He).
  unfold retM. f_equal. destruct e; symmetry; [apply bool_decide_true, Hi; by apply He|apply bool_decide_false; intros ->; by destruct He as [_ H]; specialize (H eq_refl)].
Qed.

Lemma desc_method_some ms : reports_type ms -> exists m, desc_method ms = Some m /\ In m ms.
Proof.
  intros H. unfold desc_method.
  destruct (contains_v meqb MSpaceship ms) eqn:H1; [exists MSpaceship; split; [done|]; by apply (contains_v_spec meqb meqb_ok)|].
  destruct (contains_v meqb MEqualTo ms) eqn:H2; [exists MEqualTo; split; [done|]; by apply (contains_v_spec meqb meqb_ok)|].
  destruct (contains_v meqb MTypeInfo ms) eqn:H3; [exists MTypeInfo; split; [done|]; by apply (contains_v_spec meqb meqb_ok)|].
  exfalso. destruct H as [H|[H|H]]; apply (contains_v_spec meqb meqb_ok) in H; congruence.
Qed.

(** an operand denotes a value, or nothing *)
Definition opd (w : world) (x : operand) (ms : list method) (d : target) : Prop :=
  match x with
  | OpAny i => exists a, w_any w !! i = Some a /\ a_ms a = ms /\ any_target w i d
  | OpCur c => exists s, sty_methods s = ms /\ stands w c s d /\ d <> None
  end.

Lemma opd_has E w x ms d : Inv E w -> opd w x ms d -> op_has_value x w = Ok (match d with Some _ => true | None => false end) w.
Proof.
  intros HI. destruct x as [i|c]; cbn.
  - intros (a & Ha & _ & Hd). rewrite (bind_get_any _ _ _ _ Ha). unfold has_val, retM. destruct d as [[T q]|].
    + destruct (any_target_some _ _ _ _ _ _ HI Ha Hd) as (_ & v & _ & _ & -> & _). done.
    + by rewrite (any_target_none _ _ _ Ha Hd E HI).
  - intros (s & _ & _ & Hd). by destruct d.
Qed.
Lemma opd_slot E w x ms T q m : Inv E w -> opd w x ms (Some (T, q)) -> In m ms -> op_slot x m w = Ok T w.
Proof.
  intros HI. destruct x as [i|c]; cbn.
  - intros (a & Ha & <- & Hd) Hm. destruct (any_target_some _ _ _ _ _ _ HI Ha Hd) as (_ & v & _ & _ & Hv & Hal & He & _).
    unfold any_slot. rewrite (bind_get_any _ _ _ _ Ha), Hv. by apply vt_read_ok.
  - intros (s & <- & Hs & _) Hm. by eapply stands_slot.
Qed.
Lemma opd_ptr E w x ms T q : Inv E w -> opd w x ms (Some (T, q)) -> op_ptr x w = Ok q w.
Proof.
  intros HI. destruct x as [i|c]; cbn.
  - intros (a & Ha & <- & Hd). destruct (any_target_some _ _ _ _ _ _ HI Ha Hd) as (-> & _). by rewrite (bind_get_any _ _ _ _ Ha).
  - intros (s & <- & Hs & _). by eapply stands_self.
Qed.
Lemma opd_methods w x ms d : opd w x ms d -> op_methods x w = Ok ms w.
Proof.
  destruct x as [i|c]; cbn.
  - intros (a & Ha & <- & _). by rewrite (bind_get_any _ _ _ _ Ha).
  - intros (s & <- & Hs & _). by rewrite (stands_methods _ _ _ _ Hs).
Qed.

Lemma opd_desc E O w x ms d : Inv E w -> opd w x ms d -> reports_type ms -> op_desc O x w = Ok (ob_desc O (option_map fst d)) w.
Proof.
  intros HI Hx Hr. unfold op_desc. rewrite (bind_ok _ _ _ _ _ (opd_has _ _ _ _ _ HI Hx)). destruct d as [[T q]|]; [|done].
  rewrite (bind_ok _ _ _ _ _ (opd_methods _ _ _ _ Hx)). destruct (desc_method_some ms Hr) as (m & -> & Hm). cbn [need].
  rewrite (bind_ok (retM m) _ w m w eq_refl). by rewrite (bind_ok _ _ _ _ _ (opd_slot _ _ _ _ _ _ _ HI Hx Hm)).
Qed.

Lemma ptr_desc_ok E O w p k ms d : Inv E w -> stands w (CView p) (VView k ms) d -> reports_type ms -> ptr_desc O p w = Ok (ob_desc O (option_map fst d)) w.
Proof.
  intros HI Hs Hr. unfold ptr_desc. pose proof Hs as (_ & Hms & Hp & _). rewrite Hp. destruct d as [[T q]|]; cbn [option_map fst snd].
  - eapply (opd_desc E O w (OpCur (CView p)) ms (Some (T, q))); [done| |done]. exists (VView k ms). done.
  - rewrite Hms. destruct (desc_method_some ms Hr) as (m & -> & _). done.
Qed.

(** ** any_cast *)
Definition cast_of (d : target) (U : nat) : option ptr :=
  match d with Some (T, q) => if decide (T = U) then Some q else None | None => None end.

Lemma cast_any_ok E O w i a U d : Inv E w -> obs_wf O -> w_any w !! i = Some a -> reports_type (a_ms a) -> any_target w i d ->
  cast_any O (Some i) U w = Ok (cast_of d U) w.
Proof.
  intros HI HO Ha Hr Hd. unfold cast_any.
  assert (Hx : opd w (OpAny i) (a_ms a) d) by by exists a.
  rewrite (bind_ok _ _ _ _ _ (opd_desc _ _ _ _ _ _ HI Hx Hr)). rewrite (bind_ok _ _ _ _ _ (desc_eqM_ok O w _ _ HO)).
  destruct d as [[T q]|]; cbn [option_map fst snd cast_of].
  - destruct (decide (T = U)) as [->|Hne].
    + rewrite bool_decide_true by done. rewrite (bind_get_any _ _ _ _ Ha). destruct (any_target_some _ _ _ _ _ _ HI Ha Hd) as (-> & _). done.
    + rewrite bool_decide_false by congruence. done.
  - rewrite bool_decide_false by done. done.
Qed.
Lemma cast_any_ref_ok E O w i a U d : Inv E w -> obs_wf O -> w_any w !! i = Some a -> reports_type (a_ms a) -> any_target w i d ->
  cast_any_ref O i U w = match cast_of d U with Some q => Ok q w | None => Exn w end.
Proof.
  intros HI HO Ha Hr Hd. unfold cast_any_ref. rewrite (bind_ok _ _ _ _ _ (cast_any_ok E O w i a U d HI HO Ha Hr Hd)).
  by destruct (cast_of d U).
Qed.
Lemma cast_ptr_ok E O w p k ms U d : Inv E w -> obs_wf O -> stands w (CView p) (VView k ms) d -> reports_type ms ->
  cast_ptr O p U w = Ok (cast_of d U) w.
Proof.
  intros HI HO Hs Hr. unfold cast_ptr. pose proof Hs as (_ & Hms & Hp & _). rewrite Hp. destruct d as [[T q]|]; cbn [option_map fst snd cast_of]; [|done].
  rewrite (bind_ok _ _ _ _ _ (ptr_desc_ok E O w p k ms _ HI Hs Hr)). rewrite (bind_ok _ _ _ _ _ (desc_eqM_ok O w _ _ HO)). cbn [option_map fst].
  destruct (decide (T = U)) as [->|Hne]; [by rewrite bool_decide_true|]. rewrite bool_decide_false by congruence. done.
Qed.
Lemma cast_ref_ok E O w p k ms U T q : Inv E w -> obs_wf O -> stands w (CView p) (VView k ms) (Some (T, q)) -> is_ptr k = false -> reports_type ms ->
  cast_ref O p U w = match cast_of (Some (T, q)) U with Some q => Ok q w | None => Exn w end.
Proof.
  intros HI HO Hs Hk Hr. unfold cast_ref.
  assert (exists k' c w', run_step O AddrOf (CView p) w = Ok c w' /\ only_new_refs [] w w' /\ stands w' c (VView k' ms) (Some (T, q))) as (k' & c & w' & H1 & Hx & Hs').
  { destruct k; try done.
    - exists KPtr. by apply (step_ok O w AddrOf _ (VView KRef ms)); [constructor| | |split; [constructor|]].
    - exists KCPtr. by apply (step_ok O w AddrOf _ (VView KCRef ms)); [constructor| | |split; [constructor|]]. }
  assert (w' = w) as ->.
  { destruct p as [k0 v p ms0]. pose proof Hs as (Hk0 & _). cbn in Hk0. subst k0. destruct k; try done; cbn in H1; unfold mk_view, view_of in H1.
    all: destruct ms0 as [|m0 [|m1 ms0]], v as [v|]; cbn in H1; try (by injection H1 as _ <-).
    all: destruct (ob_triv O m0); cbn in H1; try (by injection H1 as _ <-).
    all: unfold bindM, read_slot in H1; destruct (aliveb w v); try done; destruct (nth_error _ _); try done; by injection H1 as _ <-. }
  rewrite (bind_ok _ _ _ _ _ H1). destruct c as [p'|]; [|done].
  rewrite (bind_ok _ _ _ _ _ (cast_ptr_ok E O w p' k' ms U _ HI HO Hs' Hr)). by destruct (cast_of _ _).
Qed.
Lemma cast_state_ok E O w b r ms U T q : Inv E w -> obs_wf O -> stands w (CState b r) (VState b ms) (Some (T, q)) -> reports_type ms ->
  cast_state O b r U w = match cast_of (Some (T, q)) U with Some q => Ok q w | None => Exn w end.
Proof.
  intros HI HO Hs Hr. unfold cast_state. pose proof Hs as (_ & T' & q' & s & [= <- <-] & Hr' & Hms & Hq & He).
  assert (exists p, run_step O GetView (CState b r) w = Ok (CView p) w /\ stands w (CView p) (VView (if b then KCRef else KRef) ms) (Some (T, q))) as (p & H1 & Hs').
  { cbn [run_step]. destruct (mk_view_some O w (if b then KCRef else KRef) ms (VPtr (Some r) (sr_tab s) 0) q T) as (p & Hp & Hs'); [by exists s|done|].
    exists p. split; [|done]. destruct b; cbn [run_step]; rewrite (bind_ok _ _ _ _ _ (get_sref_ok _ _ _ Hr')); rewrite Hms, Hq; by rewrite (bind_ok _ _ _ _ _ Hp). }
  rewrite (bind_ok _ _ _ _ _ H1). eapply cast_ref_ok; [done|done|done|by destruct b|done].
Qed.

(** ** Comparison and hash *)
Definition well_placed (w : world) (d : target) : Prop :=
  match d with Some (T, q) => exists o, obj_at w q = Some o /\ o_ty o = T | None => True end.

Lemma val_at_ok w T q x id : obj_at w q = Some (Obj T x id) -> val_at T q w = Ok x w.
Proof. intros H. unfold val_at. by rewrite (bind_ok _ _ _ _ _ (read_as_ok _ _ _ T H eq_refl)). Qed.


Lemma eq_ok E O w l r ms ms' dl dr : Inv E w -> obs_wf O -> opd w l ms dl -> opd w r ms' dr -> In MEqualTo ms -> In MEqualTo ms' ->
  well_placed w dl -> well_placed w dr ->
  exists b, eq_equal_to O l r w = Ok b w /\ (b = true <-> same_value O (value_at w dl) (value_at w dr)).
Proof.
  intros HI HO Hl Hr Hml Hmr Hpl Hpr. unfold eq_equal_to. rewrite (bind_ok _ _ _ _ _ (opd_has _ _ _ _ _ HI Hl)), (bind_ok _ _ _ _ _ (opd_has _ _ _ _ _ HI Hr)).
  destruct dl as [[T p]|], dr as [[U q]|]; cbn [negb orb Bool.eqb].
  - rewrite (bind_ok _ _ _ _ _ (opd_slot _ _ _ _ _ _ _ HI Hl Hml)), (bind_ok _ _ _ _ _ (opd_slot _ _ _ _ _ _ _ HI Hr Hmr)).
    rewrite (bind_ok _ _ _ _ _ (desc_eqM_ok O w _ _ HO)). destruct Hpl as (o & Ho & <-), Hpr as (o' & Ho' & <-). cbn [value_at]. rewrite Ho, Ho'. cbn [same_value].
    destruct (decide (o_ty o = o_ty o')) as [Heq|Hne].
    + rewrite bool_decide_true by congruence. rewrite (bind_ok _ _ _ _ _ (opd_ptr _ _ _ _ _ _ HI Hl)), (bind_ok _ _ _ _ _ (opd_ptr _ _ _ _ _ _ HI Hr)).
      destruct o as [T x id], o' as [U y id']. cbn in Heq. subst U. cbn [o_ty o_val] in *.
      rewrite (bind_ok _ _ _ _ _ (val_at_ok _ _ _ _ _ Ho)), (bind_ok _ _ _ _ _ (val_at_ok _ _ _ _ _ Ho')). eexists. split; [done|]. tauto.
    + rewrite bool_decide_false by congruence. exists false. split; [done|]. split; [done|]. by intros [? _].
  - exists false. split; [done|]. cbn. destruct Hpl as (o & -> & _). done.
  - exists false. split; [done|]. cbn. destruct Hpr as (o & -> & _). done.
  - exists true. split; [done|]. done.
Qed.

Lemma cmp_ok E O w l r ms ms' dl dr : Inv E w -> obs_wf O -> opd w l ms dl -> opd w r ms' dr -> In MSpaceship ms -> In MSpaceship ms' ->
  well_placed w dl -> well_placed w dr -> (dl = None \/ dr <> None) ->
  cmp_spaceship O l r w = Ok (order_of O (value_at w dl) (value_at w dr)) w.
Proof.
  intros HI HO Hl Hr Hml Hmr Hpl Hpr Hd. unfold cmp_spaceship. rewrite (bind_ok _ _ _ _ _ (opd_has _ _ _ _ _ HI Hl)), (bind_ok _ _ _ _ _ (opd_has _ _ _ _ _ HI Hr)).
  destruct dl as [[T p]|], dr as [[U q]|]; cbn [negb].
  - rewrite (bind_ok _ _ _ _ _ (opd_slot _ _ _ _ _ _ _ HI Hl Hml)), (bind_ok _ _ _ _ _ (opd_slot _ _ _ _ _ _ _ HI Hr Hmr)).
    rewrite (bind_ok _ _ _ _ _ (desc_eqM_ok O w _ _ HO)). destruct Hpl as (o & Ho & <-), Hpr as (o' & Ho' & <-). cbn [value_at]. rewrite Ho, Ho'. cbn [order_of].
    destruct (decide (o_ty o = o_ty o')) as [Heq|Hne].
    + rewrite bool_decide_true by congruence. rewrite (bind_ok _ _ _ _ _ (opd_ptr _ _ _ _ _ _ HI Hl)), (bind_ok _ _ _ _ _ (opd_ptr _ _ _ _ _ _ HI Hr)).
      destruct o as [T x id], o' as [U y id']. cbn in Heq. subst U. cbn [o_ty o_val] in *.
      by rewrite (bind_ok _ _ _ _ _ (val_at_ok _ _ _ _ _ Ho)), (bind_ok _ _ _ _ _ (val_at_ok _ _ _ _ _ Ho')).
    + rewrite bool_decide_false by congruence. done.
  - by destruct Hd as [?|?].
  - cbn. destruct Hpr as (o & -> & _). done.
  - done.
Qed.
Lemma eq_spaceship_ok E O w l r ms ms' dl dr : Inv E w -> obs_wf O -> opd w l ms dl -> opd w r ms' dr -> In MSpaceship ms -> In MSpaceship ms' ->
  well_placed w dl -> well_placed w dr -> (dl = None \/ dr <> None) ->
  exists b, eq_spaceship O l r w = Ok b w /\ (b = true <-> cmp_spaceship O l r w = Ok (Some Eq) w).
Proof.
  intros. unfold eq_spaceship. erewrite bind_ok by by eapply cmp_ok. eexists. split; [done|]. erewrite cmp_ok by done.
  destruct (order_of _ _ _) as [[]|]; split; try done.
Qed.
(** a value on the left of an empty any *)
Lemma eq_op_equal_to O w l r ms d : opd w l ms d -> In MEqualTo ms -> ~ In MSpaceship ms -> eq_op O l r w = eq_equal_to O l r w.
Proof.
  intros Hl Hm Hn. unfold eq_op. rewrite (bind_ok _ _ _ _ _ (opd_methods _ _ _ _ Hl)).
  destruct (contains_v meqb MSpaceship ms) eqn:H1; [by apply (contains_v_spec meqb meqb_ok) in H1|].
  destruct (contains_v meqb MEqualTo ms) eqn:H2; [done|]. exfalso. apply (contains_v_spec meqb meqb_ok) in Hm. congruence.
Qed.
Lemma eq_op_spaceship O w l r ms d : opd w l ms d -> In MSpaceship ms -> eq_op O l r w = eq_spaceship O l r w.
Proof.
  intros Hl Hm. unfold eq_op. rewrite (bind_ok _ _ _ _ _ (opd_methods _ _ _ _ Hl)).
  apply (contains_v_spec meqb meqb_ok) in Hm. by rewrite Hm.
Qed.

Lemma cmp_value_empty E O w i j a b T x : Inv E w -> w_any w !! i = Some a -> w_any w !! j = Some b -> In MSpaceship (a_ms a) ->
  content w i = Some (Some (T, x)) -> content w j = Some None ->
  cmp_spaceship O (OpAny i) (OpAny j) w = UB UbNullVtable /\ eq_spaceship O (OpAny i) (OpAny j) w = UB UbNullVtable.
Proof.
  intros HI Ha Hb Hm Hc Hc'. destruct (a_vt a) as [v|] eqn:Hv; [|by rewrite (content_empty w i a Ha Hv) in Hc].
  assert (Hi : any_target w i (Some (T, a_vp a))). { split; [unfold address; by rewrite Ha, Hv|by exists x]. }
  assert (Hl : opd w (OpAny i) (a_ms a) (Some (T, a_vp a))) by by exists a.
  assert (Hr : opd w (OpAny j) (a_ms b) None) by by exists b.
  assert (H : cmp_spaceship O (OpAny i) (OpAny j) w = UB UbNullVtable).
  { unfold cmp_spaceship. rewrite (bind_ok _ _ _ _ _ (opd_has _ _ _ _ _ HI Hl)), (bind_ok _ _ _ _ _ (opd_has _ _ _ _ _ HI Hr)). cbn [negb].
    rewrite (bind_ok _ _ _ _ _ (opd_slot _ _ _ _ _ _ _ HI Hl Hm)). cbn [op_slot]. unfold any_slot, bindM at 1. rewrite (bind_get_any _ _ _ _ Hb).
    by rewrite (any_target_none _ _ _ Hb Hc' E HI). }
  split; [done|]. unfold eq_spaceship, bindM. by rewrite H.
Qed.

Lemma hash_ok E O w x ms d : Inv E w -> opd w x ms d -> In MHash ms -> well_placed w d ->
  hash_op O x w = Ok (match value_at w d with Some (T, v) => ob_hash O T v | None => 0 end) w.
Proof.
  intros HI Hx Hm Hp. unfold hash_op. rewrite (bind_ok _ _ _ _ _ (opd_has _ _ _ _ _ HI Hx)). destruct d as [[T q]|]; [|done].
  rewrite (bind_ok _ _ _ _ _ (opd_slot _ _ _ _ _ _ _ HI Hx Hm)), (bind_ok _ _ _ _ _ (opd_ptr _ _ _ _ _ _ HI Hx)).
  destruct Hp as ([T' v id] & Ho & HT). cbn in HT. subst T'. rewrite (bind_ok _ _ _ _ _ (val_at_ok _ _ _ _ _ Ho)). cbn [value_at]. by rewrite Ho.
Qed.

(** ** Pointers *)
Lemma ptr_eq_ok E O w l r kl kr ml mr dl dr : Inv E w -> obs_wf O -> stands w (CView l) (VView kl ml) dl -> stands w (CView r) (VView kr mr) dr ->
  reports_type ml -> reports_type mr -> ptr_eq O l r w = Ok (bool_decide (dl = dr)) w.
Proof.
  intros HI HO Hl Hr Hml Hmr. unfold ptr_eq. pose proof Hl as (_ & _ & Hpl & _). pose proof Hr as (_ & _ & Hpr & _). rewrite Hpl, Hpr.
  assert (Hd : (let! d := ptr_desc O l in let! d' := ptr_desc O r in desc_eqM d d') w = Ok (bool_decide (option_map fst dl = option_map fst dr)) w).
  { rewrite (bind_ok _ _ _ _ _ (ptr_desc_ok E O w l kl ml _ HI Hl Hml)), (bind_ok _ _ _ _ _ (ptr_desc_ok E O w r kr mr _ HI Hr Hmr)). by apply desc_eqM_ok. }
  destruct dl as [[T p]|], dr as [[U q]|]; cbn [option_map fst snd] in *.
  - destruct (decide (p = q)) as [->|Hne].
    + rewrite bool_decide_true by done. rewrite Hd. f_equal. apply bool_decide_ext. split; [by intros [= ->]|by intros [= ->]].
    + rewrite bool_decide_false by congruence. rewrite bool_decide_false by congruence. done.
  - rewrite !bool_decide_false by done. done.
  - rewrite !bool_decide_false by done. done.
  - rewrite bool_decide_true by done. by rewrite Hd.
Qed.
Lemma ptr_eq_mixed_ok E O w l r ml mr dl dr : Inv E w -> obs_wf O -> stands w (CView l) (VView KPtr ml) dl -> stands w (CView r) (VView KCPtr mr) dr ->
  reports_type ml -> reports_type mr -> ptr_eq_mixed O l r w = Ok (bool_decide (dl = dr)) w.
Proof.
  intros HI HO Hl Hr Hml Hmr. unfold ptr_eq_mixed. pose proof Hl as (Hk & Hms & _). destruct l as [k v p ms]. cbn in Hk, Hms. subst k ms. cbn [pv_ms].
  destruct (mk_view_ok O w KCPtr KPtr v p ml dl eq_refl Hl) as (q & Hq & Hs).
  assert (H1 : run_step O (ToCPtr ml) (CView (PV KPtr v p ml)) w = Ok (CView q) w).
  { cbn [run_step]. rewrite (bind_ok _ _ _ _ _ Hq). assert (list_same meqb ml ml = true) as -> by by apply (list_same_spec meqb meqb_ok). done. }
  rewrite (bind_ok _ _ _ _ _ H1). by eapply ptr_eq_ok.
Qed.

(** ** Targets *)
Lemma target_exists w i a E : Inv E w -> w_any w !! i = Some a -> exists d, any_target w i d /\ well_placed w d /\ value_at w d = match content w i with Some c => c | None => None end.
Proof.
  intros HI Ha. destruct (a_vt a) as [v|] eqn:Hv.
  - destruct (any_value _ _ _ _ _ HI Ha Hv) as (T & x & id & He & Ho & Hc & _). exists (Some (T, a_vp a)). split.
    + split; [unfold address; by rewrite Ha, Hv|by exists x].
    + cbn. rewrite Ho, Hc. split; [by eexists|done].
  - exists None. rewrite (content_empty w i a Ha Hv). split; [by apply content_empty with a|]. done.
Qed.
Lemma target_content w i d : any_target w i d -> content w i = Some (match d with Some (T, q) => value_at w d | None => None end) \/ exists T q, d = Some (T, q).
Proof. destruct d as [[T q]|]; [right; eauto|by left]. Qed.
Lemma begins_placed E w o s d : Inv E w -> begins w o s d -> well_placed w d.
Proof.
  intros HI H. destruct H as [i a d Ha Hd|i a d Ha Hd|ms|i a ms d Ha Hc Hd|k T p ms d Hd Hk|b r T q ms d Hd]; try done.
  1,2,3: destruct d as [[T q]|]; [|done]; destruct (any_target_some _ _ _ _ _ _ HI Ha Hd) as (-> & v & x & id & _ & _ & _ & Ho & _); cbn; rewrite Ho; by eexists.
  - destruct p as [q|]; cbn in Hd; [destruct Hd as (-> & o & Ho & HT); by exists o|by subst].
  - destruct Hd as (-> & o & Ho & HT). by exists o.
Qed.
