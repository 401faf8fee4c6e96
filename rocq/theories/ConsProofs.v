(** Proofs about construction and assignment of anys. *)
From stdpp Require Import list.
From Verif Require Import TypeListModel TypeListSpec TypeListProofs ConsModel ConsSpec ConsResolve.

Section Cons.
  Context (E : env).

  Lemma can_copy_spec t : copyable E t = true <-> can_copy E t.
  Proof.
    unfold can_copy. destruct t; cbn; try (split; [intros; split; intros; done|intros [H _]; now apply H]); try (split; [done|done]).
    unfold has_copy. rewrite copy_in. split; [|naive_solver]. intros H. split; [done|]. now intros b [= <-].
  Qed.
  Lemma any_movable_spec a : has_move a = true <-> any_movable a.
  Proof. unfold has_move, any_movable. now rewrite orb_true_iff, move_in, bool_decide_eq_true. Qed.
  Lemma any_copyable_spec a : has_copy a = true <-> any_copyable a.
  Proof. apply copy_in. Qed.
  Lemma can_move_spec t : movable E t = true <-> can_move E t.
  Proof.
    unfold can_move. destruct t; cbn; try (split; [intros; split; intros; done|intros [H _]; now apply H]); try (split; [done|done]).
    rewrite any_movable_spec. split; [|naive_solver]. intros H. split; [done|]. now intros b [= <-].
  Qed.
  Lemma can_destroy_spec t : destroyable E t = true <-> can_destroy E t.
  Proof. unfold can_destroy. destruct t; cbn; naive_solver. Qed.
  Lemma offers_spec t m : exists_one E t m = true <-> offers E t m.
  Proof.
    destruct m; cbn; rewrite ?andb_true_iff, ?can_copy_spec, ?can_move_spec, ?can_destroy_spec; [done|done|tauto|done].
  Qed.
  Lemma suits_spec a t : exist_for E t (at_ms a) = true <-> suits E a t.
  Proof. unfold exist_for, suits. rewrite forallb_forall. split; intros H m Hm; apply offers_spec; auto. Qed.
  Lemma suits_false a t : exist_for E t (at_ms a) = false <-> ~ suits E a t.
  Proof. rewrite <- suits_spec. now destruct (exist_for E t (at_ms a)). Qed.
  Lemma polymorphic_spec t : is_polymorphic t = true <-> polymorphic t.
  Proof. now destruct t. Qed.
  Lemma any_of_spec t a : any_of t a <-> base_of t = Some a.
  Proof. unfold any_of. destruct t; cbn; naive_solver. Qed.

  (** ** construct in closed form *)
  Lemma pack_nil : pack [] = Some [].
  Proof. done. Qed.
  Lemma construct_nil a : construct E a [] = Done (Made Empty false FromDefault).
  Proof. unfold construct. now rewrite resolve_nil. Qed.
  Lemma construct_value a t c lv : base_of t = None -> is_polymorphic t = false -> ~ is_in_place t ->
    construct E a [AExpr t c lv] = if exist_for E t (at_ms a) then hold E t (passed AsLvalue [AExpr t c lv]) false FromDefault else Ill.
  Proof.
    intros Hb Hp Hi. unfold construct. rewrite resolve_obj by done.
    destruct (exist_for E t (at_ms a)) eqn:He; [|done].
    unfold delegated, in_place. rewrite resolve_in_place, pack_nil, He. now destruct t.
  Qed.
  Lemma construct_tag a t c lv : construct E a [AExpr (TInPlace t) c lv] =
    if exist_for E t (at_ms a) then hold E t [] false FromDefault
    else if exist_for E (TInPlace t) (at_ms a) then hold E (TInPlace t) [AExpr (TInPlace t) c lv] false FromDefault else Ill.
  Proof.
    unfold construct. rewrite resolve_tag. destruct (exist_for E t (at_ms a)) eqn:He; [done|].
    destruct (exist_for E (TInPlace t) (at_ms a)) eqn:He'; [|done].
    unfold delegated, in_place. rewrite resolve_in_place, pack_nil, He'. done.
  Qed.
  Lemma construct_in_place a t c lv y rest : construct E a (AExpr (TInPlace t) c lv :: y :: rest) =
    match pack rest with
    | None => Ill
    | Some _ => if exist_for E t (at_ms a) then hold E t (passed AsLvalue (y :: rest)) false FromDefault else Ill
    end.
  Proof.
    unfold construct. rewrite resolve_in_place. destruct (pack rest); [|done].
    destruct (exist_for E t (at_ms a)); [|done]. destruct y as [ty yc yl|ty]; [|done]. now destruct ty.
  Qed.
  Lemma construct_self a t c lv : base_of t = Some a -> construct E a [AExpr t c lv] =
    if c || lv then if has_copy a then Done (Made CopyOf false FromSelect) else Ill
    else if has_move a then Done (Made MoveOf false FromMove) else Ill.
  Proof. intros Hb. unfold construct. rewrite resolve_self by done. now destruct (c || lv), (has_copy a), (has_move a). Qed.
  Lemma construct_conv a t b c lv : base_of t = Some b -> b <> a -> at_al b = at_al a -> at_soos b = at_soos a ->
    construct E a [AExpr t c lv] =
      if narrower (at_ms a) (at_ms b) then
        if c || lv then if contains_v eqm (MCopy (at_al a) (at_soos a)) (at_ms b) then Done (Made CopyOf false FromSelect) else Ill
        else if has_move_ms (at_ms b) then Done (Made MoveOf false FromDefault) else Ill
      else Ill.
  Proof.
    intros. unfold construct. erewrite resolve_conv by done.
    destruct (narrower (at_ms a) (at_ms b)), (c || lv), (contains_v eqm (MCopy (at_al a) (at_soos a)) (at_ms b)), (has_move_ms (at_ms b)); done.
  Qed.
  Lemma construct_other a t b c lv : base_of t = Some b -> ~ (at_al b = at_al a /\ at_soos b = at_soos a) -> construct E a [AExpr t c lv] = Ill.
  Proof. intros. unfold construct. erewrite resolve_other by eassumption. done. Qed.
  Lemma construct_view a n c lv : construct E a [AExpr (TView n) c lv] = Ill.
  Proof. unfold construct. now rewrite resolve_view. Qed.
  Lemma construct_force_value a c0 lv0 t c lv : ~ is_in_place t ->
    construct E a [AExpr TForce c0 lv0; AExpr t c lv] =
      if negb (is_polymorphic t) && exist_for E t (at_ms a) then hold E t (passed AsLvalue [AExpr t c lv]) true FromDefault else Ill.
  Proof.
    intros Hi. unfold construct. rewrite resolve_force.
    assert (H : exist_for E t (at_ms a) = true -> delegated E a [AExpr TForce true true; in_place t; AExpr t c lv] = hold E t (passed AsLvalue [AExpr t c lv]) true FromDefault).
    { intros He. unfold delegated, in_place. rewrite resolve_force, pack_nil, He. now destruct t. }
    destruct t; try done; cbn [is_polymorphic negb andb]; (destruct (exist_for E _ (at_ms a)) eqn:He; [now apply H|done]).
  Qed.
  Lemma construct_force_tag a c0 lv0 t c lv : construct E a [AExpr TForce c0 lv0; AExpr (TInPlace t) c lv] =
    if exist_for E t (at_ms a) then hold E t [] true FromDefault
    else if exist_for E (TInPlace t) (at_ms a) then hold E (TInPlace t) [AExpr (TInPlace t) c lv] true FromDefault else Ill.
  Proof.
    unfold construct. rewrite resolve_force. destruct (exist_for E t (at_ms a)) eqn:He; [done|].
    destruct (exist_for E (TInPlace t) (at_ms a)) eqn:He'; [|done].
    unfold delegated, in_place. rewrite resolve_force, pack_nil, He'. done.
  Qed.
  Lemma construct_force_in a c0 lv0 t c lv y rest : construct E a (AExpr TForce c0 lv0 :: AExpr (TInPlace t) c lv :: y :: rest) =
    match pack rest with
    | None => Ill
    | Some _ => if exist_for E t (at_ms a) then hold E t (passed AsLvalue (y :: rest)) true FromDefault else Ill
    end.
  Proof.
    unfold construct. rewrite resolve_force. destruct (pack rest); [|done].
    destruct (exist_for E t (at_ms a)); [|done]. destruct y as [ty yc yl|ty]; [|done]. now destruct ty.
  Qed.
  Lemma construct_alloc a c lv ca lva : construct E a [AExpr TAllocArg c lv; AExpr (TAlloc (at_al a)) ca lva] = Done (Made Empty false FromArg).
  Proof. unfold construct. rewrite resolve_alloc. now rewrite bool_decide_eq_true_2. Qed.
  Lemma construct_alloc_value a c lv ca lva t ct lt :
    construct E a [AExpr TAllocArg c lv; AExpr (TAlloc (at_al a)) ca lva; AExpr t ct lt] =
    if exist_for E t (at_ms a) then hold E t [AExpr t ct lt] false FromArg else Ill.
  Proof. unfold construct. rewrite resolve_alloc, bool_decide_eq_true_2 by done. now destruct (exist_for E t (at_ms a)). Qed.

  (** ** never ambiguous *)
  Lemma hold_fine t xs f s : hold E t xs f s <> Ambiguous /\ hold E t xs f s <> Stuck.
  Proof. unfold hold. now case_match. Qed.
  Lemma never_ambiguous a xs : construct E a xs <> Ambiguous /\ construct E a xs <> Stuck.
  Proof.
    destruct xs as [|[t c lv|t] [|y rest]].
    - now rewrite construct_nil.
    - destruct (base_of t) as [b|] eqn:Hb.
      + destruct (decide (at_al b = at_al a /\ at_soos b = at_soos a)) as [[Hal Hso]|Hn].
        * destruct (decide (b = a)) as [->|Hba].
          -- rewrite construct_self by done. repeat case_match; done.
          -- erewrite construct_conv by done. repeat case_match; done.
        * erewrite construct_other by eassumption. done.
      + destruct t; try done.
        all: try (rewrite construct_value by (done || (intros H; exact H)); case_match; [apply hold_fine|done]).

        * rewrite construct_tag. repeat case_match; (done || apply hold_fine).
    - destruct (decide (t = TForce)) as [->|Hf]; [|destruct (decide (t = TAllocArg)) as [->|Ha]].
      + destruct y as [ty yc yl|ty]; [|unfold construct; now rewrite resolve_force].
        destruct rest as [|z rest].
        * destruct ty.
          all: try (rewrite construct_force_value by (intros H; exact H); case_match; [apply hold_fine|done]).
          rewrite construct_force_tag. repeat case_match; (done || apply hold_fine).
        * destruct ty.
          all: try (unfold construct; now rewrite resolve_force).
          rewrite construct_force_in. repeat case_match; (done || apply hold_fine).
      + destruct y as [ty yc yl|ty]; [|unfold construct; now rewrite resolve_alloc].
        destruct (decide (ty = TAlloc (at_al a))) as [->|Hn].
        * destruct rest as [|[tz cz lz|tz] [|u rest]].
          -- now rewrite construct_alloc.
          -- rewrite construct_alloc_value. case_match; [apply hold_fine|done].
          -- unfold construct. rewrite resolve_alloc, bool_decide_eq_true_2 by done. done.
          -- unfold construct. rewrite resolve_alloc, bool_decide_eq_true_2 by done. done.
          -- unfold construct. rewrite resolve_alloc, bool_decide_eq_true_2 by done. done.
        * unfold construct. rewrite resolve_alloc, bool_decide_eq_false_2 by done. done.
      + destruct t; try done; try (unfold construct; rewrite resolve_many by (done || (intros H; exact H)); done).
        rewrite construct_in_place. repeat case_match; (done || apply hold_fine).
    - unfold construct. now rewrite resolve_brace.
    - unfold construct. now rewrite resolve_brace.
  Qed.

  (** ** the meaning *)
  Lemma hold_done t xs f s m : hold E t xs f s = Done m <-> e_make E t xs = true /\ m = Made (Holds t xs) f s.
  Proof. unfold hold. destruct (e_make E t xs); naive_solver. Qed.
  Lemma stored_value a h t c lv f s m : is_polymorphic t = false ->
    (if exist_for E t (at_ms a) then hold E t (passed h [AExpr t c lv]) f s else Ill) = Done m <->
    exists k, stores E a h (WValue t c lv) k /\ m = Made k f s.
  Proof.
    intros Hp. assert (Hnp : ~ polymorphic t) by (rewrite <- polymorphic_spec, Hp; done).
    destruct (exist_for E t (at_ms a)) eqn:He.
    - rewrite hold_done. apply suits_spec in He. split.
      + intros [Hm ->]. eexists. split; [|done]. now constructor.
      + intros (k & Hk & ->). inversion Hk; subst. done.
    - apply suits_false in He. split; [done|]. intros (k & Hk & _). inversion Hk; subst. done.
  Qed.
  Lemma stored_in_place a h t c lv xs f s m :
    (if exist_for E t (at_ms a) then hold E t xs f s else Ill) = Done m <->
    exists k, stores E a h (WInPlace t c lv xs) k /\ m = Made k f s.
  Proof.
    destruct (exist_for E t (at_ms a)) eqn:He.
    - rewrite hold_done. apply suits_spec in He. split.
      + intros [Hm ->]. eexists. split; [|done]. now constructor.
      + intros (k & Hk & ->). inversion Hk; subst. done.
    - apply suits_false in He. split; [done|]. intros (k & Hk & _). inversion Hk; subst. done.
  Qed.
  Lemma stored_list a h t c lv l xs f s m :
    (if exist_for E t (at_ms a) then hold E t (passed h (l :: xs)) f s else Ill) = Done m <->
    exists k, stores E a h (WInPlaceList t c lv l xs) k /\ m = Made k f s.
  Proof.
    destruct (exist_for E t (at_ms a)) eqn:He.
    - rewrite hold_done. apply suits_spec in He. split.
      + intros [Hm ->]. eexists. split; [|done]. now constructor.
      + intros (k & Hk & ->). inversion Hk; subst. done.
    - apply suits_false in He. split; [done|]. intros (k & Hk & _). inversion Hk; subst. done.
  Qed.

  (** from an any *)
  Lemma takes_cases a t b c lv k s : base_of t = Some b ->
    takes a (WValue t c lv) k s <->
      (b = a /\ ((c || lv = false /\ any_movable a /\ k = MoveOf /\ s = FromMove) \/ (c || lv = true /\ any_copyable a /\ k = CopyOf /\ s = FromSelect))) \/
      (b <> a /\ converts a b /\
        ((c || lv = false /\ has_move_method (at_ms b) /\ k = MoveOf /\ s = FromDefault) \/
         (c || lv = true /\ has_copy_method (at_al a) (at_soos a) (at_ms b) /\ k = CopyOf /\ s = FromSelect))).
  Proof.
    intros Hb. assert (Hab : forall b', any_of t b' <-> b' = b) by (intros b'; rewrite any_of_spec, Hb; naive_solver).
    split.
    - inversion 1; subst; match goal with H : any_of _ _ |- _ => apply Hab in H; subst end; naive_solver.
    - intros [(-> & [(Hc & Hm & -> & ->)|(Hc & Hm & -> & ->)])|(Hba & Hcv & [(Hc & Hm & -> & ->)|(Hc & Hm & -> & ->)])].
      + destruct c, lv; try done. constructor; [now apply Hab|done].
      + constructor; [now apply Hab|done|done].
      + destruct c, lv; try done. econstructor; [now apply Hab|done|done|done].
      + econstructor; [now apply Hab|done|done|done|done].
  Qed.
  Lemma taken a t b c lv m : base_of t = Some b ->
    construct E a [AExpr t c lv] = Done m <-> exists k s, takes a (WValue t c lv) k s /\ m = Made k false s.
  Proof.
    intros Hb. setoid_rewrite (takes_cases a t b c lv _ _ Hb).
    pose proof (any_copyable_spec a) as Hc. pose proof (any_movable_spec a) as Hm.
    pose proof (narrower_spec (at_ms a) (at_ms b)) as Hn.
    pose proof (move_in (at_ms b)) as Hbm. pose proof (copy_in (at_al a) (at_soos a) (at_ms b)) as Hbc.
    destruct (decide (at_al b = at_al a /\ at_soos b = at_soos a)) as [[Hal Hso]|Hno]; [destruct (decide (b = a)) as [->|Hba]|].
    - rewrite construct_self by done. destruct (c || lv), (has_copy a), (has_move a); (split; [intros Hd; try discriminate Hd; injection Hd as <-; eexists _, _; (split; [|reflexivity]); left; (split; [reflexivity|]); tauto|
        intros (k & s & Hk & ->); destruct Hk as [(_ & Hk)|(Hk & _)]; [|congruence]; destruct Hk as [(? & ? & -> & ->)|(? & ? & -> & ->)]; try done; exfalso; naive_solver]).
    - erewrite construct_conv by done. unfold converts.
      destruct (narrower (at_ms a) (at_ms b)), (c || lv), (contains_v eqm (MCopy (at_al a) (at_soos a)) (at_ms b)), (has_move_ms (at_ms b)); (split; [intros Hd; try discriminate Hd; injection Hd as <-; eexists _, _; (split; [|reflexivity]); right; (split; [exact Hba|]); (split; [split; [exact Hal|split; [exact Hso|tauto]]|]); tauto|
        intros (k & s & Hk & ->); destruct Hk as [(Hk & _)|(_ & (_ & _ & Hcv) & Hk)]; [congruence|]; destruct Hk as [(? & ? & -> & ->)|(? & ? & -> & ->)]; try done; exfalso; naive_solver]).
    - erewrite construct_other by eassumption. unfold converts. naive_solver.
  Qed.

  Lemma means_plain a v m : means E a (RPlain (Some v)) m <->
    (exists k, stores E a AsLvalue v k /\ m = Made k false FromDefault) \/ (exists k s, takes a v k s /\ m = Made k false s).
  Proof. split; [inversion 1; subst; eauto|]. intros [(k & H & ->)|(k & s & H & ->)]; [now apply mn_plain|now apply mn_take]. Qed.
  Lemma means_forced a c lv v m : means E a (RForced c lv v) m <-> exists k, stores E a AsLvalue v k /\ m = Made k true FromDefault.
  Proof. split; [inversion 1; subst; eauto|]. intros (k & H & ->). now apply mn_forced. Qed.
  Lemma means_alloc a c lv ca lva v m : means E a (RWithAlloc c lv ca lva (Some v)) m <->
    (exists k, stores E a AsIs v k /\ m = Made k false FromArg) \/ (exists k s, takes a v k s /\ m = Made k false FromArg).
  Proof. split; [inversion 1; subst; eauto|]. intros [(k & H & ->)|(k & s & H & ->)]; [now apply mn_with_alloc|eapply mn_take_alloc; eauto]. Qed.
  Lemma takes_any a v k s : takes a v k s -> exists t c lv b, v = WValue t c lv /\ base_of t = Some b.
  Proof. inversion 1; subst; match goal with H : any_of _ _ |- _ => apply any_of_spec in H end; eauto 8. Qed.
  Lemma stores_value_plain a h t c lv k : stores E a h (WValue t c lv) k -> is_polymorphic t = false.
  Proof. inversion 1; subst. destruct (is_polymorphic t) eqn:Hp; [|done]. now apply polymorphic_spec in Hp. Qed.

  Lemma construct_proper_in_place a t c lv xs : (forall x, In x xs -> ~ is_brace x) -> match xs with x :: _ => ~ is_list x | [] => True end ->
    tag_safe E a (WInPlace t c lv xs) ->
    construct E a (written (WInPlace t c lv xs)) = (if exist_for E t (at_ms a) then hold E t xs false FromDefault else Ill) /\
    forall c0 lv0, construct E a (AExpr TForce c0 lv0 :: written (WInPlace t c lv xs)) = if exist_for E t (at_ms a) then hold E t xs true FromDefault else Ill.
  Proof.
    intros Hb Hl Ht. destruct xs as [|y rest]; cbn [written].
    - split; [|intros c0 lv0]; rewrite ?construct_tag, ?construct_force_tag; destruct (exist_for E t (at_ms a)) eqn:He; try done;
        destruct (exist_for E (TInPlace t) (at_ms a)) eqn:He'; try done; apply suits_false in He; apply suits_spec in He'; exfalso; cbn in Ht; tauto.
    - destruct (pack_some rest) as (is & Hp); [intros x Hx; apply Hb; now right|].
      assert (Hy : passed AsLvalue (y :: rest) = y :: rest) by (destruct y as [ty yc yl|ty]; [destruct ty|]; first [done | exfalso; now apply Hl]).
      split; [|intros c0 lv0]; rewrite ?construct_in_place, ?construct_force_in, Hp, Hy; done.
  Qed.
  Lemma construct_proper_list a t c lv l xs : (forall x, In x xs -> ~ is_brace x) ->
    construct E a (written (WInPlaceList t c lv l xs)) = (if exist_for E t (at_ms a) then hold E t (passed AsLvalue (l :: xs)) false FromDefault else Ill) /\
    forall c0 lv0, construct E a (AExpr TForce c0 lv0 :: written (WInPlaceList t c lv l xs)) = if exist_for E t (at_ms a) then hold E t (passed AsLvalue (l :: xs)) true FromDefault else Ill.
  Proof.
    intros Hb. destruct (pack_some xs Hb) as (is & Hp). cbn [written].
    split; [|intros c0 lv0]; rewrite ?construct_in_place, ?construct_force_in, Hp; done.
  Qed.

  Theorem construction a r m : proper r -> regular E a r -> construct E a (arguments a r) = Done m <-> means E a r m.
  Proof.
    intros Hpr Hr. destruct r as [[v|]|c0 lv0 v|c0 lv0 ca lva [v|]]; cbn [proper regular arguments from_option] in *.
    - rewrite means_plain. destruct v as [t c lv|t c lv xs|t c lv l xs].
      + cbn in Hr. cbn [written]. destruct (base_of t) as [b|] eqn:Hb.
        * rewrite (taken a t b c lv m Hb). split; [now right|]. intros [(k & Hk & ->)|H]; [|done].
          apply stores_value_plain in Hk. now destruct t.
        * destruct (is_polymorphic t) eqn:Hp.
          -- destruct t; try done. rewrite construct_view. split; [done|]. intros [(k & Hk & _)|(k & s & Hk & _)].
             ++ now apply stores_value_plain in Hk.
             ++ apply takes_any in Hk as (? & ? & ? & ? & [= <- _ _] & ?). done.
          -- rewrite construct_value by done. rewrite stored_value by done. split; [now left|]. intros [H|(k & s & Hk & _)]; [done|].
             apply takes_any in Hk as (? & ? & ? & ? & [= <- _ _] & ?). congruence.
      + destruct Hpr as [Hb Hl]. destruct (construct_proper_in_place a t c lv xs Hb Hl Hr) as [-> _]. rewrite (stored_in_place a AsLvalue t c lv). split; [now left|].
        intros [H|(k & s & Hk & _)]; [done|]. apply takes_any in Hk as (? & ? & ? & ? & ? & ?). done.
      + destruct Hpr as [Hl Hb]. destruct (construct_proper_list a t c lv l xs Hb) as [-> _]. rewrite (stored_list a AsLvalue t c lv). split; [now left|].
        intros [H|(k & s & Hk & _)]; [done|]. apply takes_any in Hk as (? & ? & ? & ? & ? & ?). done.
    - rewrite construct_nil. split; [intros [= <-]; constructor|]. now inversion 1.
    - rewrite means_forced. destruct v as [t c lv|t c lv xs|t c lv l xs].
      + cbn in Hr. cbn [written]. rewrite construct_force_value by done. destruct (is_polymorphic t) eqn:Hp; cbn [negb andb].
        * split; [done|]. intros (k & Hk & _). apply stores_value_plain in Hk. congruence.
        * now rewrite stored_value.
      + destruct Hpr as [Hb Hl]. destruct (construct_proper_in_place a t c lv xs Hb Hl Hr) as [_ ->]. now rewrite (stored_in_place a AsLvalue t c lv).
      + destruct Hpr as [Hl Hb]. destruct (construct_proper_list a t c lv l xs Hb) as [_ ->]. now rewrite (stored_list a AsLvalue t c lv).
    - rewrite means_alloc. destruct v as [t c lv|t c lv xs|t c lv l xs]; try done. destruct Hr as [_ Hr]. cbn [written].
      rewrite construct_alloc_value. assert (Hp : is_polymorphic t = false) by (destruct (is_polymorphic t) eqn:Hp; [now apply polymorphic_spec in Hp|done]).
      change [AExpr t c lv] with (passed AsIs [AExpr t c lv]). rewrite stored_value by done. split; [now left|].
      intros [H|(k & s & Hk & _)]; [done|]. apply takes_any in Hk as (? & ? & ? & ? & [= <- _ _] & ?). now destruct t.
    - rewrite construct_alloc. split; [intros [= <-]; constructor|]. now inversion 1.
  Qed.

  (** ** an any in an any only on request *)
  Lemma no_any_in_any a xs m t ys : construct E a xs = Done m -> md_content m = Holds t ys -> polymorphic t ->
    (exists c lv, In (AExpr (TInPlace t) c lv) xs) \/ exists c lv ca lva ct lt, xs = [AExpr TAllocArg c lv; AExpr (TAlloc (at_al a)) ca lva; AExpr t ct lt].
  Proof.
    intros Hm Hc Hp. apply polymorphic_spec in Hp.
    assert (Hold : forall t' ys' f s, hold E t' ys' f s = Done m -> t' = t).
    { intros t' ys' f s H. apply hold_done in H as [_ ->]. cbn in Hc. now injection Hc. }
    destruct xs as [|[t1 c lv|t1] [|y rest]].
    - rewrite construct_nil in Hm. injection Hm as <-. done.
    - destruct (base_of t1) as [b|] eqn:Hb.
      + apply (taken a t1 b c lv m Hb) in Hm as (k & s & Hk & ->). cbn in Hc. subst k.
        apply (takes_cases a t1 b c lv _ _ Hb) in Hk. naive_solver.
      + destruct t1; try done.
        all: try (rewrite construct_value in Hm by (done || (intros H; exact H)); case_match; [apply Hold in Hm; subst; done|done]).
        rewrite construct_tag in Hm. repeat case_match; try done; apply Hold in Hm; subst; try done. left. exists c, lv. now left.
    - destruct (decide (t1 = TForce)) as [->|Hf]; [|destruct (decide (t1 = TAllocArg)) as [->|Ha]].
      + destruct y as [ty yc yl|ty]; [|unfold construct in Hm; now rewrite resolve_force in Hm].
        destruct rest as [|z rest].
        * destruct ty.
          all: try (rewrite construct_force_value in Hm by (intros H; exact H); cbn [is_polymorphic negb andb] in Hm; first [discriminate Hm|case_match; [apply Hold in Hm; subst; done|done]]).
          rewrite construct_force_tag in Hm. repeat case_match; try done; apply Hold in Hm; subst; try done. left. exists yc, yl. right. now left.
        * destruct ty.
          all: try (unfold construct in Hm; now rewrite resolve_force in Hm).
          rewrite construct_force_in in Hm. repeat case_match; try done; apply Hold in Hm; subst; try done. left. exists yc, yl. right. now left.
      + destruct y as [ty yc yl|ty]; [|unfold construct in Hm; now rewrite resolve_alloc in Hm].
        destruct (decide (ty = TAlloc (at_al a))) as [->|Hn].
        * destruct rest as [|[tz cz lz|tz] [|u rest]].
          -- rewrite construct_alloc in Hm. injection Hm as <-. done.
          -- rewrite construct_alloc_value in Hm. case_match; [|done]. apply Hold in Hm. subst tz. right. eauto 8.
          -- unfold construct in Hm. rewrite resolve_alloc, bool_decide_eq_true_2 in Hm by done. done.
          -- unfold construct in Hm. rewrite resolve_alloc, bool_decide_eq_true_2 in Hm by done. done.
          -- unfold construct in Hm. rewrite resolve_alloc, bool_decide_eq_true_2 in Hm by done. done.
        * unfold construct in Hm. rewrite resolve_alloc, bool_decide_eq_false_2 in Hm by done. done.
      + destruct t1; try done; try (unfold construct in Hm; rewrite resolve_many in Hm by (done || (intros H; exact H)); done).
        rewrite construct_in_place in Hm. repeat case_match; try done. apply Hold in Hm. subst t1. left. exists c, lv. now left.
    - unfold construct in Hm. now rewrite resolve_brace in Hm.
    - unfold construct in Hm. now rewrite resolve_brace in Hm.
  Qed.

  (** ** nothing but requests compiles *)
  Lemma in_place_wish t c lv ys is : pack (tail ys) = Some is -> exists v, proper_wish v /\ AExpr (TInPlace t) c lv :: ys = written v.
  Proof.
    intros Hp. destruct ys as [|y rest]; [exists (WInPlace t c lv []); split; [now split|done]|]. cbn [tail] in Hp.
    assert (Hr : forall x, In x rest -> ~ is_brace x) by (intros x Hx Hb; rewrite (pack_none rest x Hx Hb) in Hp; done).
    assert (Hd : is_list y \/ ~ is_list y) by (destruct y as [[]|]; ((left; exact I) || (right; intros H; exact H))).
    destruct Hd as [Hl|Hl].
    - exists (WInPlaceList t c lv y rest). now split.
    - exists (WInPlace t c lv (y :: rest)). split; [|done]. split; [|done]. intros x [<-|Hx]; [|auto]. intros Hb. apply Hl. now destruct y.
  Qed.
  Lemma only_requests a xs m : construct E a xs = Done m -> exists r, proper r /\ xs = arguments a r.
  Proof.
    intros Hm. destruct xs as [|[t1 c lv|t1] [|y rest]].
    - exists (RPlain None). done.
    - exists (RPlain (Some (WValue t1 c lv))). done.
    - destruct (decide (t1 = TForce)) as [->|Hf]; [|destruct (decide (t1 = TAllocArg)) as [->|Ha]].
      + destruct y as [ty yc yl|ty]; [|unfold construct in Hm; now rewrite resolve_force in Hm].
        destruct rest as [|z rest]; [exists (RForced c lv (WValue ty yc yl)); done|].
        destruct ty; try (unfold construct in Hm; now rewrite resolve_force in Hm).
        rewrite construct_force_in in Hm. destruct (pack rest) as [is|] eqn:Hp; [|done].
        destruct (in_place_wish ty yc yl (z :: rest) is Hp) as (v & Hv & Hw). exists (RForced c lv v). split; [done|]. cbn [arguments]. now rewrite <- Hw.
      + destruct y as [ty yc yl|ty]; [|unfold construct in Hm; now rewrite resolve_alloc in Hm].
        destruct (decide (ty = TAlloc (at_al a))) as [->|Hn].
        * destruct rest as [|[tz cz lz|tz] [|u rest]].
          -- exists (RWithAlloc c lv yc yl None). done.
          -- exists (RWithAlloc c lv yc yl (Some (WValue tz cz lz))). done.
          -- unfold construct in Hm. rewrite resolve_alloc, bool_decide_eq_true_2 in Hm by done. done.
          -- unfold construct in Hm. rewrite resolve_alloc, bool_decide_eq_true_2 in Hm by done. done.
          -- unfold construct in Hm. rewrite resolve_alloc, bool_decide_eq_true_2 in Hm by done. done.
        * unfold construct in Hm. rewrite resolve_alloc, bool_decide_eq_false_2 in Hm by done. done.
      + destruct t1; try done; try (unfold construct in Hm; rewrite resolve_many in Hm by (done || (intros H; exact H)); done).
        rewrite construct_in_place in Hm. destruct (pack rest) as [is|] eqn:Hp; [|done].
        destruct (in_place_wish t1 c lv (y :: rest) is Hp) as (v & Hv & Hw). exists (RPlain (Some v)). split; [done|]. cbn. done.
    - unfold construct in Hm. now rewrite resolve_brace in Hm.
    - unfold construct in Hm. now rewrite resolve_brace in Hm.
  Qed.

  (** the compiler's answer about an any is the one exist_for uses *)
  Lemma traits_agree a :
    ((exists m, construct E a [AExpr (TAny a) true true] = Done m) <-> copyable E (TAny a) = true) /\
    ((exists m, construct E a [AExpr (TAny a) false false] = Done m) <-> movable E (TAny a) = true).
  Proof.
    rewrite !construct_self by done. cbn. destruct (has_copy a), (has_move a); naive_solver.
  Qed.

  (** ** assignment *)
  Arguments has_copy : simpl never.
  Arguments has_move : simpl never.
  Arguments exist_for : simpl never.
  Arguments resolve : simpl never.
  Arguments bool_decide : simpl never.
  Ltac bd := repeat match goal with |- context [bool_decide ?P] => first [rewrite (bool_decide_eq_true_2 P) by done | rewrite (bool_decide_eq_false_2 P) by congruence] end.
  Ltac hyps := repeat match goal with H : ?x = true |- context [?x] => rewrite H | H : ?x = false |- context [?x] => rewrite H | H : ?x = None |- context [?x] => rewrite H | H : ?x = Some _ |- context [?x] => rewrite H | H : resolve _ _ _ = _ |- _ => rewrite H end.
  Ltac run := unfold assign, asg_resolve, asg_viable, asg_bind, asgs; cbn; bd; hyps; cbn; bd; hyps; cbn; bd; cbn.

  Lemma assign_value a t c lv : base_of t = None -> is_polymorphic t = false -> ~ is_in_place t ->
    assign E a (AExpr t c lv) = if exist_for E t (at_ms a) then contents (hold E t (passed AsRvalue [AExpr t c lv]) false FromDefault) else AIll.
  Proof.
    intros Hb Hp Hi. pose proof (resolve_obj E a t c lv Hb Hp Hi) as Hr. pose proof (has_copy_move a) as Hcm.
    destruct (exist_for E t (at_ms a)) eqn:He; destruct (has_copy a) eqn:Hc; destruct (has_move a) eqn:Hm; try (now specialize (Hcm eq_refl));
      destruct t; try done; run; unfold emplace; hyps; reflexivity.
  Qed.
  Lemma assign_view a n c lv : assign E a (AExpr (TView n) c lv) = AIll.
  Proof. pose proof (resolve_view E a n c lv) as Hr. run. reflexivity. Qed.
  Lemma assign_self a t c lv : base_of t = Some a ->
    assign E a (AExpr t c lv) = if c || lv then if has_copy a then ADone CopyOf else AIll else if has_move a then ADone MoveOf else AIll.
  Proof.
    intros Hb. pose proof (has_copy_move a) as Hcm.
    destruct (has_copy a) eqn:Hc; destruct (has_move a) eqn:Hm; try (now specialize (Hcm eq_refl));
      destruct t; try done; injection Hb as ->; destruct c, lv; run; reflexivity.
  Qed.
  Lemma assign_conv a t b c lv : base_of t = Some b -> b <> a ->
    assign E a (AExpr t c lv) = if has_move a then contents (construct E a [AExpr t c lv]) else AIll.
  Proof.
    intros Hb Hba. pose proof (has_copy_move a) as Hcm. pose proof (never_ambiguous a [AExpr t c lv]) as [Hna _].
    assert (Hp : is_polymorphic t = true) by now destruct t.
    destruct (resolve E a [AExpr t c lv]) as [|k|] eqn:Hr; [| |exfalso; apply Hna; unfold construct; now rewrite Hr].
    - replace (construct E a [AExpr t c lv]) with Ill by (unfold construct; now rewrite Hr).
      destruct t; try done; injection Hb as ->; destruct (has_move a); run; reflexivity.
    - destruct (has_copy a) eqn:Hc; destruct (has_move a) eqn:Hm; try (now specialize (Hcm eq_refl));
      destruct t; try done; injection Hb as ->; run; reflexivity.
  Qed.
  Lemma assign_tag a t c lv : assign E a (AExpr (TInPlace t) c lv) =
    if exist_for E (TInPlace t) (at_ms a) then contents (hold E (TInPlace t) [AExpr (TInPlace t) c lv] false FromDefault)
    else if has_move a && exist_for E t (at_ms a) then contents (hold E t [] false FromDefault) else AIll.
  Proof.
    pose proof (resolve_tag E a t c lv) as Hr. pose proof (has_copy_move a) as Hcm. pose proof (construct_tag a t c lv) as Hk.
    destruct (exist_for E (TInPlace t) (at_ms a)) eqn:He'; destruct (exist_for E t (at_ms a)) eqn:He;
    destruct (has_copy a) eqn:Hc; destruct (has_move a) eqn:Hm; try (now specialize (Hcm eq_refl)); cbn [andb];
     run; unfold emplace; rewrite ?Hk; hyps; reflexivity.
  Qed.
  Lemma assign_brace a t : assign E a (ABrace t) = AIll.
  Proof. pose proof (resolve_brace E a t []) as Hr. run. reflexivity. Qed.

  Lemma contents_done o c : contents o = ADone c <-> exists m, o = Done m /\ md_content m = c.
  Proof. destruct o; cbn; naive_solver. Qed.
  Lemma contents_fine a xs : contents (construct E a xs) <> AAmbiguous /\ contents (construct E a xs) <> AStuck.
  Proof. destruct (never_ambiguous a xs). destruct (construct E a xs); done. Qed.
  Lemma hold_contents_fine t xs f s : contents (hold E t xs f s) <> AAmbiguous /\ contents (hold E t xs f s) <> AStuck.
  Proof. unfold hold. now case_match. Qed.
  Lemma assign_never_ambiguous a x : assign E a x <> AAmbiguous /\ assign E a x <> AStuck.
  Proof.
    destruct x as [t c lv|t]; [|now rewrite assign_brace].
    destruct (base_of t) as [b|] eqn:Hb.
    - destruct (decide (b = a)) as [->|Hba].
      + rewrite assign_self by done. repeat case_match; done.
      + erewrite assign_conv by done. case_match; [apply contents_fine|done].
    - destruct t; try done.
      all: try (rewrite assign_value by (done || (intros H; exact H)); case_match; [apply hold_contents_fine|done]).
      rewrite assign_tag. repeat case_match; (done || apply hold_contents_fine).
  Qed.

  Theorem assignment a t c lv k : ~ is_in_place t -> assign E a (AExpr t c lv) = ADone k <-> assigns E a t c lv k.
  Proof.
    intros Hi. destruct (base_of t) as [b|] eqn:Hb.
    - assert (Hab : forall b', any_of t b' <-> b' = b) by (intros b'; rewrite any_of_spec, Hb; naive_solver).
      assert (Hp : is_polymorphic t = true) by now destruct t.
      destruct (decide (b = a)) as [->|Hba].
      + assert (Hs : (exists s, takes a (WValue t c lv) k s) <-> assigns E a t c lv k).
        { split; [intros (s & H); eapply as_same; [now apply Hab|exact H]|]. inversion 1; subst; eauto. apply stores_value_plain in H0. congruence. }
        rewrite <- Hs. setoid_rewrite (takes_cases a t a c lv _ _ Hb). rewrite assign_self by done.
        pose proof (any_copyable_spec a). pose proof (any_movable_spec a). destruct (c || lv), (has_copy a), (has_move a); naive_solver.
      + assert (Hs : (any_movable a /\ exists s, takes a (WValue t c lv) k s) <-> assigns E a t c lv k).
        { split.
          - intros (Hm & s & H). eapply as_conv; [rewrite Hab; congruence|done|exact H].
          - inversion 1; subst; eauto.
            + apply stores_value_plain in H0. congruence.
            + apply Hab in H0. congruence. }
        rewrite <- Hs, (assign_conv a t b c lv Hb Hba). pose proof (any_movable_spec a).
        destruct (has_move a); [|naive_solver]. rewrite contents_done. setoid_rewrite (taken a t b c lv _ Hb). naive_solver.
    - assert (Hnt : forall k s, ~ takes a (WValue t c lv) k s).
      { intros k' s' H. apply takes_any in H as (? & ? & ? & ? & [= <- _ _] & ?). congruence. }
      assert (Hs : stores E a AsRvalue (WValue t c lv) k <-> assigns E a t c lv k).
      { split; [now constructor|]. inversion 1; subst; [done| |]; exfalso; eapply Hnt; eassumption. }
      rewrite <- Hs. destruct (is_polymorphic t) eqn:Hp.
      + destruct t; try done. rewrite assign_view. split; [done|]. intros H. now apply stores_value_plain in H.
      + rewrite assign_value by done. pose proof (stored_value a AsRvalue t c lv false FromDefault) as Hv.
        destruct (exist_for E t (at_ms a)).
        * rewrite contents_done. setoid_rewrite (Hv _ Hp). naive_solver.
        * split; [done|]. intros H. destruct (Hv (Made k false FromDefault) Hp) as [_ Hv2]. discriminate Hv2. eauto.
  Qed.

  Lemma assign_no_any_in_any a x t ys : assign E a x = ADone (Holds t ys) -> polymorphic t -> exists c lv, x = AExpr (TInPlace t) c lv.
  Proof.
    intros Hm Hp. apply polymorphic_spec in Hp. destruct x as [t1 c lv|t1]; [|now rewrite assign_brace in Hm].
    assert (Hold : forall t' ys' f s, contents (hold E t' ys' f s) = ADone (Holds t ys) -> t' = t).
    { intros t' ys' f s (m & H & Hc)%contents_done. apply hold_done in H as [_ ->]. cbn in Hc. now injection Hc. }
    destruct (base_of t1) as [b|] eqn:Hb.
    - assert (Hi : ~ is_in_place t1) by now destruct t1. apply (assignment a t1 c lv _ Hi) in Hm. inversion Hm; subst.
      + apply stores_value_plain in H. now destruct t1.
      + now inversion H0.
      + now inversion H1.
    - destruct t1; try done.
      all: try (rewrite assign_value in Hm by (done || (intros H; exact H)); case_match; [apply Hold in Hm; subst; done|done]).
      all: try (rewrite assign_view in Hm; done).
      rewrite assign_tag in Hm. repeat case_match; try done; apply Hold in Hm; subst; try done. eauto.
  Qed.
  Lemma emplace_spec a t xs m : emplace E a t xs = Done m <->
    suits E a t /\ e_make E t (passed AsRvalue xs) = true /\ m = Made (Holds t (passed AsRvalue xs)) false FromDefault.
  Proof.
    unfold emplace. rewrite <- suits_spec. destruct (exist_for E t (at_ms a)); [|naive_solver].
    assert (H : forall t ys, hold E t ys false FromDefault = Done m <-> true = true /\ e_make E t ys = true /\ m = Made (Holds t ys) false FromDefault).
    { intros. rewrite hold_done. naive_solver. }
    destruct xs as [|[[]|] rest]; apply H.
  Qed.
End Cons.
