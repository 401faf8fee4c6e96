(** Closed forms of [resolve]: which constructor is chosen for every list of arguments. *)
From stdpp Require Import list.
From Verif Require Import TypeListModel TypeListSpec TypeListProofs ConsModel ConsSpec.

Section Cons.
  Context (E : env).
  Arguments exist_for : simpl never.
  Arguments has_copy : simpl never.
  Arguments has_move : simpl never.
  Arguments has_move_ms : simpl never.
  Arguments narrower : simpl never.
  Arguments contains_v : simpl never.
  Arguments bool_decide : simpl never.
  Arguments more_specialised : simpl never.
  Arguments viable : simpl never.

  Lemma conv_better_refl x i : conv_better x i i = false.
  Proof. unfold conv_better. rewrite eqb_reflx. cbn. destruct (ic_ref i) as [[r c]|]; [|done]. rewrite eqb_reflx, andb_false_r. cbn. now destruct c. Qed.
  Lemma some_better_refl xs : forall is, some_better xs is is = false.
  Proof. induction xs as [|x xs IH]; intros [|i is]; cbn; try done. now rewrite conv_better_refl, IH. Qed.

  Lemma omap_some {A B} (f : A -> option B) k l y : f k = Some y -> omap f (k :: l) = y :: omap f l.
  Proof. intros H. cbn. now rewrite H. Qed.
  Lemma omap_none {A B} (f : A -> option B) k l : f k = None -> omap f (k :: l) = omap f l.
  Proof. intros H. cbn. now rewrite H. Qed.

  Ltac bd := repeat match goal with |- context [bool_decide ?P] => first [rewrite (bool_decide_eq_true_2 P) by done | rewrite (bool_decide_eq_false_2 P) by done] end.
  Ltac hyps := repeat match goal with H : ?x = true |- context [?x] => rewrite H | H : ?x = false |- context [?x] => rewrite H | H : ?x = None |- context [?x] => rewrite H | H : ?x = Some _ |- context [?x] => rewrite H end.
  Ltac vs := unfold viable; cbn; bd; hyps; cbn; bd; hyps; cbn; bd; hyps; reflexivity.
  Ltac vstep := first [rewrite omap_none by vs | erewrite omap_some by vs].
  Ltac cands := unfold resolve, ctors; repeat vstep; cbn [omap list_omap].
  Ltac fin := unfold best, better; cbn; bd; cbn; try reflexivity.

  Lemma resolve_nil a : resolve E a [] = ChOne KDefault.
  Proof. cands. fin. Qed.
  Lemma resolve_obj a t c lv : base_of t = None -> is_polymorphic t = false -> ~ is_in_place t ->
    resolve E a [AExpr t c lv] = if exist_for E t (at_ms a) then ChOne KValue else ChNone.
  Proof.
    intros Hb Hp Hi. destruct (exist_for E t (at_ms a)) eqn:He; destruct t; try done; cands; fin.
  Qed.
  Lemma resolve_view a n c lv : resolve E a [AExpr (TView n) c lv] = ChNone.
  Proof. cands. fin. Qed.
  Lemma resolve_tag a t c lv : resolve E a [AExpr (TInPlace t) c lv] =
    if exist_for E t (at_ms a) then ChOne KInPlace else if exist_for E (TInPlace t) (at_ms a) then ChOne KValue else ChNone.
  Proof.
    destruct (exist_for E t (at_ms a)) eqn:He; destruct (exist_for E (TInPlace t) (at_ms a)) eqn:He';  cands; fin.
  Qed.

  Lemma eqm_spec : forall x y, eqm x y = true <-> x = y.
  Proof. intros. unfold eqm. apply bool_decide_eq_true. Qed.
  Lemma copy_in al soos ms : contains_v eqm (MCopy al soos) ms = true <-> has_copy_method al soos ms.
  Proof. apply contains_v_spec, eqm_spec. Qed.
  Lemma move_in ms : has_move_ms ms = true <-> has_move_method ms.
  Proof.
    unfold has_move_ms, has_move_method. rewrite orb_true_iff, existsb_exists.
    rewrite (contains_v_spec eqm eqm_spec). split.
    - intros [(m & Hin & Hm)|H]; [right|now left]. destruct m; try done. eauto.
    - intros [H|(al & soos & H)]; [now right|left]. exists (MCopy al soos). done.
  Qed.
  Lemma copy_has_move al soos ms : contains_v eqm (MCopy al soos) ms = true -> has_move_ms ms = true.
  Proof. rewrite copy_in, move_in. intros H. right. eauto. Qed.
  Lemma narrower_spec ms other : narrower ms other = true <-> contiguous ms other.
  Proof.
    unfold narrower. destruct (has_subsequence_spec eqm eqm_spec ms other) as [[-> H]|[-> H]]; split; auto; congruence.
  Qed.

  Lemma has_copy_move a : has_copy a = true -> has_move a = true.
  Proof. unfold has_copy, has_move. intros H. now rewrite (copy_has_move _ _ _ H). Qed.

  Definition base_is (t : ty) (b : anyty) : Prop := base_of t = Some b.
  Lemma resolve_self a t c lv : base_of t = Some a ->
    resolve E a [AExpr t c lv] = if c || lv then if has_copy a then ChOne KCopy else ChNone else if has_move a then ChOne KMove else ChNone.
  Proof.
    intros Hb.
    assert (Hcm := has_copy_move a).
    assert (Hmm : has_move_ms (at_ms a) = true -> has_move a = true) by (unfold has_move; now intros ->).
    assert (Hcc : contains_v eqm (MCopy (at_al a) (at_soos a)) (at_ms a) = has_copy a) by done.
    destruct (has_copy a) eqn:Hc; destruct (has_move a) eqn:Hm; destruct (has_move_ms (at_ms a)) eqn:Hms;
    destruct (narrower (at_ms a) (at_ms a)) eqn:Hn; try (now specialize (Hcm eq_refl)); try (now specialize (Hmm eq_refl)); clear Hcm Hmm;
    destruct t; try discriminate Hb; injection Hb as ->;  destruct c, lv; cands; fin.
  Qed.
  Lemma resolve_conv a t b c lv : base_of t = Some b -> b <> a -> at_al b = at_al a -> at_soos b = at_soos a ->
    resolve E a [AExpr t c lv] =
      if narrower (at_ms a) (at_ms b) then
        if c || lv then if contains_v eqm (MCopy (at_al a) (at_soos a)) (at_ms b) then ChOne KTransCopy else ChNone
        else if has_move_ms (at_ms b) then ChOne KTransMove else ChNone
      else ChNone.
  Proof.
    intros Hb Hab Hal Hso.
    assert (Hcm := copy_has_move (at_al a) (at_soos a) (at_ms b)).
    destruct (narrower (at_ms a) (at_ms b)) eqn:Hn; destruct (contains_v eqm (MCopy (at_al a) (at_soos a)) (at_ms b)) eqn:Hc;
    destruct (has_move_ms (at_ms b)) eqn:Hm; try (now specialize (Hcm eq_refl)); clear Hcm;
    destruct t; try discriminate Hb; injection Hb as ->;  destruct c, lv; cands; fin.
  Qed.
  Lemma resolve_other a t b c lv : base_of t = Some b -> ~ (at_al b = at_al a /\ at_soos b = at_soos a) -> resolve E a [AExpr t c lv] = ChNone.
  Proof.
    intros Hb Hab. assert (Hne : b <> a) by (intros ->; now apply Hab).
    assert (Hd : bool_decide (at_al b = at_al a) && bool_decide (at_soos b = at_soos a) = false).
    { apply andb_false_iff. rewrite !bool_decide_eq_false. destruct (decide (at_al b = at_al a)); [right; naive_solver|now left]. }
    destruct t; try discriminate Hb; injection Hb as ->;  destruct c, lv; cands; fin.
  Qed.

  (** *** two arguments or more *)
  Definition pack (xs : list arg) : option (list ics) := bind_all (AnyT 0 0 []) [] true xs.
  Lemma bind_pack a xs : bind_all a [] true xs = pack xs.
  Proof. unfold pack. induction xs as [|x xs IH]; cbn; [done|]. rewrite IH. now destruct x. Qed.
  Lemma pack_some xs : (forall x, In x xs -> ~ is_brace x) -> exists is, pack xs = Some is.
  Proof.
    unfold pack. induction xs as [|x xs IH]; cbn; [eauto|]. intros H.
    destruct IH as (is & ->); [auto|]. destruct x; [eauto|]. exfalso. eapply H; [now left|exact I].
  Qed.
  Lemma pack_none xs x : In x xs -> is_brace x -> pack xs = None.
  Proof.
    unfold pack. induction xs as [|y xs IH]; cbn; [done|]. intros [->|H] Hx; [now destruct x|].
    rewrite (IH H Hx). now destruct y.
  Qed.
  Lemma covers_tail n : forallb (fun pq => covers (fst pq) (snd pq)) (zip (expand [] n) (expand [] n)) = true.
  Proof. induction n; cbn; [done|]. exact IHn. Qed.
  Arguments expand : simpl nomatch.
  Ltac vs ::= unfold viable; cbn; rewrite ?bind_pack; bd; hyps; cbn; bd; hyps; cbn; bd; hyps; reflexivity.
  Ltac fin ::= unfold best, better; cbn; bd; cbn; rewrite ?some_better_refl; cbn; try reflexivity.
  Ltac spec := unfold more_specialised, at_least; cbn; rewrite ?covers_tail; bd; cbn; try reflexivity.

  Lemma resolve_in_place a t c lv y rest :
    resolve E a (AExpr (TInPlace t) c lv :: y :: rest) =
      match pack rest with
      | None => ChNone
      | Some _ => if exist_for E t (at_ms a) then ChOne (match y with AExpr (TIList _) _ _ | ABrace _ => KInPlaceList | _ => KInPlace end) else ChNone
      end.
  Proof.
    destruct (pack rest) as [is|] eqn:Hp; destruct (exist_for E t (at_ms a)) eqn:He;
      destruct y as [ty yc yl|ty]; try destruct ty; cands; fin; spec; fin.
  Qed.
  Lemma resolve_force a c lv y rest :
    resolve E a (AExpr TForce c lv :: y :: rest) =
      match y with
      | AExpr (TInPlace t) _ _ =>
          match rest with
          | [] => if exist_for E t (at_ms a) then ChOne KForceIn else if exist_for E (TInPlace t) (at_ms a) then ChOne KForceValue else ChNone
          | z :: rest =>
              match pack rest with
              | None => ChNone
              | Some _ => if exist_for E t (at_ms a) then ChOne (match z with AExpr (TIList _) _ _ | ABrace _ => KForceInList | _ => KForceIn end) else ChNone
              end
          end
      | AExpr t _ _ => match rest with [] => if negb (is_polymorphic t) && exist_for E t (at_ms a) then ChOne KForceValue else ChNone | _ => ChNone end
      | ABrace _ => ChNone
      end.
  Proof.
    destruct y as [ty yc yl|ty]; [|cands; fin].
    destruct (is_polymorphic ty) eqn:Hp.
    { destruct ty; try done; destruct rest as [|z rest]; cands; fin. }
    assert (Hd : (exists t, ty = TInPlace t) \/ ~ exists t, ty = TInPlace t) by (destruct ty; try (right; intros (? & ?); done); left; eauto).
    destruct Hd as [(t & ->)|Hn].
    2: { destruct (exist_for E ty (at_ms a)) eqn:He; destruct ty; try done; try (exfalso; now eauto); destruct rest as [|z rest]; cbn [negb andb]; cands; fin. }
    destruct rest as [|z rest].
    - destruct (exist_for E t (at_ms a)) eqn:He; destruct (exist_for E (TInPlace t) (at_ms a)) eqn:He'; cands; fin; spec; fin.
    - destruct (pack rest) as [is|] eqn:Hr; destruct (exist_for E t (at_ms a)) eqn:He;
      destruct z as [tz zc zl|tz]; try destruct tz; cands; fin; spec; fin.
  Qed.
  Lemma resolve_alloc a c lv y rest :
    resolve E a (AExpr TAllocArg c lv :: y :: rest) =
      match y with
      | AExpr t _ _ =>
          if bool_decide (t = TAlloc (at_al a)) then
            match rest with
            | [] => ChOne KAlloc
            | [AExpr t _ _] => if exist_for E t (at_ms a) then ChOne KAllocValue else ChNone
            | _ => ChNone
            end
          else ChNone
      | ABrace _ => ChNone
      end.
  Proof.
    destruct y as [ty yc yl|ty]; [|cands; fin].
    destruct (decide (ty = TAlloc (at_al a))) as [->|Hn].
    - bd. destruct rest as [|[t zc zl|t] [|u rest]]; try (solve [cands; fin]).
      destruct (exist_for E t (at_ms a)) eqn:He; repeat vstep; cands; fin.
    - bd. destruct rest as [|z [|u rest]]; cands; fin.
  Qed.
  Lemma resolve_many a t c lv y rest : ~ is_in_place t -> t <> TForce -> t <> TAllocArg ->
    resolve E a (AExpr t c lv :: y :: rest) = ChNone.
  Proof.
    intros Ht Hf Ha.
    assert (H : forall k, viable E a (AExpr t c lv :: y :: rest) k = None).
    { intros k. unfold viable. destruct k; cbn; try done; try (destruct t; done);
        try (bd; done); repeat (case_match; try done). }
    unfold resolve. replace (omap (viable E a (AExpr t c lv :: y :: rest)) ctors) with ([] : list (ctor * list ics)); [done|].
    induction ctors as [|k l IH]; cbn; [done|]. now rewrite H.
  Qed.
  Lemma resolve_brace a t rest : resolve E a (ABrace t :: rest) = ChNone.
  Proof. cands; fin. Qed.
End Cons.
