(** Closed forms of [resolve_in]: which constructor is chosen for every list of arguments, in C++17 and in C++20. *)
From stdpp Require Import list.
From Verif Require Import TypeListModel TypeListSpec TypeListProofs ConsModel ConsSpec ConsResolve StdModel StdSpec.

Section Std.
  Context (W : world) (s : std).
  Arguments says_exist_for : simpl never.
  Arguments has_copy : simpl never.
  Arguments has_move : simpl never.
  Arguments has_move_ms : simpl never.
  Arguments narrower : simpl never.
  Arguments contains_v : simpl never.
  Arguments bool_decide : simpl never.
  Arguments more_specialised : simpl never.
  Arguments viable_in : simpl never.

  Ltac bd := repeat match goal with |- context [bool_decide ?P] => first [rewrite (bool_decide_eq_true_2 P) by done | rewrite (bool_decide_eq_false_2 P) by done] end.
  Ltac hyps := repeat match goal with H : ?x = true |- context [?x] => rewrite H | H : ?x = false |- context [?x] => rewrite H | H : ?x = None |- context [?x] => rewrite H | H : ?x = Some _ |- context [?x] => rewrite H end.
  Ltac vs := unfold viable_in; cbn; bd; hyps; cbn; bd; hyps; cbn; bd; hyps; reflexivity.
  Ltac vstep := first [rewrite omap_none by vs | erewrite omap_some by vs].
  Ltac cands := unfold resolve_in, ctors; repeat vstep; cbn [omap list_omap].
  Ltac fin := unfold best, better; cbn; bd; cbn; try reflexivity.

  Lemma in_nil a : resolve_in W s a [] = ChOne KDefault.
  Proof. cands. fin. Qed.
  Lemma in_obj a t c lv : base_of t = None -> is_polymorphic t = false -> ~ is_in_place t ->
    resolve_in W s a [AExpr t c lv] = if says_exist_for W s t (at_ms a) then ChOne KValue else ChNone.
  Proof.
    intros Hb Hp Hi. destruct (says_exist_for W s t (at_ms a)) eqn:He; destruct t; try done; cands; fin.
  Qed.
  Lemma in_view a n c lv : resolve_in W s a [AExpr (TView n) c lv] = ChNone.
  Proof. cands. fin. Qed.
  Lemma in_tag a t c lv : resolve_in W s a [AExpr (TInPlace t) c lv] =
    if says_exist_for W s t (at_ms a) then ChOne KInPlace else if says_exist_for W s (TInPlace t) (at_ms a) then ChOne KValue else ChNone.
  Proof.
    destruct (says_exist_for W s t (at_ms a)) eqn:He; destruct (says_exist_for W s (TInPlace t) (at_ms a)) eqn:He';  cands; fin.
  Qed.

  Lemma in_self a t c lv : base_of t = Some a ->
    resolve_in W s a [AExpr t c lv] = if c || lv then if says_copyable W s (TAny a) then ChOne KCopy else ChNone else if says_movable W s (TAny a) then ChOne KMove else ChNone.
  Proof.
    intros Hb.
    assert (Hcm := has_copy_move a).
    assert (Hmm : has_move_ms (at_ms a) = true -> has_move a = true) by (unfold has_move; now intros ->).
    assert (Hcc : contains_v eqm (MCopy (at_al a) (at_soos a)) (at_ms a) = has_copy a) by done.
    destruct (has_copy a) eqn:Hc; destruct (has_move a) eqn:Hm; destruct (has_move_ms (at_ms a)) eqn:Hms;
    destruct (narrower (at_ms a) (at_ms a)) eqn:Hn; try (now specialize (Hcm eq_refl)); try (now specialize (Hmm eq_refl)); clear Hcm Hmm;
    unfold says_copyable, says_movable, copyable, movable; hyps; destruct s; destruct t; try discriminate Hb; injection Hb as ->;  destruct c, lv; cands; fin.
  Qed.
  Lemma in_conv a t b c lv : base_of t = Some b -> b <> a -> at_al b = at_al a -> at_soos b = at_soos a ->
    resolve_in W s a [AExpr t c lv] =
      if narrower (at_ms a) (at_ms b) then
        if c || lv then if contains_v eqm (MCopy (at_al a) (at_soos a)) (at_ms b) then ChOne KTransCopy else ChNone
        else if has_move_ms (at_ms b) then ChOne KTransMove else ChNone
      else ChNone.
  Proof.
    intros Hb Hab Hal Hso.
    assert (Hcm := copy_has_move (at_al a) (at_soos a) (at_ms b)).
    destruct (narrower (at_ms a) (at_ms b)) eqn:Hn; destruct (contains_v eqm (MCopy (at_al a) (at_soos a)) (at_ms b)) eqn:Hc;
    destruct (has_move_ms (at_ms b)) eqn:Hm; try (now specialize (Hcm eq_refl)); clear Hcm;
    destruct t; try discriminate Hb; injection Hb as ->;  destruct c, lv; cands; fin.
  Qed.
  Lemma in_other a t b c lv : base_of t = Some b -> ~ (at_al b = at_al a /\ at_soos b = at_soos a) -> resolve_in W s a [AExpr t c lv] = ChNone.
  Proof.
    intros Hb Hab. assert (Hne : b <> a) by (intros ->; now apply Hab).
    assert (Hd : bool_decide (at_al b = at_al a) && bool_decide (at_soos b = at_soos a) = false).
    { apply andb_false_iff. rewrite !bool_decide_eq_false. destruct (decide (at_al b = at_al a)); [right; naive_solver|now left]. }
    destruct t; try discriminate Hb; injection Hb as ->;  destruct c, lv; cands; fin.
  Qed.

  (** *** two arguments or more *)
  Arguments expand : simpl nomatch.
  Ltac vs ::= unfold viable_in; cbn; rewrite ?bind_pack; bd; hyps; cbn; bd; hyps; cbn; bd; hyps; reflexivity.
  Ltac fin ::= unfold best, better; cbn; bd; cbn; rewrite ?some_better_refl; cbn; try reflexivity.
  Ltac spec := unfold more_specialised, at_least; cbn; rewrite ?covers_tail; bd; cbn; try reflexivity.

  Lemma in_tag_args a t c lv y rest :
    resolve_in W s a (AExpr (TInPlace t) c lv :: y :: rest) =
      match pack rest with
      | None => ChNone
      | Some _ => if says_exist_for W s t (at_ms a) then ChOne (match y with AExpr (TIList _) _ _ | ABrace _ => KInPlaceList | _ => KInPlace end) else ChNone
      end.
  Proof.
    destruct (pack rest) as [is|] eqn:Hp; destruct (says_exist_for W s t (at_ms a)) eqn:He;
      destruct y as [ty yc yl|ty]; try destruct ty; cands; fin; spec; fin.
  Qed.
  Lemma in_force a c lv y rest :
    resolve_in W s a (AExpr TForce c lv :: y :: rest) =
      match y with
      | AExpr (TInPlace t) _ _ =>
          match rest with
          | [] => if says_exist_for W s t (at_ms a) then ChOne KForceIn else if says_exist_for W s (TInPlace t) (at_ms a) then ChOne KForceValue else ChNone
          | z :: rest =>
              match pack rest with
              | None => ChNone
              | Some _ => if says_exist_for W s t (at_ms a) then ChOne (match z with AExpr (TIList _) _ _ | ABrace _ => KForceInList | _ => KForceIn end) else ChNone
              end
          end
      | AExpr t _ _ => match rest with [] => if negb (is_polymorphic t) && says_exist_for W s t (at_ms a) then ChOne KForceValue else ChNone | _ => ChNone end
      | ABrace _ => ChNone
      end.
  Proof.
    destruct y as [ty yc yl|ty]; [|cands; fin].
    destruct (is_polymorphic ty) eqn:Hp.
    { destruct ty; try done; destruct rest as [|z rest]; cands; fin. }
    assert (Hd : (exists t, ty = TInPlace t) \/ ~ exists t, ty = TInPlace t) by (destruct ty; try (right; intros (? & ?); done); left; eauto).
    destruct Hd as [(t & ->)|Hn].
    2: { destruct (says_exist_for W s ty (at_ms a)) eqn:He; destruct ty; try done; try (exfalso; now eauto); destruct rest as [|z rest]; cbn [negb andb]; cands; fin. }
    destruct rest as [|z rest].
    - destruct (says_exist_for W s t (at_ms a)) eqn:He; destruct (says_exist_for W s (TInPlace t) (at_ms a)) eqn:He'; cands; fin; spec; fin.
    - destruct (pack rest) as [is|] eqn:Hr; destruct (says_exist_for W s t (at_ms a)) eqn:He;
      destruct z as [tz zc zl|tz]; try destruct tz; cands; fin; spec; fin.
  Qed.
  Lemma in_alloc a c lv y rest :
    resolve_in W s a (AExpr TAllocArg c lv :: y :: rest) =
      match y with
      | AExpr t _ _ =>
          if bool_decide (t = TAlloc (at_al a)) then
            match rest with
            | [] => ChOne KAlloc
            | [AExpr t _ _] => if says_exist_for W s t (at_ms a) then ChOne KAllocValue else ChNone
            | _ => ChNone
            end
          else ChNone
      | ABrace _ => ChNone
      end.
  Proof.
    destruct y as [ty yc yl|ty]; [|cands; fin].
    destruct (decide (ty = TAlloc (at_al a))) as [->|Hn].
    - bd. destruct rest as [|[t zc zl|t] [|u rest]]; try (solve [cands; fin]).
      destruct (says_exist_for W s t (at_ms a)) eqn:He; repeat vstep; cands; fin.
    - bd. destruct rest as [|z [|u rest]]; cands; fin.
  Qed.
  Lemma in_many a t c lv y rest : ~ is_in_place t -> t <> TForce -> t <> TAllocArg ->
    resolve_in W s a (AExpr t c lv :: y :: rest) = ChNone.
  Proof.
    intros Ht Hf Ha.
    assert (H : forall k, viable_in W s a (AExpr t c lv :: y :: rest) k = None).
    { intros k. unfold viable_in. destruct k; cbn; try done; try (destruct t; done);
        try (bd; done); repeat (case_match; try done). }
    unfold resolve_in. replace (omap (viable_in W s a (AExpr t c lv :: y :: rest)) ctors) with ([] : list (ctor * list ics)); [done|].
    induction ctors as [|k l IH]; cbn; [done|]. now rewrite H.
  Qed.
  Lemma in_brace a t rest : resolve_in W s a (ABrace t :: rest) = ChNone.
  Proof. cands; fin. Qed.
End Std.
