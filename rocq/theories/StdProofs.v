(** Proofs about StdModel: both language standards give the same meaning to what compiles in both. *)
From stdpp Require Import list.
From Verif Require Import TypeListModel TypeListSpec TypeListProofs ConsModel ConsSpec ConsResolve ConsProofs StdModel StdSpec StdResolve.

Section Std.
  Context (W : world).
  Notation E := (w_real W).
  Context (HW : consistent W).
  Arguments exist_for : simpl never.
  Arguments says_exist_for : simpl never.
  Arguments has_copy : simpl never.
  Arguments has_move : simpl never.
  Arguments has_move_ms : simpl never.
  Arguments narrower : simpl never.
  Arguments contains_v : simpl never.
  Arguments bool_decide : simpl never.

  (** ** What is real is said *)
  Lemma says_copy s t : copyable E t = true -> says_copyable W s t = true.
  Proof. destruct s; [|done]. destruct t; cbn; try done; apply HW. Qed.
  Lemma says_move s t : movable E t = true -> says_movable W s t = true.
  Proof. destruct s; [|done]. destruct t; cbn; try done; apply HW. Qed.
  Lemma says_real s t ms : exist_for E t ms = true -> says_exist_for W s t ms = true.
  Proof.
    unfold exist_for, says_exist_for. rewrite !forallb_forall. intros H m Hm. specialize (H m Hm). destruct m; cbn in *; try done.
    - apply andb_true_iff in H as [H1 H2]. now rewrite says_move.
    - rewrite !andb_true_iff in H. destruct H as [[H1 H2] H3]. now rewrite says_copy, says_move.
  Qed.
  Lemma says_tag s t ms : says_exist_for W s (TInPlace t) ms = exist_for E (TInPlace t) ms.
  Proof. unfold exist_for, says_exist_for. induction ms as [|m ms IH]; [done|]. cbn. rewrite IH. f_equal. destruct m, s; done. Qed.
  Lemma says_list s t ms : says_exist_for W s (TIList t) ms = exist_for E (TIList t) ms.
  Proof. unfold exist_for, says_exist_for. induction ms as [|m ms IH]; [done|]. cbn. rewrite IH. f_equal. destruct m, s; done. Qed.
  Lemma hold_in_said s a t xs f src :
    (if says_exist_for W s t (at_ms a) then hold_in W a t xs f src else Ill) = if exist_for E t (at_ms a) then hold E t xs f src else Ill.
  Proof.
    unfold hold_in, vtable_compiles. destruct (exist_for E t (at_ms a)) eqn:H; [now rewrite (says_real s _ _ H)|]. now destruct (says_exist_for W s t (at_ms a)).
  Qed.
  Lemma copy_body_real a : copy_body a = has_copy a.
  Proof. done. Qed.
  Lemma move_body_real a : move_value_from_compiles a = has_move a.
  Proof. unfold move_value_from_compiles, get_move_fn_compiles, has_move. apply orb_comm. Qed.
  Lemma in_self_copy s a : (if says_copyable W s (TAny a) then if copy_body a then Done (Made CopyOf false FromSelect) else Ill else Ill) =
    if has_copy a then Done (Made CopyOf false FromSelect) else Ill.
  Proof. rewrite copy_body_real. destruct s; cbn; [done|]. now destruct (has_copy a). Qed.
  Lemma in_self_move s a : (if says_movable W s (TAny a) then if move_value_from_compiles a then Done (Made MoveOf false FromMove) else Ill else Ill) =
    if has_move a then Done (Made MoveOf false FromMove) else Ill.
  Proof. rewrite move_body_real. destruct s; cbn; [done|]. now destruct (has_move a). Qed.

  (** ** Constructors *)
  Notation same s a xs := (construct_in W s a xs = construct E a xs).
  Lemma same_nil s a : same s a [].
  Proof. unfold construct_in. now rewrite in_nil, construct_nil. Qed.
  Lemma same_value s a t c lv : base_of t = None -> is_polymorphic t = false -> ~ is_in_place t -> same s a [AExpr t c lv].
  Proof.
    intros Hb Hp Hi. rewrite construct_value by done. rewrite <- (hold_in_said s). unfold construct_in. rewrite in_obj by done.
    destruct (says_exist_for W s t (at_ms a)) eqn:He; [|done].
    unfold delegated_in, in_place. rewrite in_tag_args, pack_nil, He. now destruct t.
  Qed.
  Lemma in_place_in s a t c lv y rest : same s a (AExpr (TInPlace t) c lv :: y :: rest).
  Proof.
    rewrite construct_in_place. unfold construct_in. rewrite in_tag_args. destruct (pack rest); [|done].
    rewrite <- (hold_in_said s). destruct (says_exist_for W s t (at_ms a)); [|done]. destruct y as [ty yc yl|ty]; [|done]. now destruct ty.
  Qed.
  Lemma same_self s a t c lv : base_of t = Some a -> same s a [AExpr t c lv].
  Proof.
    intros Hb. rewrite construct_self by done. rewrite <- (in_self_copy s), <- (in_self_move s).
    unfold construct_in. rewrite in_self by done. now destruct (c || lv), (says_copyable W s (TAny a)), (says_movable W s (TAny a)).
  Qed.
  Lemma same_conv s a t b c lv : base_of t = Some b -> b <> a -> at_al b = at_al a -> at_soos b = at_soos a -> same s a [AExpr t c lv].
  Proof.
    intros. erewrite construct_conv by done. unfold construct_in. erewrite in_conv by done.
    destruct (narrower (at_ms a) (at_ms b)), (c || lv), (contains_v eqm (MCopy (at_al a) (at_soos a)) (at_ms b)), (has_move_ms (at_ms b)); done.
  Qed.
  Lemma same_force_value s a c0 lv0 t c lv : ~ is_in_place t -> same s a [AExpr TForce c0 lv0; AExpr t c lv].
  Proof.
    intros Hi. rewrite construct_force_value by done. unfold construct_in. rewrite in_force.
    assert (H : says_exist_for W s t (at_ms a) = true ->
      delegated_in W s a [AExpr TForce true true; in_place t; AExpr t c lv] = hold_in W a t (passed AsLvalue [AExpr t c lv]) true FromDefault).
    { intros He. unfold delegated_in, in_place. rewrite in_force, pack_nil, He. now destruct t. }
    destruct t; try done; cbn [is_polymorphic negb andb]; rewrite <- (hold_in_said s);
      (destruct (says_exist_for W s _ (at_ms a)) eqn:He; [now apply H|done]).
  Qed.
  Lemma same_force_in s a c0 lv0 t c lv y rest : same s a (AExpr TForce c0 lv0 :: AExpr (TInPlace t) c lv :: y :: rest).
  Proof.
    rewrite construct_force_in. unfold construct_in. rewrite in_force. destruct (pack rest); [|done].
    rewrite <- (hold_in_said s). destruct (says_exist_for W s t (at_ms a)); [|done]. destruct y as [ty yc yl|ty]; [|done]. now destruct ty.
  Qed.
  Lemma same_alloc_value s a c lv ca lva t ct lt :
    same s a [AExpr TAllocArg c lv; AExpr (TAlloc (at_al a)) ca lva; AExpr t ct lt].
  Proof.
    rewrite construct_alloc_value. rewrite <- (hold_in_said s). unfold construct_in. rewrite in_alloc, bool_decide_eq_true_2 by done.
    now destruct (says_exist_for W s t (at_ms a)).
  Qed.
  (** a tag alone: chosen in C++17 for a type of which the traits say too much *)
  Definition false_tag (s : std) (a : anyty) (t : ty) : Prop :=
    s = CPP17 /\ says_exist_for W s t (at_ms a) = true /\ exist_for E t (at_ms a) = false.
  Lemma tag_cases s a t c lv : same s a [AExpr (TInPlace t) c lv] \/ false_tag s a t /\ construct_in W s a [AExpr (TInPlace t) c lv] = Ill.
  Proof.
    rewrite construct_tag. unfold construct_in. rewrite in_tag, says_tag.
    destruct (says_exist_for W s t (at_ms a)) eqn:Hs; destruct (exist_for E t (at_ms a)) eqn:He.
    - left. cbn. unfold hold_in, vtable_compiles. now rewrite He.
    - right. split; [split; [|done]|].
      + destruct s; [done|]. change (exist_for E t (at_ms a) = true) in Hs. congruence.
      + cbn. unfold hold_in, vtable_compiles. now rewrite He.
    - apply (says_real s) in He. congruence.
    - left. destruct (exist_for E (TInPlace t) (at_ms a)) eqn:Ht; [|done].
      unfold delegated_in, in_place. rewrite in_tag_args, pack_nil, says_tag, Ht. cbn. unfold hold_in, vtable_compiles. now rewrite Ht.
  Qed.
  Lemma force_tag_cases s a c0 lv0 t c lv : same s a [AExpr TForce c0 lv0; AExpr (TInPlace t) c lv] \/
    false_tag s a t /\ construct_in W s a [AExpr TForce c0 lv0; AExpr (TInPlace t) c lv] = Ill.
  Proof.
    rewrite construct_force_tag. unfold construct_in. rewrite in_force, says_tag.
    destruct (says_exist_for W s t (at_ms a)) eqn:Hs; destruct (exist_for E t (at_ms a)) eqn:He.
    - left. cbn. unfold hold_in, vtable_compiles. now rewrite He.
    - right. split; [split; [|done]|].
      + destruct s; [done|]. change (exist_for E t (at_ms a) = true) in Hs. congruence.
      + cbn. unfold hold_in, vtable_compiles. now rewrite He.
    - apply (says_real s) in He. congruence.
    - left. destruct (exist_for E (TInPlace t) (at_ms a)) eqn:Ht; [|done].
      unfold delegated_in, in_place. rewrite in_force, pack_nil, says_tag, Ht. cbn. unfold hold_in, vtable_compiles. now rewrite Ht.
  Qed.
  Lemma cases s a xs : same s a xs \/
    exists t c lv, false_tag s a t /\ construct_in W s a xs = Ill /\ (xs = [AExpr (TInPlace t) c lv] \/ exists c0 lv0, xs = [AExpr TForce c0 lv0; AExpr (TInPlace t) c lv]).
  Proof.
    destruct xs as [|[t c lv|t] [|y rest]].
    - left. apply same_nil.
    - destruct (base_of t) as [b|] eqn:Hb.
      + left. destruct (decide (at_al b = at_al a /\ at_soos b = at_soos a)) as [[Hal Hso]|Hn].
        * destruct (decide (b = a)) as [->|Hba]; [now apply same_self|apply (same_conv s a t b c lv); assumption].
        * erewrite construct_other by eassumption. unfold construct_in. now erewrite in_other by eassumption.
      + destruct t; try done.
        all: try (left; apply same_value; (done || (intros H; exact H))).
        * left. rewrite construct_view. unfold construct_in. now rewrite in_view.
        * destruct (tag_cases s a t c lv) as [H|[H1 H2]]; [now left|]. right. exists t, c, lv. eauto.
    - destruct (decide (t = TForce)) as [->|Hf]; [|destruct (decide (t = TAllocArg)) as [->|Ha]].
      + destruct y as [ty yc yl|ty]; [|left; unfold construct_in, construct; now rewrite resolve_force, in_force].
        destruct rest as [|z rest].
        * destruct ty.
          all: try (left; apply same_force_value; intros H; exact H).
          destruct (force_tag_cases s a c lv ty yc yl) as [H|[H1 H2]]; [now left|]. right. exists ty, yc, yl. eauto 8.
        * left. destruct ty.
          all: try (unfold construct, construct_in; now rewrite resolve_force, in_force).
          apply same_force_in.
      + left. destruct y as [ty yc yl|ty]; [|unfold construct, construct_in; now rewrite resolve_alloc, in_alloc].
        destruct (decide (ty = TAlloc (at_al a))) as [->|Hn].
        * destruct rest as [|[tz cz lz|tz] [|u rest]].
          2: apply same_alloc_value.
          all: unfold construct, construct_in; rewrite resolve_alloc, in_alloc, bool_decide_eq_true_2 by done; done.
        * unfold construct, construct_in. rewrite resolve_alloc, in_alloc, bool_decide_eq_false_2 by done. done.
      + left. destruct t; try done; try (unfold construct, construct_in; rewrite resolve_many, in_many by (done || (intros H; exact H)); done).
        apply in_place_in.
    - left. unfold construct, construct_in. now rewrite resolve_brace, in_brace.
    - left. unfold construct, construct_in. now rewrite resolve_brace, in_brace.
  Qed.

  (** ** Theorems about construction *)
  Theorem cpp17_is_cpp20 a xs m : construct_in W CPP17 a xs = Done m -> construct_in W CPP20 a xs = Done m.
  Proof.
    intros H. assert (H20 : same CPP20 a xs) by (destruct (cases CPP20 a xs) as [Hc|(t & c & lv & [Hc _] & _)]; [exact Hc|discriminate Hc]).
    rewrite H20. destruct (cases CPP17 a xs) as [Hc|(t & c & lv & _ & Hc & _)]; [now rewrite <- Hc|congruence].
  Qed.
  Lemma same_20 a xs : same CPP20 a xs.
  Proof. destruct (cases CPP20 a xs) as [Hc|(t & c & lv & [Hc _] & _)]; [exact Hc|discriminate Hc]. Qed.
  Theorem cpp20_is_cpp17 a xs : no_tag xs -> construct_in W CPP20 a xs = construct_in W CPP17 a xs.
  Proof.
    intros Hn. rewrite same_20. destruct (cases CPP17 a xs) as [Hc|(t & c & lv & _ & _ & Hx)]; [now rewrite Hc|].
    exfalso. destruct Hx as [->|(c0 & lv0 & ->)]; eapply Hn; [now left|right; now left].
  Qed.
  Theorem construction_in s a r m : proper r -> regular E a r -> construct_in W s a (arguments a r) = Done m <-> means E a r m.
  Proof.
    intros Hp Hr. rewrite <- construction by done.
    destruct (cases s a (arguments a r)) as [Hc|(t & c & lv & (-> & Hs & He) & Hc & Hx)]; [now rewrite Hc|]. rewrite Hc. split; [done|].
    assert (Hns : ~ suits E a t) by now apply suits_false.
    assert (Hnt : forall v, tag_safe E a v -> written v = [AExpr (TInPlace t) c lv] -> exist_for E (TInPlace t) (at_ms a) = false).
    { intros v Hv Hw. destruct v as [t' c' lv'|t' c' lv' ys|t' c' lv' l ys]; [| |discriminate Hw].
      - cbn in Hw. injection Hw as -> -> ->. cbn in Hv. exfalso. now apply Hv.
      - cbn in Hw. injection Hw as -> -> -> ->. cbn in Hv. apply suits_false. naive_solver. }
    intros Hd. exfalso. destruct Hx as [Hx|(c0 & lv0 & Hx)]; rewrite Hx in Hd.
    - rewrite construct_tag, He in Hd. destruct r as [[v|]|? ? v|? ? ? ? v]; try discriminate Hx.
      rewrite (Hnt v Hr Hx) in Hd. discriminate Hd.
    - rewrite construct_force_tag, He in Hd. destruct r as [[v|]|? ? v|? ? ? ? v]; try discriminate Hx.
      + destruct v as [t' c' lv'|t' c' lv' [|y ys]|t' c' lv' l ys]; discriminate Hx.
      + cbn in Hx. injection Hx as -> -> Hx. rewrite (Hnt v Hr Hx) in Hd. discriminate Hd.
  Qed.
  Theorem in_never_ambiguous s a xs : construct_in W s a xs <> Ambiguous /\ construct_in W s a xs <> Stuck.
  Proof. destruct (cases s a xs) as [Hc|(t & c & lv & _ & Hc & _)]; rewrite Hc; [apply never_ambiguous|done]. Qed.

  (** ** Assignment *)
  Arguments says_copyable : simpl never.
  Arguments says_movable : simpl never.
  Arguments resolve_in : simpl never.
  Ltac bd := repeat match goal with |- context [bool_decide ?P] => first [rewrite (bool_decide_eq_true_2 P) by done | rewrite (bool_decide_eq_false_2 P) by congruence] end.
  Ltac hyps := repeat match goal with H : ?x = true |- context [?x] => rewrite H | H : ?x = false |- context [?x] => rewrite H | H : ?x = None |- context [?x] => rewrite H | H : ?x = Some _ |- context [?x] => rewrite H | H : resolve_in _ _ _ _ = _ |- _ => rewrite H end.
  Ltac run := unfold assign_in, asg_resolve_in, asg_viable_in, asg_bind_in, asgs; cbn; bd; hyps; cbn; bd; hyps; cbn; bd; cbn.

  (** the constraint of the assignments *)
  Lemma asg_copy s a x : asg_constraint_in W s a OCopy x = says_copyable W s (TAny a).
  Proof. now destruct s. Qed.
  Lemma asg_move s a x : asg_constraint_in W s a OMove x = says_movable W s (TAny a).
  Proof. now destruct s. Qed.
  Lemma said_copy_move s a : says_copyable W s (TAny a) = true -> says_movable W s (TAny a) = true.
  Proof. destruct s; [done|]. apply has_copy_move. Qed.
  Arguments asg_constraint_in : simpl never.
  Lemma in_assign_value s a t c lv : base_of t = None -> is_polymorphic t = false -> ~ is_in_place t ->
    assign_in W s a (AExpr t c lv) = assign E a (AExpr t c lv).
  Proof.
    intros Hb Hp Hi. rewrite assign_value by done.
    transitivity (contents (if says_exist_for W s t (at_ms a) then hold_in W a t (passed AsRvalue [AExpr t c lv]) false FromDefault else Ill));
      [|rewrite hold_in_said; now destruct (exist_for E t (at_ms a))].
    pose proof (in_obj W s a t c lv Hb Hp Hi) as Hr. pose proof (asg_copy s a (AExpr t c lv)) as Hc. pose proof (asg_move s a (AExpr t c lv)) as Hm.
    assert (Hv : asg_constraint_in W s a OValue (AExpr t c lv) = says_exist_for W s t (at_ms a)) by (unfold asg_constraint_in; now rewrite Hp).
    pose proof (said_copy_move s a) as Hcm.
    destruct (says_exist_for W s t (at_ms a)) eqn:He; destruct (says_copyable W s (TAny a)) eqn:Hc'; destruct (says_movable W s (TAny a)) eqn:Hm';
      try (now specialize (Hcm eq_refl)); destruct t; try done; run; unfold emplace_in; hyps; reflexivity.
  Qed.
  Lemma in_assign_view s a n c lv : assign_in W s a (AExpr (TView n) c lv) = AIll.
  Proof. pose proof (in_view W s a n c lv) as Hr. run. reflexivity. Qed.
  Lemma in_assign_self s a t c lv : base_of t = Some a ->
    assign_in W s a (AExpr t c lv) =
      if c || lv then if says_copyable W s (TAny a) then if copy_assign_body W a then ADone CopyOf else AIll else AIll
      else if says_movable W s (TAny a) then if move_assign_body W a then ADone MoveOf else AIll else AIll.
  Proof.
    intros Hb. pose proof (asg_copy s a (AExpr t c lv)) as Hc. pose proof (asg_move s a (AExpr t c lv)) as Hm.
    assert (Hv : asg_constraint_in W s a OValue (AExpr t c lv) = false) by (unfold asg_constraint_in; now destruct t).
    pose proof (said_copy_move s a) as Hcm.
    destruct (says_copyable W s (TAny a)) eqn:Hc'; destruct (says_movable W s (TAny a)) eqn:Hm'; try (now specialize (Hcm eq_refl));
      destruct t; try done; injection Hb as ->; destruct c, lv; run; reflexivity.
  Qed.
  Lemma in_assign_conv s a t b c lv : base_of t = Some b -> b <> a ->
    assign_in W s a (AExpr t c lv) =
      if says_movable W s (TAny a) then
        match resolve_in W s a [AExpr t c lv] with
        | ChNone => AIll
        | _ => if move_assign_body W a then contents (construct_in W s a [AExpr t c lv]) else AIll
        end
      else AIll.
  Proof.
    intros Hb Hba. pose proof (asg_copy s a (AExpr t c lv)) as Hc. pose proof (asg_move s a (AExpr t c lv)) as Hm.
    assert (Hv : asg_constraint_in W s a OValue (AExpr t c lv) = false) by (unfold asg_constraint_in; now destruct t).
    pose proof (said_copy_move s a) as Hcm.
    destruct (resolve_in W s a [AExpr t c lv]) as [|k|] eqn:Hr;
    destruct (says_copyable W s (TAny a)) eqn:Hc'; destruct (says_movable W s (TAny a)) eqn:Hm'; try (now specialize (Hcm eq_refl));
      destruct t; try done; injection Hb as ->; run; reflexivity.
  Qed.

  Lemma move_assign_spec a : move_assign_body W a = true <-> any_move_assignable W a.
  Proof.
    unfold move_assign_body, any_move_assignable. rewrite move_body_real, <- any_movable_spec, <- move_in. unfold get_move_fn_compiles.
    destruct (w_movable W (at_al a)); [naive_solver|]. rewrite andb_true_iff. naive_solver.
  Qed.
  Lemma copy_move_assign a : has_copy a = true -> move_assign_body W a = true.
  Proof.
    intros H. unfold move_assign_body. rewrite move_body_real, (has_copy_move _ H). unfold get_move_fn_compiles.
    unfold has_copy in H. rewrite (copy_has_move _ _ _ H). now destruct (w_movable W (at_al a)).
  Qed.
  Lemma move_assign_movable a : move_assign_body W a = true -> has_move a = true.
  Proof. unfold move_assign_body. rewrite move_body_real. destruct (w_movable W (at_al a)); [done|]. now intros [_ ?]%andb_true_iff. Qed.
  Lemma copy_assign_real a : copy_assign_body W a = has_copy a.
  Proof. unfold copy_assign_body. rewrite copy_body_real. destruct (has_copy a) eqn:H; [|done]. now rewrite copy_move_assign. Qed.
  Lemma said_copy_real s a : has_copy a = true -> says_copyable W s (TAny a) = true.
  Proof. intros H. now destruct s. Qed.
  Lemma said_move_real s a : has_move a = true -> says_movable W s (TAny a) = true.
  Proof. intros H. now destruct s. Qed.

  Lemma in_assign_any s a t b c lv k : base_of t = Some b ->
    assign_in W s a (AExpr t c lv) = ADone k <-> assign E a (AExpr t c lv) = ADone k /\ move_assign_body W a = true.
  Proof.
    intros Hb. destruct (decide (b = a)) as [->|Hba].
    - rewrite in_assign_self, assign_self by done. rewrite copy_assign_real.
      pose proof (said_copy_real s a) as H1. pose proof (said_move_real s a) as H2.
      pose proof (copy_move_assign a) as H3. pose proof (move_assign_movable a) as H4.
      destruct (c || lv); [destruct (has_copy a)|destruct (move_assign_body W a) eqn:Hm; [destruct (has_move a)|]].
      + rewrite H1, H3 by done. naive_solver.
      + destruct (says_copyable W s (TAny a)); naive_solver.
      + rewrite H2 by done. naive_solver.
      + discriminate (H4 eq_refl).
      + destruct (says_movable W s (TAny a)); naive_solver.
    - rewrite (in_assign_conv s a t b c lv Hb Hba), (assign_conv E a t b c lv Hb Hba).
      assert (Hsame : same s a [AExpr t c lv]).
      { destruct (cases s a [AExpr t c lv]) as [H|(t' & c' & lv' & _ & _ & [H|(c0 & lv0 & H)])]; [done| |discriminate H].
        injection H as -> -> ->. discriminate Hb. }
      rewrite Hsame.
      pose proof (said_move_real s a) as H2. pose proof (move_assign_movable a) as H4.
      assert (Hn : resolve_in W s a [AExpr t c lv] = ChNone -> construct E a [AExpr t c lv] = Ill).
      { intros H. rewrite <- Hsame. unfold construct_in. now rewrite H. }
      destruct (move_assign_body W a) eqn:Hm.
      + rewrite (H4 eq_refl), H2 by now apply H4. destruct (resolve_in W s a [AExpr t c lv]); [rewrite Hn by done| |]; naive_solver.
      + destruct (says_movable W s (TAny a)); [|naive_solver]. destruct (resolve_in W s a [AExpr t c lv]); naive_solver.
  Qed.
  Theorem assignment_in s a t c lv k : ~ is_in_place t ->
    assign_in W s a (AExpr t c lv) = ADone k <-> assigns E a t c lv k /\ ((exists b, any_of t b) -> any_move_assignable W a).
  Proof.
    intros Hi. rewrite <- assignment by done. rewrite <- move_assign_spec. destruct (base_of t) as [b|] eqn:Hb.
    - rewrite (in_assign_any s a t b c lv k Hb). assert (any_of t b) by now apply any_of_spec. naive_solver.
    - assert (Hno : ~ exists b, any_of t b) by (intros [b H]; apply any_of_spec in H; congruence).
      destruct (is_polymorphic t) eqn:Hp.
      + destruct t; try done. rewrite in_assign_view, assign_view. naive_solver.
      + rewrite in_assign_value by done. naive_solver.
  Qed.

  (** ** Traits *)
  Lemma says_constructible_eq s a c lv : says_constructible W s a c lv = if c || lv then says_copyable W s (TAny a) else says_movable W s (TAny a).
  Proof. unfold says_constructible. rewrite in_self by done. destruct (c || lv), (says_copyable W s (TAny a)), (says_movable W s (TAny a)); done. Qed.
  Lemma says_assignable_eq s a c lv : says_assignable W s a c lv = if c || lv then says_copyable W s (TAny a) else says_movable W s (TAny a).
  Proof.
    unfold says_assignable. pose proof (asg_copy s a (AExpr (TAny a) c lv)) as Hc. pose proof (asg_move s a (AExpr (TAny a) c lv)) as Hm.
    assert (Hv : asg_constraint_in W s a OValue (AExpr (TAny a) c lv) = false) by done.
    pose proof (said_copy_move s a) as Hcm.
    destruct (says_copyable W s (TAny a)) eqn:Hc'; destruct (says_movable W s (TAny a)) eqn:Hm'; try (now specialize (Hcm eq_refl));
      destruct c, lv; run; reflexivity.
  Qed.
  Lemma construct_any s a c lv : compiles (construct_in W s a [AExpr (TAny a) c lv]) <-> (if c || lv then any_copyable a else any_movable a).
  Proof.
    rewrite same_self, construct_self by done. pose proof (any_copyable_spec a). pose proof (any_movable_spec a). unfold compiles.
    destruct (c || lv); [destruct (has_copy a)|destruct (has_move a)]; naive_solver.
  Qed.
  Lemma assign_any s a c lv : assign_compiles (assign_in W s a (AExpr (TAny a) c lv)) <-> (if c || lv then any_copyable a else any_move_assignable W a).
  Proof.
    unfold assign_compiles. setoid_rewrite (in_assign_any s a (TAny a) a c lv _ eq_refl). rewrite assign_self by done.
    pose proof (any_copyable_spec a). pose proof (move_assign_spec a). pose proof (copy_move_assign a) as H3. pose proof (move_assign_movable a) as H4.
    destruct (c || lv); [destruct (has_copy a); naive_solver|]. destruct (has_move a), (move_assign_body W a); naive_solver.
  Qed.
  Theorem traits_construct a c lv : says_constructible W CPP20 a c lv = true <-> compiles (construct_in W CPP20 a [AExpr (TAny a) c lv]).
  Proof.
    rewrite says_constructible_eq, construct_any. destruct (c || lv); [apply any_copyable_spec|apply any_movable_spec].
  Qed.
  Theorem traits_assign a c lv : w_movable W (at_al a) = true \/ at_soos a <> 0 \/ has_move_method (at_ms a) ->
    says_assignable W CPP20 a c lv = true <-> assign_compiles (assign_in W CPP20 a (AExpr (TAny a) c lv)).
  Proof.
    intros Hx. rewrite says_assignable_eq, assign_any. unfold any_move_assignable. destruct (c || lv); [apply any_copyable_spec|].
    change (says_movable W CPP20 (TAny a)) with (has_move a). rewrite any_movable_spec. unfold any_movable.
    destruct Hx as [Hx|[Hx|Hx]]; rewrite ?Hx; naive_solver.
  Qed.
  Theorem traits_complete s a c lv :
    (compiles (construct_in W s a [AExpr (TAny a) c lv]) -> says_constructible W s a c lv = true) /\
    (assign_compiles (assign_in W s a (AExpr (TAny a) c lv)) -> says_assignable W s a c lv = true).
  Proof.
    rewrite says_constructible_eq, says_assignable_eq, construct_any, assign_any. unfold any_move_assignable.
    split; (destruct (c || lv); [intros H%any_copyable_spec; now apply said_copy_real|]).
    - intros H%any_movable_spec. now apply said_move_real.
    - intros [H%any_movable_spec _]. now apply said_move_real.
  Qed.
  Theorem growth_20 a : compiles (growth W CPP20 a) <-> any_movable a.
  Proof.
    unfold growth, growth_argument. rewrite !says_constructible_eq. cbn [orb].
    change (says_movable W CPP20 (TAny a)) with (has_move a). change (says_copyable W CPP20 (TAny a)) with (has_copy a).
    destruct (negb _ && has_copy a) eqn:H; rewrite construct_any; [|done]. cbn [orb]. apply andb_true_iff in H as [_ H].
    rewrite <- any_copyable_spec, <- any_movable_spec. now rewrite H, (has_copy_move _ H).
  Qed.
  Theorem growth_17 a : compiles (growth W CPP17 a) <-> if w_movable W (at_al a) then any_movable a else any_copyable a.
  Proof.
    unfold growth, growth_argument. rewrite !says_constructible_eq. cbn [orb].
    change (says_movable W CPP17 (TAny a)) with true. change (says_copyable W CPP17 (TAny a)) with true.
    destruct (w_movable W (at_al a)); cbn [andb negb]; now rewrite construct_any.
  Qed.
End Std.

Lemma hash_agrees h a : (hash_enabled CPP20 h a = true <-> In (MUser h) (at_ms a)) /\ (hash_body h a = true <-> In (MUser h) (at_ms a)).
Proof. unfold hash_enabled, hash_body. now rewrite (contains_v_spec eqm eqm_spec). Qed.
