(** Uses-allocator construction of anys (C97). *)
From stdpp Require Import list.
From Verif Require Import TypeListSpec ConsModel ConsSpec ConsResolve ConsProofs UsesModel UsesSpec.

Section Env.
  Context (E : env).
  Lemma constructible_done a xs m : construct E a xs = Done m -> is_constructible E a xs = true.
  Proof. unfold construct, is_constructible. by destruct (resolve E a xs). Qed.
  Lemma uses_same a xs : uses_construct E a (at_al a) xs =
    if is_constructible E a (leading (at_al a) xs) then construct E a (leading (at_al a) xs)
    else if is_constructible E a (trailing (at_al a) xs) then construct E a (trailing (at_al a) xs) else Ill.
  Proof. unfold uses_construct, uses_allocator. by rewrite bool_decide_true. Qed.

  Theorem uses_value a v m : ordinary v ->
    uses_construct E a (at_al a) (arguments a (RPlain v)) = Done m <-> means E a (RWithAlloc false false true true v) m.
  Proof.
    intros Hv. rewrite <- (construction E a (RWithAlloc false false true true v) m).
    2:{ destruct v as [[t c lv| |]|]; try done. }
    2:{ destruct v as [[t c lv| |]|]; try done. cbn in Hv |- *. tauto. }
    change (arguments a (RWithAlloc false false true true v)) with (leading (at_al a) (arguments a (RPlain v))). rewrite uses_same.
    destruct (is_constructible E a (leading (at_al a) (arguments a (RPlain v)))) eqn:Hl; [done|]. split.
    - intros H. exfalso. destruct v as [[t c lv| |]|]; try done.
      + destruct Hv as (Ht & _ & Hf & Ha). cbn [arguments from_option written trailing app] in H. unfold is_constructible in H. unfold trailing in H. cbn [app] in H.
        by rewrite (resolve_many E a t c lv _ [] Ht Hf Ha) in H.
      + cbn in Hl. unfold is_constructible, leading, allocator in Hl. rewrite resolve_alloc, bool_decide_true in Hl by done. done.
    - intros H. apply constructible_done in H. congruence.
  Qed.
  (** the allocator of another class is not used *)
  Theorem uses_other a al r m : al <> at_al a -> proper r -> regular E a r -> uses_construct E a al (arguments a r) = Done m <-> means E a r m.
  Proof. intros Ha Hp Hr. unfold uses_construct, uses_allocator. rewrite bool_decide_false by done. by apply construction. Qed.

  Theorem uses_outcomes a xs m : uses_construct E a (at_al a) xs = Done m -> given a xs m.
  Proof.
    rewrite uses_same. destruct (is_constructible E a (leading (at_al a) xs)) eqn:Hl.
    - unfold leading, allocator, is_constructible in *. rewrite resolve_alloc, bool_decide_true in Hl by done.
      destruct xs as [|x xs]; [rewrite construct_alloc; intros [= <-]; constructor|].
      destruct x as [t c lv|]; [|done]. destruct xs; [|done]. rewrite construct_alloc_value. destruct (exist_for E t (at_ms a)); [|done].
      intros (_ & ->)%hold_done. constructor.
    - destruct (is_constructible E a (trailing (at_al a) xs)) eqn:Ht; [|done]. unfold trailing in *. destruct xs as [|x xs].
      { unfold leading, allocator, is_constructible in Hl. by rewrite resolve_alloc, bool_decide_true in Hl. }
      cbn [app] in *. destruct x as [t c lv|]; [|unfold is_constructible in Ht; by rewrite resolve_brace in Ht].
      assert (exists y ys, xs ++ [allocator (at_al a)] = y :: ys) as (y & ys & He) by (destruct xs; cbn; eauto).
      assert ((exists u, t = TInPlace u) \/ ~ is_in_place t) as [[u ->]|Hi] by (destruct t; eauto).
      { rewrite He, construct_in_place. destruct (pack ys); [|done]. destruct (exist_for E u (at_ms a)); [|done].
        intros (_ & ->)%hold_done. rewrite <- He. apply gi_in_place. }
      assert (t = TForce \/ t = TAllocArg \/ t <> TForce /\ t <> TAllocArg) as [->|[->|[Hf Ha]]] by (destruct t; eauto).
      + destruct xs as [|z zs].
        { cbn. unfold allocator. rewrite construct_force_value by done. destruct (_ && _); [|done]. intros (_ & ->)%hold_done. apply gi_force. }
        cbn [app] in *. unfold is_constructible in Ht. rewrite resolve_force in Ht.
        assert ((exists u cu lu, z = AExpr (TInPlace u) cu lu) \/ ~ exists u cu lu, z = AExpr (TInPlace u) cu lu) as [(u & cu & lu & ->)|Hz].
        { destruct z as [[]|]; eauto; right; intros (? & ? & ? & [=]). }
        * assert (exists y ys, zs ++ [allocator (at_al a)] = y :: ys) as (y' & ys' & He') by (destruct zs; cbn; eauto).
          rewrite He', construct_force_in. destruct (pack ys'); [|done]. destruct (exist_for E u (at_ms a)); [|done].
          intros (_ & ->)%hold_done. rewrite <- He'. apply gi_forced_in_place.
        * exfalso. destruct z as [u cu lu|]; [|done]. destruct u; try (exfalso; apply Hz; eauto; fail); by destruct zs.
      + unfold is_constructible in Ht. rewrite He, resolve_alloc in Ht. rewrite He. destruct y as [u cu lu|]; [|done].
        destruct (bool_decide_reflect (u = TAlloc (at_al a))) as [->|]; [|done]. destruct ys as [|z ys].
        { destruct xs as [|? [|]]; try discriminate He. rewrite construct_alloc. intros [= <-]. apply gi_allocator_arg. }
        destruct xs as [|x xs]; [discriminate He|]. injection He as -> He. destruct z as [u' cz lz|]; [|done]. destruct ys; [|done].
        destruct xs as [|? [|]]; try discriminate He. injection He as <- <- <-. rewrite construct_alloc_value. destruct (exist_for _ _ _); [|done].
        intros (_ & ->)%hold_done. apply gi_allocator.
      + unfold is_constructible in Ht. rewrite He in Ht. by rewrite resolve_many in Ht.
  Qed.
  (** what is asked for in place never has the given allocator *)
  Lemma uses_in_place a t c lv xs m : uses_construct E a (at_al a) (AExpr (TInPlace t) c lv :: xs) = Done m ->
    md_alloc m = FromDefault /\ md_content m = Holds t (passed AsLvalue (xs ++ [the_allocator a])) \/ xs = [] /\ md_content m = Holds (TInPlace t) [AExpr (TInPlace t) c lv].
  Proof. intros H%uses_outcomes. inversion H; subst; cbn; eauto. Qed.
  (** with arguments it is the construction in place from these arguments and the allocator *)
  Theorem uses_in_place_arguments a t c lv x xs m : (forall y, In y (x :: xs) -> ~ is_brace y) -> ~ is_list x ->
    uses_construct E a (at_al a) (AExpr (TInPlace t) c lv :: x :: xs) = Done m <-> means E a (RPlain (Some (WInPlace t c lv (x :: xs ++ [the_allocator a])))) m.
  Proof.
    intros Hb Hx. rewrite <- construction.
    2:{ split; [|done]. intros y [<-|[Hy|[<-|[]]]%in_app_or]; [apply Hb; by left|apply Hb; by right|by intros []]. }
    2:{ done. }
    rewrite uses_same. assert (is_constructible E a (leading (at_al a) (AExpr (TInPlace t) c lv :: x :: xs)) = false) as ->.
    { unfold is_constructible, leading, allocator. by rewrite resolve_alloc, bool_decide_true. }
    unfold trailing. cbn [app arguments from_option written]. change (allocator (at_al a)) with (the_allocator a).
    destruct (is_constructible E a _) eqn:Hc; [done|]. split; [done|]. intros H%constructible_done. cbn in H, Hc. congruence.
  Qed.
  (** anys, references and pointers of the library, and classes derived from anys are stored *)
  Theorem uses_nests a t c lv m : polymorphic t -> 
    uses_construct E a (at_al a) [AExpr t c lv] = Done m <-> suits E a t /\ e_make E t [AExpr t c lv] = true /\ m = Made (Holds t [AExpr t c lv]) false FromArg.
  Proof.
    intros Ht%polymorphic_spec. rewrite uses_same. unfold is_constructible, leading, trailing, allocator. rewrite resolve_alloc, bool_decide_true by done.
    rewrite construct_alloc_value, <- suits_spec. destruct (exist_for E t (at_ms a)).
    - rewrite hold_done. tauto.
    - cbn [app]. rewrite resolve_many by (destruct t; first [discriminate Ht | discriminate | exact id]). naive_solver.
  Qed.
  Lemma uses_never_ambiguous a al xs : uses_construct E a al xs <> Ambiguous /\ uses_construct E a al xs <> Stuck.
  Proof. unfold uses_construct. repeat case_match; try apply never_ambiguous; done. Qed.
End Env.
