(** Proofs about construction of references and pointers. *)
From stdpp Require Import sets list.
From Verif Require Import TypeListModel TypeListSpec TypeListProofs RefConsModel RefConsSpec.

Lemma eqb_ok : decides Nat.eqb.
Proof. intros x y. apply Nat.eqb_eq. Qed.
Lemma narrower_spec ms from : narrower ms from = true <-> contiguous ms from.
Proof.
  unfold narrower. rewrite <-(has_subsequence_iff Nat.eqb eqb_ok).
  destruct (has_subsequence Nat.eqb ms from) as [[]|]; naive_solver.
Qed.
Lemma contiguous_refl {A} (l : list A) : contiguous l l.
Proof. exists 0, [], []. by rewrite app_nil_r. Qed.
Lemma contiguous_length {A} (l m : list A) : contiguous l m -> length l <= length m.
Proof. intros (n & p & q & -> & _). rewrite !app_length. lia. Qed.
Lemma contiguous_antisym {A} (l m : list A) : contiguous l m -> contiguous m l -> l = m.
Proof.
  intros (n & p & q & -> & _) H. apply contiguous_length in H. rewrite !app_length in H.
  destruct p; [|cbn in H; lia]. destruct q; [|cbn in H; lia]. by rewrite app_nil_r.
Qed.
Lemma contiguous_nil {A} (l : list A) : contiguous [] l.
Proof. exists 0, [], l. done. Qed.
Lemma all_in_spec ms from : all_in ms from = true <-> incl ms from.
Proof.
  unfold all_in. rewrite forallb_forall. unfold incl.
  split; intros H a Ha; specialize (H a Ha); by apply (contains_v_spec Nat.eqb eqb_ok).
Qed.
Lemma same_list_spec l m : same_list l m = true <-> l = m.
Proof. unfold same_list. apply list_same_spec, eqb_ok. Qed.
Lemma same_list_refl l : same_list l l = true.
Proof. by apply same_list_spec. Qed.
Lemma exist_for_spec E c t ms : exist_for E c t ms = true <-> has_all E ms (decay c t).
Proof. unfold exist_for, has_all. rewrite forallb_forall. setoid_rewrite elem_of_list_In. done. Qed.
Lemma decay_spec c t d : decayed c t d <-> decay c t = d.
Proof.
  split; [intros [| |c' t' H1 H2]; cbn; try done; destruct t'; cbn; try done; naive_solver|].
  intros <-. destruct t; cbn; constructor; done.
Qed.

Section Proofs.
  Context (E : provides).

  Lemma contiguous_incl (ms from : list nat) : contiguous ms from -> incl ms from.
  Proof. intros (n & p & q & -> & _) a Ha. apply in_app_iff. right. apply in_app_iff. by left. Qed.
  Lemma part_facts k ms from : part_of k ms from <-> (match k with KSRef | KSCRef => all_in ms from | _ => narrower ms from end) = true.
  Proof. destruct k; cbn; first [rewrite narrower_spec; done|rewrite all_in_spec; done]. Qed.
  Lemma narrower_in ms from : narrower ms from = true -> all_in ms from = true.
  Proof. intros H. apply all_in_spec, contiguous_incl. by apply narrower_spec. Qed.
  Lemma narrower_refl ms : narrower ms ms = true.
  Proof. apply narrower_spec, contiguous_refl. Qed.

  (** what a view is made from *)
  Definition view_ok (k k' : kind) (ms from : list nat) : bool :=
    view_from k k' && (match k with KSRef | KSCRef => all_in ms from | _ => narrower ms from end).
  Ltac view_cases := idtac;
    match goal with |- context[Arg (TView _ ?from) _ _] => match goal with ms : list nat |- _ => lazymatch ms with from => fail | _ =>
    let Q0 := fresh "Q0" in let Q1 := fresh "Q1" in let Q2 := fresh "Q2" in
    destruct (same_list from ms) eqn:Q0; [apply same_list_spec in Q0 as ->; pose proof (narrower_refl ms) as Q1; pose proof (same_list_refl ms) as Q0;
      pose proof (narrower_in _ _ Q1) as Q2|destruct (narrower ms from) eqn:Q1; [pose proof (narrower_in _ _ Q1) as Q2|destruct (all_in ms from) eqn:Q2]]
    end end end.
  Lemma view_copy_init k k' ms from c lv :
    copy_init E k ms (Arg (TView k' from) c lv) = if view_ok k k' ms from then Made AtSame TableOfSource else NoViable.
  Proof.
    view_cases;
    destruct k, k', c, lv; lazy -[narrower all_in exist_for same_list]; rewrite ?Q0, ?Q1, ?Q2; lazy -[narrower all_in exist_for same_list]; reflexivity.
  Qed.
  (** ** R r(x) agrees with R r = x unless x needs a user-defined conversion *)
  Lemma kind_eqb_spec k l : kind_eqb k l = true <-> k = l.
  Proof. by destruct k, l. Qed.
  Lemma ctor_eqb_spec c d : ctor_eqb c d = true <-> c = d.
  Proof. destruct c, d; cbn; try done; rewrite kind_eqb_spec; naive_solver. Qed.
  Lemma bind_not_user k ms c x i : bind E k ms c x = Some i -> ic_user i = false.
  Proof. destruct c; cbn; repeat case_match; naive_solver. Qed.
  Lemma bind_user_user k ms c x i : bind_user E k ms c x = Some i -> ic_user i = true.
  Proof. destruct c; cbn; repeat case_match; naive_solver. Qed.
  Lemma ctors_nodup k : NoDup (ctors k).
  Proof. destruct k; repeat constructor; set_solver. Qed.
  Definition now_part (v : list (ctor * ics)) : list (ctor * ics) := List.filter (fun c => negb (ic_user (snd c))) v.
  Lemma now_is_part k ms x : viable_now E k ms x = now_part (viable_all E k ms x).
  Proof.
    unfold viable_now, viable_all. induction (ctors k) as [|c l IH]; [done|]. cbn. unfold bind_any at 1.
    destruct (bind E k ms c x) as [i|] eqn:B; cbn.
    - rewrite (bind_not_user _ _ _ _ _ B). cbn. by rewrite IH.
    - destruct (bind_user E k ms c x) as [i|] eqn:B'; cbn; [|done]. rewrite (bind_user_user _ _ _ _ _ B'). done.
  Qed.
  Lemma bind_any_fst k ms x c p : bind_any E k ms x c = Some p -> fst p = c.
  Proof. unfold bind_any. destruct (bind E k ms c x), (bind_user E k ms c x); cbn; by intros [= <-]. Qed.
  Lemma all_nodup k ms x : NoDup (fst <$> viable_all E k ms x).
  Proof.
    unfold viable_all. pose proof (ctors_nodup k) as N. induction N as [|c l Hc N IH]; [constructor|]. cbn.
    destruct (bind_any E k ms x c) as [p|] eqn:B; [|done]. cbn. rewrite (bind_any_fst _ _ _ _ _ B).
    constructor; [|done]. intros (p' & -> & (c' & Hc' & Hb)%elem_of_list_omap)%elem_of_list_fmap.
    apply bind_any_fst in Hb. by subst c'.
  Qed.
  Lemma better_user x (c d : ctor * ics) : ic_user (snd c) = true -> ic_user (snd d) = false -> better x c d = false /\ better x d c = true.
  Proof. unfold better, conv_better. intros -> ->. done. Qed.
  Lemma filter_twice {A} (p q r : A -> bool) (l : list A) :
    (forall a, a ∈ l -> p a = q a && r a) -> List.filter p l = List.filter r (List.filter q l).
  Proof.
    induction l as [|a l IH]; [done|]. intros H. cbn. rewrite (H a) by set_solver. destruct (q a); cbn; [destruct (r a)|]; cbn; rewrite IH; set_solver.
  Qed.
  Lemma select_now k ms x : viable_now E k ms x <> [] -> select x (viable_all E k ms x) = select x (viable_now E k ms x).
  Proof.
    rewrite now_is_part. pose proof (all_nodup k ms x) as N. set (v := viable_all E k ms x) in *. intros Hne.
    destruct (now_part v) as [|d0 l0] eqn:Hn; [done|]. assert (Hd : d0 ∈ now_part v) by (rewrite Hn; set_solver).
    assert (Hv : v <> []) by (intros ->; done).
    assert (HF : forall (c : ctor * ics), c ∈ v -> forallb (fun d => ctor_eqb (fst c) (fst d) || better x c d) v =
              negb (ic_user (snd c)) && forallb (fun d => ctor_eqb (fst c) (fst d) || better x c d) (now_part v)).
    { intros c Hc. apply eq_true_iff_eq. rewrite andb_true_iff, !forallb_forall, negb_true_iff. setoid_rewrite <-elem_of_list_In. split.
      - intros H. split.
        + destruct (ic_user (snd c)) eqn:U; [|done]. exfalso. apply elem_of_list_In, filter_In in Hd as [Hd U'].
          apply elem_of_list_In in Hd. specialize (H _ Hd). apply negb_true_iff in U'.
          rewrite (proj1 (better_user x c d0 U U')), orb_false_r in H. apply ctor_eqb_spec in H.
          assert (c = d0); [|by subst; congruence].
          apply elem_of_list_lookup in Hc as [i Hi]. apply elem_of_list_lookup in Hd as [j Hj].
          assert (i = j); [|congruence]. eapply (NoDup_lookup _ i j (fst c) N); rewrite list_lookup_fmap; [by rewrite Hi|by rewrite Hj; cbn; rewrite H].
        + intros d Hd'. apply H. apply elem_of_list_In, filter_In in Hd' as [Hd' _]. by apply elem_of_list_In.
      - intros [U H] d Hd'. destruct (ic_user (snd d)) eqn:U'.
        + by rewrite (proj2 (better_user x d c U' U)), orb_true_r.
        + apply H. apply elem_of_list_In, filter_In. rewrite U'. by apply elem_of_list_In in Hd'. }
    unfold select. destruct v as [|v0 vs]; [done|].
    rewrite (filter_twice _ (fun c => negb (ic_user (snd c))) (fun c => forallb (fun d => ctor_eqb (fst c) (fst d) || better x c d) (d0 :: l0))).
    - change (List.filter (fun c : ctor * ics => negb (ic_user (snd c))) (v0 :: vs)) with (now_part (v0 :: vs)). by rewrite Hn.
    - intros a Ha. rewrite HF by done. by rewrite Hn.
  Qed.
  Lemma select_in x v c : select x v = inl c -> c ∈ v.
  Proof.
    unfold select. destruct v as [|v0 vs]; [done|]. destruct (List.filter _ _) as [|c' []] eqn:F; try done. intros [= <-].
    assert (In c' (c' :: nil)) as H by (by left). rewrite <-F in H. apply filter_In in H as [H _]. by apply elem_of_list_In.
  Qed.
  Lemma no_viable k ms x : copy_init E k ms x = NoViable -> viable_now E k ms x = [].
  Proof.
    unfold copy_init. destruct (select x (viable_now E k ms x)) as [[c i]|r] eqn:S.
    - intros H. exfalso. destruct c; cbn in H; repeat case_match; done.
    - intros ->. unfold select in S. destruct (viable_now E k ms x); [done|]. repeat case_match; done.
  Qed.
  Lemma direct_now k ms x : convertible E k ms x = true -> direct_init E k ms x = copy_init E k ms x.
  Proof.
    intros H. unfold direct_init, copy_init. rewrite select_now.
    - destruct (select x (viable_now E k ms x)) as [[c i]|] eqn:S; [|done]. apply select_in in S.
      unfold viable_now in S. apply elem_of_list_omap in S as (c' & _ & Hb). destruct (bind E k ms c' x) as [j|] eqn:B; [|done].
      injection Hb as -> ->. by rewrite (bind_not_user _ _ _ _ _ B).
    - intros Hn. unfold convertible, copy_init in H. by rewrite Hn in H.
  Qed.
  (** the parameters a user-defined conversion can reach *)
  Definition reached (k : kind) : list kind := match k with KCRef | KSRef => [KRef] | KCPtr => [KPtr] | KSCRef => [KCRef; KRef; KSRef] | _ => [] end.
  Lemma direct_user k ms x : convertible E k ms x = false ->
    direct_init E k ms x = match List.filter (fun k' => convertible E k' ms x) (reached k) with [] => NoViable | [k'] => copy_init E k' ms x | _ => Ambiguous end.
  Proof.
    intros H. assert (Hn : viable_now E k ms x = []).
    { apply no_viable. unfold convertible in H. by destruct (copy_init E k ms x). }
    assert (Hb : forall c, c ∈ ctors k -> bind E k ms c x = None).
    { intros c Hc. destruct (bind E k ms c x) as [i|] eqn:B; [|done]. exfalso.
      assert ((c, i) ∈ viable_now E k ms x) as Hin; [|rewrite Hn in Hin; set_solver]. apply elem_of_list_omap. exists c. by rewrite B. }
    assert (Hv : viable_all E k ms x = omap (fun c => option_map (pair c) (bind_user E k ms c x)) (ctors k)).
    { unfold viable_all. clear Hn. revert Hb. induction (ctors k) as [|c l IH]; [done|]. intros Hb. cbn. unfold bind_any at 1.
      rewrite (Hb c) by set_solver. rewrite IH; [done|]. intros c' Hc'. apply Hb. set_solver. }
    unfold direct_init. rewrite Hv. clear Hv Hb Hn.
    destruct k; cbn -[convertible copy_init select]; rewrite ?H; cbn -[convertible copy_init select]; try done;
      repeat match goal with |- context[convertible E ?k' ms x] => destruct (convertible E k' ms x); cbn -[copy_init] end; done.
  Qed.

  (** ** R r = x for each kind of x *)
  Definition obj_ok (k : kind) (x : arg) (ms : list nat) : bool :=
    (if mutable k then negb (a_const x) && (a_lvalue x || is_fun (a_ty x)) else true) && negb (is_void (a_ty x)) && exist_for E false (a_ty x) ms.
  Ltac lz := lazy -[narrower all_in exist_for same_list].
  Lemma object_copy_init k ms x : reference k = true -> is_polymorphic (a_ty x) = false ->
    copy_init E k ms x = if obj_ok k x ms then (if is_fun (a_ty x) then HardError else Made AtSelf (TableOf (decay false (a_ty x)))) else NoViable.
  Proof.
    destruct x as [t c lv]. cbn [a_ty]. destruct (exist_for E false t ms) eqn:Q;
    destruct k; try done; intros _; destruct t; try done; intros _; destruct c, lv; lz; rewrite ?Q; lz; done.
  Qed.
  Lemma any_ref_copy_init k ms x : reference k = true -> is_any (a_ty x) = true -> copy_init E k ms x = NoViable.
  Proof. destruct x as [t c lv]. destruct k; try done; intros _; destruct t; try done; intros _; destruct c, lv; lz; done. Qed.
  Lemma null_copy_init k ms x : reference k = false -> a_ty x = TNull -> copy_init E k ms x = Made Nowhere NoTable.
  Proof. destruct x as [t c lv]. destruct k; try done; intros _; destruct t; try done; intros _; destruct c, lv; lz; done. Qed.
  Lemma other_copy_init k ms x : reference k = false -> a_ty x <> TNull -> as_pointer x = None -> (forall k' from, a_ty x <> TView k' from) ->
    copy_init E k ms x = NoViable.
  Proof. destruct x as [t c lv]. destruct k; try done; intros _; destruct t; try done; intros _ _ H; try (by destruct (H k ms0)); destruct c, lv; lz; done. Qed.
  Definition ptr_result (ms : list nat) (c : bool) (t : ty) : result :=
    match t with
    | TAny _ any_ms => if negb c && narrower ms any_ms then Made AtContent TableOfContent else NoViable
    | _ => if negb c && exist_for E false t ms then (if is_fun t then HardError else Made AtPointee (TableOf (decay false t))) else NoViable
    end.
  Lemma ptr_copy_init ms x c t : as_pointer x = Some (c, t) -> copy_init E KPtr ms x = ptr_result ms c t.
  Proof.
    destruct x as [t' c' lv]. unfold as_pointer. cbn. intros H. unfold ptr_result.
    destruct t'; try discriminate H; injection H as <- <-.
    - destruct t'; try (destruct (exist_for E false _ ms) eqn:Q); try (destruct (narrower ms ms0) eqn:Q1); destruct const; lz; rewrite ?Q, ?Q1; lz; done.
    - destruct t'; try (destruct (exist_for E false _ ms) eqn:Q); try (destruct (narrower ms ms0) eqn:Q1); destruct c'; lz; rewrite ?Q, ?Q1; lz; done.
    - destruct (exist_for E false _ ms) eqn:Q; lz; rewrite ?Q; lz; done.
  Qed.
  Definition cptr_result (ms : list nat) (c : bool) (t : ty) : result :=
    match t with
    | TAny _ any_ms => if narrower any_ms ms then (if narrower ms any_ms then Made AtContent TableOfContent else HardError) else NoViable
    | TView _ _ => NoViable
    | _ => if exist_for E false t ms then (if is_fun t then HardError else Made AtPointee (TableOf (decay false t))) else NoViable
    end.
  Lemma cptr_copy_init ms x c t : as_pointer x = Some (c, t) -> copy_init E KCPtr ms x = cptr_result ms c t.
  Proof.
    destruct x as [t' c' lv]. unfold as_pointer. cbn. intros H. unfold cptr_result.
    destruct t'; try discriminate H; injection H as <- <-.
    - destruct t'; try (destruct (exist_for E false _ ms) eqn:Q); try (destruct (narrower ms ms0) eqn:Q1); try (destruct (narrower ms0 ms) eqn:Q2);
        destruct const; lz; rewrite ?Q, ?Q1, ?Q2; lz; rewrite ?Q, ?Q1, ?Q2; done.
    - destruct t'; try (destruct (exist_for E false _ ms) eqn:Q); try (destruct (narrower ms ms0) eqn:Q1); try (destruct (narrower ms0 ms) eqn:Q2);
        destruct c'; lz; rewrite ?Q, ?Q1, ?Q2; lz; rewrite ?Q, ?Q1, ?Q2; done.
    - destruct (exist_for E false _ ms) eqn:Q; lz; rewrite ?Q; lz; done.
  Qed.

  Lemma view_convertible k k' ms from c lv : convertible E k ms (Arg (TView k' from) c lv) = view_ok k k' ms from.
  Proof. unfold convertible. rewrite view_copy_init. by destruct (view_ok k k' ms from). Qed.
  Lemma reached_convertible k k' ms x : reference k = true -> k' ∈ reached k -> convertible E k' ms x = true -> convertible E k ms x = true.
  Proof.
    intros Hr Hk. assert (Hr' : reference k' = true) by (destruct k; cbn in Hk; set_solver).
    destruct (is_polymorphic (a_ty x)) eqn:P.
    - destruct x as [t c lv]; destruct t; try done.
      + unfold convertible. by rewrite any_ref_copy_init.
      + rewrite !view_convertible. destruct k; try done; cbn in Hk; repeat (apply elem_of_cons in Hk as [->|Hk]); try (by apply elem_of_nil in Hk);
          destruct k0; cbn; try done; intros H; by apply narrower_in.
    - unfold convertible. rewrite !object_copy_init by done. unfold obj_ok.
      destruct k; try done; cbn in Hk; repeat (apply elem_of_cons in Hk as [->|Hk]); try (by apply elem_of_nil in Hk); cbn;
        destruct (a_const x), (a_lvalue x), (is_fun (a_ty x)), (is_void (a_ty x)), (exist_for E false (a_ty x) ms); done.
  Qed.
  Lemma filter_none {A} (p : A -> bool) l : (forall a, a ∈ l -> p a = false) -> List.filter p l = [].
  Proof. induction l as [|a l IH]; [done|]. intros H. cbn. rewrite H by set_solver. apply IH. set_solver. Qed.
  Lemma not_convertible k ms x : convertible E k ms x = false -> copy_init E k ms x = NoViable.
  Proof. unfold convertible. by destruct (copy_init E k ms x). Qed.
  Lemma init_ref direct k ms x : reference k = true -> init E direct k ms x = copy_init E k ms x.
  Proof.
    intros Hr. destruct direct; [|done]. unfold init. destruct (convertible E k ms x) eqn:C; [by apply direct_now|].
    rewrite direct_user by done. rewrite filter_none; [symmetry; by apply not_convertible|].
    intros k' Hk. destruct (convertible E k' ms x) eqn:C'; [|done]. rewrite (reached_convertible k k') in C; done.
  Qed.
  Lemma init_ptr direct ms x : init E direct KPtr ms x = copy_init E KPtr ms x.
  Proof.
    destruct direct; [|done]. unfold init. destruct (convertible E KPtr ms x) eqn:C; [by apply direct_now|].
    rewrite direct_user by done. symmetry. by apply not_convertible.
  Qed.
  Lemma init_cptr direct ms x : init E direct KCPtr ms x =
    if convertible E KCPtr ms x then copy_init E KCPtr ms x else if direct then copy_init E KPtr ms x else NoViable.
  Proof.
    destruct (convertible E KCPtr ms x) eqn:C; destruct direct; unfold init; [by apply direct_now|done| |by apply not_convertible].
    rewrite direct_user by done. cbn. destruct (convertible E KPtr ms x) eqn:C'; [done|]. symmetry. by apply not_convertible.
  Qed.

  Lemma as_pointer_spec x c t : (forall n, t <> TFun n) -> as_pointer x = Some (c, t) <-> points_to x c t.
  Proof.
    intros Hf. unfold as_pointer, points_to. destruct x as [t' c' lv]; destruct t'; cbn; naive_solver.
  Qed.
  Lemma view_ok_spec k k' ms from : view_ok k k' ms from = true <-> view_from k k' = true /\ part_of k ms from.
  Proof. unfold view_ok. by rewrite andb_true_iff, <-part_facts. Qed.
  Lemma plain_spec t : plain t <-> is_polymorphic t = false /\ is_fun t = false /\ is_void t = false.
  Proof. destruct t; cbn; naive_solver. Qed.

  (** ** What references and pointers are made from *)
  Lemma ref_iff direct k ms x p t : reference k = true -> init E direct k ms x = Made p t <-> made_from E direct k ms x p t.
  Proof.
    intros Hr. rewrite init_ref by done. split.
    - intros H. destruct (is_polymorphic (a_ty x)) eqn:P.
      + destruct x as [t' c lv]; destruct t'; try done; [by rewrite any_ref_copy_init in H|].
        rewrite view_copy_init in H. destruct (view_ok k k0 ms ms0) eqn:V; [|done]. injection H as <- <-.
        apply view_ok_spec in V as [V1 V2]. by eapply from_view.
      + rewrite object_copy_init in H by done. destruct (obj_ok k x ms) eqn:O; [|done]. destruct (is_fun (a_ty x)) eqn:F; [done|].
        injection H as <- <-. unfold obj_ok in O. rewrite F, orb_false_r, !andb_true_iff, negb_true_iff in O. destruct O as ((O1 & O2) & O3).
        apply from_object; [done| |intros Hm; rewrite Hm, andb_true_iff, negb_true_iff in O1; done|by apply decay_spec|by apply exist_for_spec].
        by apply plain_spec.
    - intros Hm. revert Hr. destruct Hm as [k' ms' x' d Hr' HP HM HD HA|k' ms' x' c t' d H1|k' ms' x' c n any_ms H1|k' ms' x' H1|k' ms' x' k'' from HT HV HP]; intros Hr; try congruence.
      + apply plain_spec in HP as (P1 & P2 & P3). apply decay_spec in HD as <-. rewrite object_copy_init by done. rewrite P2.
        enough (obj_ok k' x' ms' = true) as -> by done. unfold obj_ok. rewrite P3, (proj2 (exist_for_spec _ _ _ _) HA).
        destruct (mutable k'); [|done]. destruct HM as [-> ->]; done.
      + destruct x' as [t' c lv]. cbn in HT. subst t'. rewrite view_copy_init.
        by rewrite (proj2 (view_ok_spec _ _ _ _)).
  Qed.
  Lemma ptr_cases x : a_ty x = TNull \/ (exists c t, as_pointer x = Some (c, t)) \/ (exists k from, a_ty x = TView k from) \/
    a_ty x <> TNull /\ as_pointer x = None /\ (forall k' from, a_ty x <> TView k' from).
  Proof. unfold as_pointer. destruct x as [t c lv]; destruct t; cbn; naive_solver. Qed.
  Lemma ptr_sound direct k ms x p t : reference k = false -> init E direct k ms x = Made p t -> made_from E direct k ms x p t.
  Proof.
    intros Hr H.
    assert (HP : copy_init E KPtr ms x = Made p t -> k = KPtr \/ k = KCPtr /\ direct = true -> made_from E direct k ms x p t).
    { clear H. intros H Hk.
      destruct (ptr_cases x) as [N|[(c & t' & P)|[(k' & from & V)|(N1 & N2 & N3)]]].
      - rewrite null_copy_init in H by done. injection H as <- <-. by apply from_null.
      - rewrite (ptr_copy_init _ _ _ _ P) in H.
        destruct (is_any t') eqn:A.
        + destruct t'; try done. cbn in H. destruct c; [done|]. cbn in H. destruct (narrower ms ms0) eqn:Q; [|done]. injection H as <- <-.
          apply as_pointer_spec in P; [|done]. apply narrower_spec in Q. eapply from_any; [done|done|done|done|]. destruct Hk as [->|[_ ->]]; [by left|right; by right].
        + assert (H' : (if negb c && exist_for E false t' ms then (if is_fun t' then HardError else Made AtPointee (TableOf (decay false t'))) else NoViable) = Made p t)
            by (destruct t'; done). clear H. destruct c; [done|]. cbn in H'. destruct (exist_for E false t' ms) eqn:Q; [|done].
          destruct (is_fun t') eqn:F; [done|]. injection H' as <- <-.
          apply as_pointer_spec in P; [|by intros n ->]. eapply from_pointer; [done|done|done| |by apply decay_spec|by apply exist_for_spec].
          destruct t'; try done. destruct Hk as [->|[_ ->]]; [by left|by right].
      - destruct x as [t' c lv]. cbn in V. subst t'. rewrite view_copy_init in H. destruct (view_ok KPtr k' ms from) eqn:V; [|done].
        injection H as <- <-. apply view_ok_spec in V as [V1 V2]. destruct Hk as [->|[-> _]]; eapply from_view; try done. by destruct k'.
      - by rewrite other_copy_init in H. }
    destruct k; try done; [rewrite init_ptr in H; apply HP; [done|by left]|].
    rewrite init_cptr in H. destruct (convertible E KCPtr ms x) eqn:C; [clear C HP|destruct direct; [apply HP; [done|by right]|done]].
    destruct (ptr_cases x) as [N|[(c & t' & P)|[(k' & from & V)|(N1 & N2 & N3)]]].
    - rewrite null_copy_init in H by done. injection H as <- <-. by apply from_null.
    - rewrite (cptr_copy_init _ _ _ _ P) in H. destruct t'; cbn in H; try done.
      all: try (destruct (exist_for E false _ ms) eqn:Q; [|done]; injection H as <- <-; apply as_pointer_spec in P; [|done];
        eapply from_pointer; [done|done|done|done|by apply decay_spec|exact (proj1 (exist_for_spec E false _ ms) Q)]).
      + destruct (exist_for E false _ ms); done.
      + destruct (narrower ms0 ms) eqn:Q1; [|done]. destruct (narrower ms ms0) eqn:Q2; [|done]. injection H as <- <-.
        apply as_pointer_spec in P; [|done]. apply narrower_spec in Q1, Q2. eapply from_any; [done|done|done|done|]. right. left. by apply contiguous_antisym.
    - destruct x as [t' c lv]. cbn in V. subst t'. rewrite view_copy_init in H. destruct (view_ok KCPtr k' ms from) eqn:V; [|done].
      injection H as <- <-. apply view_ok_spec in V as [V1 V2]. by eapply from_view.
    - by rewrite other_copy_init in H.
  Qed.
  Lemma ptr_complete direct k ms x p t : reference k = false -> made_from E direct k ms x p t -> init E direct k ms x = Made p t.
  Proof.
    intros Hr Hm. revert Hr. destruct Hm as [k' ms' x' d H1|k' ms' x' c t' d _ HP HM HT HD HA|k' ms' x' c n any_ms _ HP HM HC HK|k' ms' x' _ HN|k' ms' x' k'' from HT HV HP]; intros Hr; try congruence.
    - apply decay_spec in HD as <-. assert (Hf : forall n, t' <> TFun n) by (intros n ->; done). assert (F : is_fun t' = false) by (destruct t'; done).
      apply (as_pointer_spec _ _ _ Hf) in HP. apply (proj2 (exist_for_spec _ _ _ _)) in HA.
      destruct k'; try done.
      + rewrite init_ptr, (ptr_copy_init _ _ _ _ HP). rewrite (HM eq_refl). unfold ptr_result. destruct t'; try done; by rewrite HA.
      + rewrite init_cptr. unfold convertible. rewrite (cptr_copy_init _ _ _ _ HP). unfold cptr_result.
        destruct t'; try done; rewrite ?HA; try done. destruct HT as [|[-> ->]]; [done|]. rewrite (ptr_copy_init _ _ _ _ HP). cbn. by rewrite HA.
    - apply as_pointer_spec in HP; [|done]. pose proof (proj2 (narrower_spec _ _) HC) as Q. destruct k'; try done.
      + rewrite init_ptr, (ptr_copy_init _ _ _ _ HP). rewrite (HM eq_refl). cbn. by rewrite Q.
      + rewrite init_cptr. unfold convertible. rewrite (cptr_copy_init _ _ _ _ HP). cbn [cptr_result]. rewrite Q.
        destruct (narrower any_ms ms') eqn:Q2; [done|]. destruct HK as [|[->|[-> ->]]]; [done| |].
        * by rewrite narrower_refl in Q2.
        * rewrite (ptr_copy_init _ _ _ _ HP). cbn. by rewrite Q.
    - destruct k'; try done; [by rewrite init_ptr, null_copy_init|]. rewrite init_cptr. unfold convertible. by rewrite null_copy_init.
    - destruct x' as [t' c lv]. cbn in HT. subst t'. assert (V : view_ok k' k'' ms' from = true) by by apply view_ok_spec.
      destruct k'; try done; [by rewrite init_ptr, view_copy_init, V|]. by rewrite init_cptr, view_convertible, view_copy_init, V.
  Qed.
  Lemma made_iff direct k ms x p t : init E direct k ms x = Made p t <-> made_from E direct k ms x p t.
  Proof.
    destruct (reference k) eqn:R; [by apply ref_iff|]. split; [by apply ptr_sound|by apply ptr_complete].
  Qed.

  Lemma init_cases direct k ms x :
    init E direct k ms x = copy_init E k ms x \/ k = KCPtr /\ direct = true /\ convertible E KCPtr ms x = false /\ init E direct k ms x = copy_init E KPtr ms x.
  Proof.
    destruct (reference k) eqn:R; [left; by apply init_ref|]. destruct k; try done; [left; apply init_ptr|]. rewrite init_cptr.
    destruct (convertible E KCPtr ms x) eqn:C; [by left|]. destruct direct; [by right|]. left. by rewrite not_convertible.
  Qed.
  Lemma copy_not_ambiguous k ms x : copy_init E k ms x <> Ambiguous.
  Proof.
    destruct (reference k) eqn:R.
    - destruct (is_polymorphic (a_ty x)) eqn:P; [|rewrite object_copy_init by done; by destruct (obj_ok k x ms), (is_fun (a_ty x))].
      destruct x as [t' c lv]; destruct t'; try done; [by rewrite any_ref_copy_init|]. rewrite view_copy_init. by destruct (view_ok _ _ _ _).
    - destruct (ptr_cases x) as [N|[(c & t' & P)|[(k' & from & V)|(N1 & N2 & N3)]]].
      + by rewrite null_copy_init.
      + destruct k; try done; [rewrite (ptr_copy_init _ _ _ _ P)|rewrite (cptr_copy_init _ _ _ _ P)]; unfold ptr_result, cptr_result; destruct t';
          repeat match goal with |- context [if ?b then _ else _] => destruct b end; done.
      + destruct x as [t' c lv]. cbn in V. subst t'. rewrite view_copy_init. by destruct (view_ok _ _ _ _).
      + by rewrite other_copy_init.
  Qed.
  Lemma never_ambiguous direct k ms x : init E direct k ms x <> Ambiguous.
  Proof. destruct (init_cases direct k ms x) as [->|(_ & _ & _ & ->)]; apply copy_not_ambiguous. Qed.

  Lemma as_function_pointer x c n : as_pointer x = Some (c, TFun n) <-> points_to_function x c n.
  Proof. unfold as_pointer, points_to_function, points_to. destruct x as [t' c' lv]; destruct t'; cbn; naive_solver. Qed.
  Lemma ptr_hard ms x : copy_init E KPtr ms x = HardError <-> exists n, points_to_function x false n /\ has_all E ms (TPtr false (TFun n)).
  Proof.
    split.
    - intros H. destruct (ptr_cases x) as [N|[(c & t' & P)|[(k' & from & V)|(N1 & N2 & N3)]]].
      + by rewrite null_copy_init in H.
      + rewrite (ptr_copy_init _ _ _ _ P) in H. unfold ptr_result in H.
        destruct t'; repeat match type of H with context [if ?b then _ else _] => destruct b eqn:? end; try done.
        apply as_function_pointer in P. exists n. destruct c; [done|]. split; [done|].
        exact (proj1 (exist_for_spec E false _ ms) Heqb).
      + destruct x as [t' c lv]. cbn in V. subst t'. rewrite view_copy_init in H. by destruct (view_ok _ _ _ _).
      + by rewrite other_copy_init in H.
    - intros (n & P & A). apply as_function_pointer in P. rewrite (ptr_copy_init _ _ _ _ P). unfold ptr_result. cbn.
      by rewrite (proj2 (exist_for_spec E false (TFun n) ms) A).
  Qed.
  Lemma cptr_hard ms x : copy_init E KCPtr ms x = HardError <->
    (exists c n, points_to_function x c n /\ has_all E ms (TPtr false (TFun n))) \/
    (exists c n any_ms, points_to x c (TAny n any_ms) /\ contiguous any_ms ms /\ any_ms <> ms).
  Proof.
    split.
    - intros H. destruct (ptr_cases x) as [N|[(c & t' & P)|[(k' & from & V)|(N1 & N2 & N3)]]].
      + by rewrite null_copy_init in H.
      + rewrite (cptr_copy_init _ _ _ _ P) in H. unfold cptr_result in H.
        destruct t'; repeat match type of H with context [if ?b then _ else _] => destruct b eqn:? end; try done.
        * apply as_function_pointer in P. left. exists c, n. split; [done|]. exact (proj1 (exist_for_spec E false _ ms) Heqb).
        * apply as_pointer_spec in P; [|done]. right. exists c, n, ms0. split; [done|]. split; [by apply narrower_spec|]. intros ->. by rewrite narrower_refl in Heqb0.
      + destruct x as [t' c lv]. cbn in V. subst t'. rewrite view_copy_init in H. by destruct (view_ok _ _ _ _).
      + by rewrite other_copy_init in H.
    - intros [(c & n & P & A)|(c & n & any_ms & P & H1 & H2)].
      + apply as_function_pointer in P. rewrite (cptr_copy_init _ _ _ _ P). unfold cptr_result. cbn [is_fun].
        by rewrite (proj2 (exist_for_spec E false (TFun n) ms) A).
      + apply as_pointer_spec in P; [|done]. rewrite (cptr_copy_init _ _ _ _ P). unfold cptr_result. rewrite (proj2 (narrower_spec _ _) H1).
        destruct (narrower ms any_ms) eqn:Q; [|done]. apply narrower_spec in Q. destruct H2. by apply contiguous_antisym.
  Qed.
  Lemma ref_hard k ms x : reference k = true -> copy_init E k ms x = HardError <->
    exists n, a_ty x = TFun n /\ (mutable k = true -> a_const x = false) /\ has_all E ms (TPtr false (TFun n)).
  Proof.
    intros R. split.
    - intros H. destruct (is_polymorphic (a_ty x)) eqn:P.
      + destruct x as [t' c lv]; destruct t'; try done; [by rewrite any_ref_copy_init in H|].
        rewrite view_copy_init in H. by destruct (view_ok _ _ _ _).
      + rewrite object_copy_init in H by done. destruct (obj_ok k x ms) eqn:O; [|done]. destruct (is_fun (a_ty x)) eqn:F; [|done].
        destruct x as [t' c lv]; cbn in *. destruct t'; try done. exists n. split; [done|]. unfold obj_ok in O. cbn in O.
        rewrite !andb_true_iff in O. destruct O as ((O1 & _) & O3). split; [|exact (proj1 (exist_for_spec E false _ ms) O3)].
        intros M. rewrite M in O1. by destruct c.
    - intros (n & T & M & A). rewrite object_copy_init by (try done; by rewrite T). rewrite T. cbn.
      enough (obj_ok k x ms = true) as -> by done. unfold obj_ok. rewrite T. cbn. rewrite orb_true_r, (proj2 (exist_for_spec E false (TFun n) ms) A).
      destruct (mutable k); [|done]. by rewrite M.
  Qed.
  Lemma hard_iff direct k ms x : init E direct k ms x = HardError <-> doomed E direct k ms x.
  Proof.
    destruct (reference k) eqn:R.
    - rewrite init_ref, ref_hard by done. split; [intros (n & T & M & A); by eapply doomed_function|].
      intros H. revert R. destruct H; intros R; try congruence; [naive_solver|done].
    - destruct k; try done.
      + rewrite init_ptr, ptr_hard. split; [intros (n & P & A); by eapply doomed_function_pointer|].
        intros H. remember KPtr as k eqn:K. destruct H; try (by subst); subst k. exists n. by rewrite H1 in H0.
      + assert (Hd : doomed E direct KCPtr ms x <-> copy_init E KCPtr ms x = HardError).
        { rewrite cptr_hard. split.
          - intros H. remember KCPtr as k eqn:K. destruct H; [by subst|left; eauto|right; eauto 6].
          - intros [(c & n & P & A)|(c & n & any_ms & P & H1 & H2)]; [by eapply doomed_function_pointer|by eapply doomed_wider]. }
        rewrite Hd, init_cptr. unfold convertible. destruct (copy_init E KCPtr ms x) eqn:C; try done. destruct direct; [|done]. split; [|done]. intros H.
        apply ptr_hard in H as (n & P & A). exfalso. enough (copy_init E KCPtr ms x = HardError) by congruence. apply cptr_hard. left. eauto.
  Qed.

  (** ** Consequences *)
  Lemma const_kept direct k ms x p t : mutable k = true -> init E direct k ms x = Made p t -> gives_access p x.
  Proof.
    intros M H. apply made_iff in H. revert M. destruct H as [k ms x d ? ? Ha|k ms x c t d ? P Ha|k ms x c n any_ms ? P Ha|k ms x|k ms x k' from V F]; intros M; cbn.
    - by apply Ha.
    - exists t. by rewrite <-(Ha M).
    - exists (TAny n any_ms). by rewrite <-(Ha M).
    - done.
    - exists k', from. split; [done|]. by destruct k, k'.
  Qed.
  Lemma const_from_all direct k ms x p t : (reference k = true \/ direct = true) ->
    init E direct k ms x = Made p t -> init E direct (const_kind k) ms x = Made p t.
  Proof.
    intros R H. apply made_iff in H. apply made_iff. revert R.
    destruct H as [k ms x d ? ? Ha|k ms x c t d ? P Ha|k ms x c n any_ms ? P Ha ? W|k ms x|k ms x k' from V F Q]; intros R.
    - apply from_object; try done; by destruct k.
    - assert (direct = true) as -> by (destruct R; congruence). eapply from_pointer; try done; try (by destruct k). destruct t; try done.
      destruct k; try done; cbn; right; split; try done; by apply Ha.
    - eapply from_any; try done; try (by destruct k). assert (direct = true) as -> by (destruct R; congruence).
      destruct k; try done. right. right. split; [done|]. by apply Ha.
    - apply from_null; by destruct k.
    - eapply from_view; [done|by destruct k, k'|by destruct k].
  Qed.

  Lemma points_to_unique x c c' t t' : points_to x c t -> points_to x c' t' -> t = t' /\ c = c'.
  Proof. unfold points_to. naive_solver congruence. Qed.
  Lemma table_object direct k ms x p d : init E direct k ms x = Made p (TableOf d) -> exists t, object_type p x t /\ decayed false t d.
  Proof. intros H. apply made_iff in H. remember (TableOf d) as td eqn:D. destruct H; try done; injection D as ->; cbn; eauto. Qed.
  Lemma object_type_unique p x t t' : object_type p x t -> object_type p x t' -> t = t'.
  Proof. destruct p; cbn; try done; [congruence|]. intros (c & H) (c' & H'). by destruct (points_to_unique x c c' t t'). Qed.
  Lemma table_of_object direct k ms x p d t : init E direct k ms x = Made p (TableOf d) -> object_type p x t -> (forall u n, t <> TArr u n) -> d = t.
  Proof.
    intros H O N. destruct (made_iff direct k ms x p (TableOf d)) as [F _]. pose proof (F H) as M. clear F.
    destruct (table_object _ _ _ _ _ _ H) as (t' & O' & D). assert (t' = t) as -> by by eapply object_type_unique.
    destruct D as [c u n|c n|]; [by destruct (N u n)| |done].
    exfalso. clear N O' H. remember (TableOf _) as td eqn:TD.
    destruct M as [k ms x d _ P|k ms x c' t d _ P _ T|k ms x c' n' any_ms|k ms x|k ms x k' from]; try done; cbn in O.
    - by rewrite O in P.
    - destruct O as (c'' & O). destruct (points_to_unique _ _ _ _ _ O P) as [<- _]. done.
  Qed.
  Lemma table_of_array direct k ms x p d u n : init E direct k ms x = Made p (TableOf d) -> object_type p x (TArr u n) -> d = TPtr false u.
  Proof.
    intros H O. destruct (table_object _ _ _ _ _ _ H) as (t' & O' & D). assert (t' = TArr u n) as -> by by eapply object_type_unique.
    apply decay_spec in D. by rewrite <-D.
  Qed.
  Lemma no_functions direct k ms x p t : reference k = true -> function x -> init E direct k ms x <> Made p t.
  Proof.
    intros R (n & T) H. apply made_iff in H. revert R T. destruct H; intros R T; try congruence. by rewrite T in H0.
  Qed.
  Lemma no_function_pointers direct k ms x c n p t : reference k = false -> points_to_function x c n -> init E direct k ms x <> Made p t.
  Proof.
    intros R P H. apply made_iff in H. revert R P. destruct H; intros R P; try congruence; unfold points_to_function in P.
    - destruct P as [P|[P _]]; [by destruct (points_to_unique _ _ _ _ _ P H0) as [<- _]|]. unfold points_to in H0. naive_solver congruence.
    - destruct P as [P|[P _]]; [by destruct (points_to_unique _ _ _ _ _ P H0) as [? _]|]. unfold points_to in H0. naive_solver congruence.
    - unfold points_to in P. naive_solver congruence.
    - unfold points_to in P. naive_solver congruence.
  Qed.

  (** ** Deduction *)
  Lemma deduce_view k k' from c lv : deduce E k (Arg (TView k' from) c lv) = if view_from k k' then Some from else None.
  Proof. destruct k, k', c, lv; reflexivity. Qed.
  Lemma deduced_view k k' from c lv ms r :
    deduced_init E k (Arg (TView k' from) c lv) = Some (ms, r) <-> view_from k k' = true /\ ms = from /\ r = Made AtSame TableOfSource.
  Proof.
    unfold deduced_init. rewrite deduce_view. destruct (view_from k k') eqn:V; [|naive_solver].
    rewrite view_copy_init. enough (view_ok k k' from from = true) as -> by naive_solver.
    apply view_ok_spec. split; [done|]. destruct k; cbn; try apply contiguous_refl; by intros ?.
  Qed.
  Lemma deduce_object k x : reference k = true -> is_polymorphic (a_ty x) = false -> is_void (a_ty x) = false ->
    deduce E k x = if mutable k && negb (negb (a_const x) && (a_lvalue x || is_fun (a_ty x))) then None else Some [].
  Proof.
    intros R P V. destruct x as [t c lv]; destruct t; try done; destruct k; try done; destruct c, lv; reflexivity.
  Qed.
  Lemma deduce_in k x ms : deduce E k x = Some ms -> exists g i, deduces E k x g = Some (ms, i).
  Proof.
    unfold deduce. set (v := omap _ (guides k)). intros H.
    destruct (List.filter _ v) as [|[g [ms' i]] [|]] eqn:F; try done. injection H as ->.
    assert (In (g, (ms, i)) v) as I by (eapply (proj1 (filter_In _ _ _)); rewrite F; by left).
    apply elem_of_list_In, elem_of_list_omap in I as (g' & _ & I). destruct (deduces E k x g') as [[ms' i']|] eqn:D; [|done].
    cbn in I. injection I as -> -> ->. eauto.
  Qed.
  Lemma deduce_nothing_else k x ms : deduce E k x = Some ms -> (exists k', a_ty x = TView k' ms) \/ ms = [].
  Proof.
    intros H. apply deduce_in in H as (g & i & H).
    assert (Hv : forall k' j, match a_ty x with TView k'' ms => if kind_eqb k' k'' then Some (ms, j) else None | _ => None end = Some (ms, i) ->
      exists k', a_ty x = TView k' ms).
    { intros k' j Hj. destruct (a_ty x); try done. destruct (kind_eqb k' k0); [|done]. injection Hj as -> _. eauto. }
    assert (Hb : forall c, option_map (pair []) (bind E k [] c x) = Some (ms, i) -> ms = []).
    { intros c Hc. destruct (bind E k [] c x); [|done]. cbn in Hc. congruence. }
    destruct g as [c| |k']; [destruct c|..]; cbn [deduces] in H;
      first [right; by eapply Hb | left; by eapply Hv | idtac].
    - destruct (bind_self true x); [left; by eapply Hv|done].
    - destruct (a_ty x); try done. destruct (kind_eqb k0 k1); [|done]. right. congruence.
  Qed.
  Lemma narrower_nil ms : narrower [] ms = true.
  Proof. apply narrower_spec, contiguous_nil. Qed.
  Lemma narrower_to_nil ms : narrower ms [] = match ms with [] => true | _ => false end.
  Proof.
    destruct ms as [|m ms]; [apply narrower_nil|]. destruct (narrower (m :: ms) []) eqn:N; [|done].
    apply narrower_spec, contiguous_length in N. cbn in N. lia.
  Qed.
  Lemma deduce_any_pointer k x c n any_ms : reference k = false -> points_to x c (TAny n any_ms) ->
    deduce E k x = if mutable k then (if c then None else Some []) else (match any_ms with [] => Some [] | _ => None end).
  Proof.
    intros R P. destruct x as [t' c' lv]; unfold points_to in P; cbn in P.
    assert (Q := narrower_nil any_ms). assert (Q' := narrower_to_nil any_ms).
    destruct P as [->|(m & -> & ->)]; destruct k; try done; destruct c, lv; try destruct c'; destruct any_ms;
      lazy -[narrower all_in exist_for same_list]; rewrite ?Q, ?Q'; lazy -[narrower all_in exist_for same_list]; reflexivity.
  Qed.
End Proofs.
