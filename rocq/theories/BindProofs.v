(** Proofs about structured bindings. *)
From stdpp Require Import list list_numbers.
From Verif Require Import FieldsModel FieldsSpec FieldsProofs BindModel BindSpec BindExamples.

Lemma tie_lookup ts c I : tie ts c !! I = (fun X => (BField X c, I)) <$> ts !! I.
Proof. unfold tie. rewrite list_lookup_imap. by destruct (ts !! I). Qed.
Lemma tuple_size_ok ts b : tuple_size_of ts b = length ts.
Proof. destruct b; cbn; [done|]. unfold tie. apply imap_length. Qed.
Lemma bind_one ts b I X : ts !! I = Some X ->
  match tuple_element_of ts b I, get_of ts b I with
  | Some t, Some (t', i) => if bool_decide (t = t') then Some (t, i) else None
  | _, _ => None
  end = Some (match b with BVec c => BSpan X c | BRef c => BField X c end, I).
Proof.
  intros HX. destruct b as [c|c]; cbn [tuple_element_of get_of].
  - assert (tuple_get ts c I = Some (Span I X c)) as -> by (apply tuple_get_spec; exists X; done).
    rewrite HX. cbn. by rewrite bool_decide_eq_true_2.
  - rewrite !tie_lookup, HX. cbn. by rewrite bool_decide_eq_true_2.
Qed.
Lemma binding_some T Alloc ts b : 0 < length ts -> get_found T Alloc b = true -> structured_binding T Alloc ts b (length ts) = Some (imap (fun I X => (match b with BVec c => BSpan X c | BRef c => BField X c end, I)) ts).
Proof.
  intros H0 Hg. unfold structured_binding. rewrite tuple_size_ok, Nat.eqb_refl, Hg. apply Nat.ltb_lt in H0. rewrite H0. cbn [andb]. apply mapM_Some. apply Forall2_same_length_lookup_2; [by rewrite seq_length, imap_length|].
  intros i I y HI Hy. apply lookup_seq in HI as [-> HI]. rewrite list_lookup_imap in Hy. destruct (ts !! i) as [X|] eqn:E; [|done]. injection Hy as <-. by apply (bind_one ts b i X).
Qed.
Lemma associated_has n t : n ∈ associated t <-> has_namespace n t.
Proof.
  revert t. fix IH 1. intros [|own args]; cbn; [by rewrite elem_of_nil|]. rewrite elem_of_app. assert ((n ∈ (fix all l := match l with [] => [] | a :: tl => associated a ++ all tl end) args) <->
    (fix any l := match l with [] => False | a :: tl => has_namespace n a \/ any tl end) args) as ->; [|done].
  induction args as [|a tl IHt]; [by rewrite elem_of_nil|]. rewrite elem_of_app, (IH a), IHt. done.
Qed.
Lemma found_iff T Alloc b : get_found T Alloc b = true <-> match b with BVec _ => has_namespace NsStd T \/ has_namespace NsStd Alloc | BRef _ => True end.
Proof.
  destruct b; cbn [get_found]; [|done]. rewrite bool_decide_eq_true. rewrite associated_has. unfold vector_class. cbn.
  rewrite !elem_of_cons, elem_of_nil. split; [intros [H|[H|[H|[]]]]|]; [destruct H as [H|[H|[]]]; discriminate H|by left|by right|]. intros [H|H]; right; [by left|right; by left].
Qed.
Theorem binding_iff T Alloc ts b n l : structured_binding T Alloc ts b n = Some l <->
  match b with BVec _ => has_namespace NsStd T \/ has_namespace NsStd Alloc | BRef _ => True end /\
  0 < n /\ n = length ts /\ length l = n /\ forall I X, ts !! I = Some X -> l !! I = Some (match b with BVec c => BSpan X c | BRef c => BField X c end, I).
Proof.
  split.
  - intros H. assert (0 < n /\ n = length ts /\ get_found T Alloc b = true) as (H0 & -> & Hg).
    { unfold structured_binding in H. rewrite tuple_size_ok in H. destruct ((0 <? n) && (n =? length ts) && get_found T Alloc b) eqn:E; [|done].
      apply andb_true_iff in E as [E E3]. apply andb_true_iff in E as [E1 E2]. split; [by apply Nat.ltb_lt|]. split; [by apply Nat.eqb_eq|done]. }
    rewrite binding_some in H by done. injection H as <-. split; [by apply found_iff|]. split; [done|]. split; [done|]. split; [apply imap_length|]. intros I X HX. rewrite list_lookup_imap, HX. done.
  - intros (Hg & H0 & -> & Hl & H). apply found_iff in Hg. rewrite binding_some by done. f_equal. apply list_eq. intros I. rewrite list_lookup_imap. destruct (ts !! I) as [X|] eqn:E; [by rewrite (H I X E)|].
    apply lookup_ge_None in E. symmetry. apply lookup_ge_None. lia.
Qed.
Theorem pmr_not_bound : exists T Alloc ts, 0 < length ts /\ (forall c n, structured_binding T Alloc ts (BVec c) n = None) /\
  (forall c, is_Some (structured_binding T (std_allocator T) ts (BVec c) (length ts))) /\ (forall c, is_Some (structured_binding T Alloc ts (BRef c) (length ts))).
Proof.
  exists user_struct, (pmr_allocator user_struct), [TyOther 0; TyBool]. split; [cbn; lia|]. split; [|split].
  - intros c n. unfold structured_binding. assert (get_found user_struct (pmr_allocator user_struct) (BVec c) = false) as -> by reflexivity. by rewrite andb_false_r.
  - intros c. rewrite binding_some; [by eexists|cbn; lia|reflexivity].
  - intros c. rewrite binding_some; [by eexists|cbn; lia|reflexivity].
Qed.
