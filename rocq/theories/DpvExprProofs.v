(** Proofs about expressions on data_parallel_vectors. *)
From Coq Require Import ZArith.
From stdpp Require Import gmap list.
From Verif Require Import AnyModel DpvModel DpvIterModel DpvSpec DpvProofs DpvLawProofs DpvExprModel DpvExprSpec.

(** ** Compile time *)
Ltac split_dty H := repeat match type of H with context [match ?d with _ => _ end] => let E := fresh "T" in destruct d eqn:E; try discriminate end.
Theorem dty_vty N e t : dty N e = Some t -> vty N e = Some t.
Proof.
  revert t. induction e; intros t H; cbn [dty vty] in *; unfold row_ok in *; split_dty H; repeat match goal with IH : forall t, _ -> _ |- _ => rewrite (IH _ eq_refl) || clear IH end; try done; congruence.
Qed.
Theorem supported_dty N e t : vty N e = Some t -> supported N e = true -> dty N e = Some t.
Proof.
  revert t. induction e; intros t H Hs; cbn [dty vty supported] in *; unfold row_ok in *; repeat (apply andb_prop in Hs as [Hs ?]); split_dty H;
    repeat match goal with IH : forall t, _ -> _ -> _ |- _ => rewrite (IH _ eq_refl) by done || clear IH end; try done; try congruence;
    repeat match goal with c : bool |- _ => destruct c end; cbn in *; congruence.
Qed.
Theorem dty_supported N e t : dty N e = Some t -> supported N e = true.
Proof.
  revert t. induction e; intros t H; cbn [dty supported] in *; split_dty H; repeat match goal with IH : forall t, _ -> _ |- _ => pose proof (IH _ eq_refl); clear IH end;
    repeat match goal with T : dty N _ = Some _ |- _ => apply dty_vty in T; rewrite ?T end; rewrite ?andb_true_iff; repeat split; try done;
    repeat match goal with c : bool |- _ => destruct c end; cbn in *; congruence.
Qed.

(** ** What is named as const stays *)
Definition owner_of (a : xval) : option nat := match a with XVec x | XIter x _ | XRef x _ | XField x _ _ => Some x | _ => None end.
Definition mutable (t : ety) : bool := match t with TVec c | TIter c | TRef c | TField c _ => negb c | _ => false end.
Lemma copy_cells_frame x i y j cols : forall w t w' r t', copy_cells x i y j cols w t = WOk w' r t' -> forall z, z <> x -> w' !! z = w !! z.
Proof.
  induction cols as [|k tl IH]; intros w t w' r t' H z Hz; cbn in H; [by simplify_eq|]. destruct (tick_next t); [|done]. destruct (get_cell y j k w); [|done].
  rewrite (IH _ _ _ _ _ H z Hz). unfold set_cell. by apply lookup_alter_ne.
Qed.
Lemma swap_cells_frame x i y j cols : forall w t w' r t', swap_cells x i y j cols w t = WOk w' r t' -> forall z, z <> x -> z <> y -> w' !! z = w !! z.
Proof.
  induction cols as [|k tl IH]; intros w t w' r t' H z Hz Hy; cbn in H; [by simplify_eq|]. destruct (tick_next t); [|done]. destruct (get_cell x i k w); [|done]. destruct (get_cell y j k w); [|done].
  rewrite (IH _ _ _ _ _ H z Hz Hy). unfold set_cell. rewrite !lookup_alter_ne by done. done.
Qed.
Lemma member_frame {A} x (m : dM A) ret w t w' r t' : member x m ret w t = WOk w' r t' -> forall z, z <> x -> w' !! z = w !! z.
Proof. unfold member. intros H z Hz. destruct (w !! x) as [c|]; [|done]. destruct (m c t); simplify_eq. by apply lookup_insert_ne. Qed.

Section Frame.
  Context (N : nat) (mf : nat -> nat) (ndebug : bool) (cmp : nat -> nat -> nat -> option comparison).
  Notation dev := (dev N mf ndebug cmp).
  Lemma ev1_inv m k w a w' : ev1 m k w = Some (a, w') -> exists b w1, m w = Some (b, w1) /\ k b w1 = Some (a, w').
  Proof. unfold ev1. destruct (m w) as [[b w1]|]; [eauto|done]. Qed.
  Lemma ev2_inv m n k w a w' : ev2 m n k w = Some (a, w') -> exists b w1 c w2, m w = Some (b, w1) /\ n w1 = Some (c, w2) /\ k b c w2 = Some (a, w').
  Proof. unfold ev2. intros H. apply ev1_inv in H as (b & w1 & H1 & H). apply ev1_inv in H as (c & w2 & H2 & H). eauto 8. Qed.
  Lemma after_inv w a r b w' : after w a r = Some (b, w') -> a = b /\ exists o t, r = WOk w' o t.
  Proof. unfold after. destruct r; [|done..]. intros [= -> ->]. eauto. Qed.
  Lemma x_ref_inv x it w a w' : x_ref x it w = Some (a, w') -> w' = w /\ owner_of a = Some x.
  Proof. unfold x_ref. destruct (look x _ w); [|done]. by intros [= <- <-]. Qed.

  Definition kept (s : gset nat) (w w' : dworld) : Prop := forall x, x ∉ s -> w' !! x = w !! x.
  Definition owned (s : gset nat) (t : ety) (a : xval) : Prop := mutable t = true -> forall x, owner_of a = Some x -> x ∈ s.
  Lemma kept_trans s1 s2 w w1 w2 : kept s1 w w1 -> kept s2 w1 w2 -> kept (s1 ∪ s2) w w2.
  Proof. intros H1 H2 z Hz. rewrite (H2 z), (H1 z) by set_solver. done. Qed.
  Lemma kept_more s w w1 w2 : kept s w w1 -> kept s w1 w2 -> kept s w w2.
  Proof. intros H1 H2 z Hz. rewrite (H2 z), (H1 z) by done. done. Qed.
  Ltac one e IHe He H Hk Ho E := apply ev1_inv in H as (v1 & w1 & He & H); destruct (dty N e) as [?|] eqn:E; [|discriminate]; destruct (IHe _ _ _ _ eq_refl He) as [Hk Ho]; clear IHe.
  Ltac types Ht := repeat match type of Ht with
    | Some _ = Some _ => injection Ht as <-
    | None = Some _ => discriminate
    | context [match ?d with _ => _ end] => destruct d eqn:?; try discriminate
    end.
  Ltac crush H := repeat match type of H with
    | Some _ = Some _ => injection H as <- <-
    | None = Some _ => discriminate
    | x_ref _ _ _ = _ => apply x_ref_inv in H as [-> H]
    | after _ _ _ = _ => apply after_inv in H as [<- (? & ? & H)]
    | context [match ?d with _ => _ end] => destruct d eqn:?; try discriminate
    end.
  Ltac own H Ho := let Hm := fresh in let Hz := fresh in intros Hm ? Hz; cbn in *; first [done | rewrite Hz in H; injection H as <-; by apply (Ho Hm) | by apply (Ho Hm) | injection Hz as <-; by apply (Ho Hm)].
  Ltac quiet e IHe Ht H := let He := fresh in let Hk := fresh in let Ho := fresh in let E := fresh in one e IHe He H Hk Ho E; types Ht; crush H; (split; [exact Hk|own H Ho]).
  Ltac two e1 e2 IHe1 IHe2 Ht H Hk Ho1 Ho2 := let He1 := fresh in let He2 := fresh in let T1 := fresh in let T2 := fresh in let Hk1 := fresh in let Hk2 := fresh in apply ev2_inv in H as (v1 & w1 & v2 & w2 & He1 & He2 & H); destruct (dty N e1) as [?|] eqn:T1; [|discriminate];
    destruct (IHe1 _ _ _ _ eq_refl He1) as [Hk1 Ho1]; destruct (dty N e2) as [?|] eqn:T2; [|types Ht]; destruct (IHe2 _ _ _ _ eq_refl He2) as [Hk2 Ho2];
    pose proof (kept_trans _ _ _ _ _ Hk1 Hk2) as Hk.
  Theorem frame e : forall t w a w', dty N e = Some t -> dev e w = Some (a, w') -> kept (open_vecs e) w w' /\ owned (open_vecs e) t a.
  Proof.
    induction e; intros t w a w' Ht H; cbn [dty DpvExprModel.dev open_vecs] in *.
    1: { injection Ht as <-. injection H as <- <-. split; [done|]. destruct c; [done|]. cbn. intros _ y [= <-]. set_solver. }
    1: { destruct (dty N e) as [t0|] eqn:E; [|done]. destruct (IHe _ _ _ _ eq_refl H) as [Hk _]. split; [done|]. types Ht; done. }
    all: try (lazymatch goal with e : expr |- _ => quiet e IHe Ht H end).
    all: try (two e1 e2 IHe1 IHe2 Ht H Hk Ho1 Ho2; types Ht; crush H; (split; [exact Hk|own H Ho2])).
    - two e1 e2 IHe1 IHe2 Ht H Hk Ho1 Ho2; types Ht; unfold same_owner in H; crush H; (split; [exact Hk|done]).
    - two e1 e2 IHe1 IHe2 Ht H Hk Ho1 Ho2; types Ht; unfold same_owner in H; crush H; (split; [exact Hk|done]).
    - one e IHe He H Hk Ho E; types Ht. destruct v1; try done. destruct (get_cell x i j0 w1); [|done]. injection H as <- <-.
      assert (Hx : x ∈ open_vecs e) by (by apply Ho). split; [|own H Ho]. eapply kept_more; [done|]. intros z Hz. unfold set_cell. apply lookup_alter_ne. set_solver.
    - one e IHe He H Hk Ho E; types Ht. destruct v1; try done. apply after_inv in H as [<- (? & ? & H)].
      assert (Hx : x ∈ open_vecs e) by (by apply Ho). split; [|own H Ho]. eapply kept_more; [done|]. intros z Hz. eapply member_frame; [done|]. set_solver.
    - two e1 e2 IHe1 IHe2 Ht H Hk Ho1 Ho2; types Ht. all: destruct v1; try done; destruct v2; try done.
      all: assert (Hx : x ∈ open_vecs e1) by (by apply Ho1). all: assert (Hkk : forall w'', (forall z, z <> x -> w'' !! z = w2 !! z) -> kept (open_vecs e1 ∪ open_vecs e2) w w'') by (intros w'' Hw; eapply kept_more; [done|]; intros z Hz; apply Hw; set_solver).
      match type of H with context [match ?c with true => _ | false => _ end] => destruct c end.
      + destruct (x_row _ _ _); [|done]. apply after_inv in H as [<- (? & ? & H)]. split; [apply Hkk; by eapply member_frame|]. intros _ z [= <-]. set_solver.
      + apply after_inv in H as [<- (? & ? & H)]. split; [apply Hkk; by eapply copy_cells_frame|]. intros _ z [= <-]. set_solver.
    - two e1 e2 IHe1 IHe2 Ht H Hk Ho1 Ho2; types Ht. destruct v1; try done; destruct v2; try done. apply after_inv in H as [<- (? & ? & H)].
      assert (Hx : x ∈ open_vecs e1) by (by apply Ho1). assert (Hy : x0 ∈ open_vecs e2) by (by apply Ho2). split; [|done]. eapply kept_more; [done|]. intros z Hz. eapply swap_cells_frame; [done|set_solver..].
    - one e IHe He H Hk Ho E; types Ht. destruct v1; try done. destruct c.
      + apply ev1_inv in H as (b & w3 & Hr & H). apply x_ref_inv in Hr as [-> _]. destruct b; try done. destruct (x_row _ _ _); [|done]. injection H as <- <-. by split.
      + destruct (w1 !! x); [|done]. destruct (d_take _ _ _ _); try done. injection H as <- <-. assert (Hx : x ∈ open_vecs e) by (by apply Ho). split; [|done]. eapply kept_more; [done|]. intros z Hz. apply lookup_insert_ne. set_solver.
    - two e1 e2 IHe1 IHe2 Ht H Hk Ho1 Ho2; types Ht. destruct v1; try done; destruct v2; try done. apply after_inv in H as [<- (? & ? & H)].
      assert (Hx : x ∈ open_vecs e1) by (by apply Ho1). assert (Hy : x0 ∈ open_vecs e2) by (by apply Ho2). split; [|done]. eapply kept_more; [done|]. intros z Hz. eapply swap_cells_frame; [done|set_solver..].
    - two e1 e2 IHe1 IHe2 Ht H Hk Ho1 Ho2; types Ht. injection H as <- <-. split; [done|]. intros Hm z Hz. pose proof (Ho2 Hm z Hz). set_solver.
  Qed.
End Frame.
