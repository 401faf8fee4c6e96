(** Algorithms that rearrange anys: consequences in the form of the theorems, and concrete anys (C104). *)
From stdpp Require Import gmap list sorting.
From Verif Require Import TypeListModel AnyModel AnyInv AnySteps AnyHistory AnyExec AnyFacts AnyExamples PolyModel PolySpec PolyExamples VectorSpec VectorProofs
  AnyCostSpec AnyCost KeyModel KeySpec KeyExamples ArrangeModel ArrangeSpec ArrangeProofs.

Lemma sorted_app_one {A} (R : A -> A -> Prop) l x : StronglySorted R l -> (forall y, In y l -> R y x) -> StronglySorted R (l ++ [x]).
Proof.
  intros HS H. induction HS as [|a l HS IH Hall]; cbn; [by repeat constructor|]. constructor; [apply IH; intros y Hy; apply H; by right|].
  apply Forall_app. split; [done|]. constructor; [apply H; by left|constructor].
Qed.
Lemma filter_rev_ {A} (f : A -> bool) l : List.filter f (rev l) = rev (List.filter f l).
Proof. induction l as [|a l IH]; [done|]. cbn. rewrite List.filter_app, IH. cbn. destruct (f a); cbn; [done|]. by rewrite app_nil_r. Qed.

Section Theorems.
  Context (E : env) (O : obs) (ms : list method) (Hwf : env_wf E) (HO : obs_wf O) (Hmv : movable_alloc E = true) (HK : arrangeable E ms).
  Theorem as_values {A} (p : aprog A) D w x v : reachable E w -> one_class ms w D -> within D p -> vrun O p (cell_of w) = Some (x, v) ->
    exists w', arun E O p w = Ok x w' /\ reachable E w' /\ one_class ms w' D /\ (forall k, In k D -> cell_of w' k = v k) /\ nothing_made w w' /\ others w w' D.
  Proof.
    intros Hr Hc Hin Hv. destruct (arun_spec E O ms Hwf HO Hmv HK D p w (cell_of w) x v Hr Hc Hin) as (w' & H1 & H2 & H3 & H4 & H5 & H6); [by intros ? ?|done|].
    exists w'. split; [done|]. split; [done|]. split; [done|]. split; [done|]. split; [done|]. by apply (others_view E Hwf w).
  Qed.
  Theorem none_duplicated {A} (p : aprog A) D w x v : reachable E w -> one_class ms w D -> within D p -> NoDup D -> vrun O p (cell_of w) = Some (x, v) ->
    exists w', arun E O p w = Ok x w' /\ held (cell_of w') D ⊆+ held (cell_of w) D.
  Proof.
    intros Hr Hc Hin Hn Hv. destruct (as_values p D w x v Hr Hc Hin Hv) as (w' & H1 & _ & _ & H4 & _). exists w'. split; [done|].
    rewrite (held_ext v (cell_of w') D H4). by apply (held_program O p D (cell_of w) x v).
  Qed.
  Lemma cells_exist w l C : map (cell_of w) l = map Some C -> forall k, In k l -> w_any w !! k <> None.
  Proof.
    intros H k Hk Hn. apply none_cell in Hn. pose proof (in_map (cell_of w) _ _ Hk) as H1. rewrite H, Hn in H1. apply in_map_iff in H1 as (? & ? & _). done.
  Qed.
  Lemma alive_cells w l : alive ms w l -> exists C, map (cell_of w) l = map Some C.
  Proof.
    intros H. induction l as [|k l IH]; [by exists []|]. destruct IH as [C HC]; [intros i Hi; apply H; by right|].
    destruct (H k (or_introl eq_refl)) as (a & Ha & _). destruct (cell_of w k) as [c|] eqn:Hk; [|apply cell_none in Hk; congruence].
    exists (c :: C). cbn. by rewrite Hk, HC.
  Qed.
  Lemma class_of w t l : alive ms w l -> w_any w !! t = None -> one_class ms w (t :: l).
  Proof. intros H Ht k a [<-|Hk] Ha; [congruence|]. destruct (H k Hk) as (b & Hb & Hm). congruence. Qed.
  Lemma without_temp w w' t l : w_any w !! t = None -> w_any w' !! t = None -> others w w' (t :: l) -> others w w' l.
  Proof.
    intros H1 H2 H k Hk. destruct (decide (k = t)) as [->|Hne]; [|apply H; intros [?|?]; congruence].
    unfold content, view, address, contained. by rewrite H1, H2.
  Qed.

  Theorem reversed t l w : reachable E w -> NoDup (t :: l) -> w_any w !! t = None -> alive ms w l ->
    exists w', arun E O (a_reverse t l) w = Ok tt w' /\ w_any w' !! t = None /\ alive ms w' l /\ map (cell_of w') l = rev (map (cell_of w) l) /\
      nothing_made w w' /\ others w w' l.
  Proof.
    intros Hr Hn Ht Hl. destruct (alive_cells w l Hl) as [C HC].
    destruct (reverse_spec O (length l) t l (cell_of w) C) as (v & Hv & Hvt & Hvl & _); [done|done|by apply none_cell|done|].
    destruct (as_values (a_reverse t l) (t :: l) w tt v Hr) as (w' & H1 & H2 & H3 & H4 & H5 & H6); [by apply class_of|apply within_reverse|done|].
    assert (w_any w' !! t = None) as Ht' by (apply cell_none; rewrite H4 by (by left); done).
    assert (map (cell_of w') l = map Some (rev C)) as Hm. { rewrite <- Hvl. apply map_ext_in. intros k Hk. apply H4. by right. }
    exists w'. split; [done|]. split; [done|]. split; [|split; [rewrite Hm, HC; by rewrite map_rev|split; [done|by apply (without_temp w w' t)]]].
    intros k Hk. pose proof (cells_exist w' l _ Hm k Hk) as Hne. destruct (w_any w' !! k) as [a|] eqn:Ha; [|done]. exists a. split; [done|]. apply (H3 k); [by right|done].
  Qed.

  Context (T : nat) (HW : weakly_ordered O T).
  Lemma order_cells w l L : hold_in_order ms T w l L -> exists C, map (cell_of w) l = map Some C /\ Forall (of_type T) C /\ map val C = L.
  Proof.
    intros H. induction H as [|i x l L [_ Hk] _ (C & H1 & H2 & H3)]; [by exists []|]. exists ((Some (T, x), home w i) :: C). split.
    - cbn. rewrite H1. f_equal. unfold cell_of. by rewrite Hk.
    - split; [constructor; [|done]; by exists x, (home w i)|]. cbn. by rewrite H3.
  Qed.
  Lemma cells_order w l C : alive ms w l -> map (cell_of w) l = map Some C -> Forall (of_type T) C -> hold_in_order ms T w l (map val C).
  Proof.
    revert C. induction l as [|k l IH]; intros [|c C] Ha H HC; try done; [by constructor|]. cbn in H. injection H as H1 H2. inversion HC as [|? ? Hc HC']; subst.
    constructor; [|apply IH; [intros i Hi; apply Ha; by right|done|done]]. destruct Hc as (x & h & ->). split; [apply Ha; by left|].
    unfold cell_of in H1. destruct (content w k) as [u|]; [|done]. injection H1 as -> _. done.
  Qed.
  Theorem sorted_anys t l w L : reachable E w -> NoDup (t :: l) -> w_any w !! t = None -> hold_in_order ms T w l L ->
    exists w' L', arun E O (a_sort t [] l) w = Ok tt w' /\ w_any w' !! t = None /\ hold_in_order ms T w' l L' /\ L' ≡ₚ L /\ in_order O T L' /\
      (forall x, List.filter (same_rank O T x) L' = List.filter (same_rank O T x) L) /\ map (cell_of w') l ≡ₚ map (cell_of w) l /\
      nothing_made w w' /\ others w w' l.
  Proof.
    intros Hr Hn Ht HL. destruct (order_cells w l L HL) as (C & HC & Hty & Hval).
    assert (alive ms w l) as Hal.
    { intros k Hk. clear -HL Hk. induction HL as [|i x l L [Hi _] _ IH]; [done|]. destruct Hk as [<-|Hk]; [done|by apply IH]. }
    assert (Forall full C) as Hfull. { eapply Forall_impl; [exact Hty|]. by intros c (x & h & ->). }
    destruct (sort_spec O l t [] (cell_of w) [] C) as (v & Hv & Hvt & Hvl & _); [done|by apply none_cell|done|done|constructor|done|].
    rewrite app_nil_r in Hvl. destruct (fold_spec O T HW C [] ltac:(constructor) Hty ltac:(constructor)) as (F1 & F2 & F3 & F4).
    set (R := fold_left (fun D c => ins O c D) C []) in *. clearbody R. rewrite app_nil_r in F3, F4.
    destruct (as_values (a_sort t [] l) (t :: l) w tt v Hr) as (w' & H1 & H2 & H3 & H4 & H5 & H6); [by apply class_of|apply (within_sort t l [])|done|].
    assert (w_any w' !! t = None) as Ht' by (apply cell_none; rewrite H4 by (by left); done).
    assert (map (cell_of w') l = map Some (rev R)) as Hm.
    { rewrite map_rev, <- Hvl, map_rev, rev_involutive. apply map_ext_in. intros k Hk. apply H4. by right. }
    assert (alive ms w' l) as Hal'.
    { intros k Hk. pose proof (cells_exist w' l _ Hm k Hk) as Hne. destruct (w_any w' !! k) as [a|] eqn:Ha; [|done]. exists a. split; [done|]. apply (H3 k); [by right|done]. }
    exists w', (map val (rev R)). split; [done|]. split; [done|]. split; [apply cells_order; [done|done|]|].
    { rewrite Forall_forall in F1 |- *. intros c Hc. apply F1. rewrite elem_of_list_In in *. by apply in_rev. }
    assert (rev R ≡ₚ C) as HP. { etrans; [symmetry; apply Permutation_rev|]. etrans; [exact F3|]. symmetry. apply Permutation_rev. }
    split; [rewrite <- Hval; by apply Permutation_map|]. split.
    { rewrite map_rev. unfold in_order. clear -F2. induction F2 as [|a k HS IH Hall]; [constructor|]. cbn. apply sorted_app_one; [done|].
      intros y Hy. rewrite Forall_forall in Hall. apply Hall. rewrite elem_of_list_In. by apply in_rev. }
    split. { intros x. specialize (F4 x). rewrite map_rev, filter_rev_ in F4. rewrite map_rev, filter_rev_, F4, rev_involutive. by rewrite Hval. }
    split; [rewrite Hm, HC; by apply Permutation_map|]. split; [done|by apply (without_temp w w' t)].
  Qed.
End Theorems.

(** ** Concrete anys: 4, 5, 6, 7 hold 30, 10, 20, 20 of a big type, 8 a value of another type, 9 nothing *)
Definition okv {A} (r : res A) : bool := match r with Ok _ _ => true | _ => false end.
Definition world_of {A} (r : res A) : world := match r with Ok _ w => w | _ => init_world end.
Lemma okv_unit (r : res unit) : okv r = true -> r = Ok tt (world_of r).
Proof. destruct r as [[] w|w| |]; done. Qed.
Lemma ordk_arrangeable : arrangeable (keyE []) ordk.
Proof. split; [by_vm|]. cbn. tauto. Qed.
Definition sorted4 : world := world_of (arun (keyE []) obs0 (a_sort 20 [] [4; 5; 6; 7]) (kw [])).
Definition mixed3 : world := world_of (arun (keyE []) obs0 (a_sort 20 [] [4; 8; 5]) (kw [])).
Definition turned5 : world := world_of (arun (keyE []) obs0 (a_reverse 20 [4; 9; 6; 8; 5]) (kw [])).
Lemma kw_order : hold_in_order ordk 1 (kw []) [4; 5; 6; 7] [30; 10; 20; 20].
Proof. unfold hold_in_order. repeat (apply Forall2_cons_2; [apply keyb_sound; by_vm|]). apply Forall2_nil_2. Qed.
Lemma nodupb (l : list nat) : bool_decide (NoDup l) = true -> NoDup l.
Proof. intros H. by apply bool_decide_eq_true in H. Qed.

Lemma less_true O i j w : match less O i j w with Ok b _ => b | _ => false end = true -> less O i j w = Ok true w.
Proof.
  intros H. unfold less in *. pose proof (wn_cmp O (OpAny i) (OpAny j)) as Hw.
  specialize (Hw w). unfold bindM in *. destruct (cmp_spaceship O (OpAny i) (OpAny j) w) as [c w'|w'| |]; try done. subst w'. cbn in *. by rewrite H.
Qed.

Theorem types_unsorted : exists E O ms t l w w', env_wf E /\ obs_wf O /\ movable_alloc E = true /\ arrangeable E ms /\ (forall T, weakly_ordered O T) /\ reachable E w /\
  NoDup (t :: l) /\ w_any w !! t = None /\ (forall k, In k l -> exists T x, key ms w k (Some (T, x))) /\
  arun E O (a_sort t [] l) w = Ok tt w' /\ exists i j A B C, l = A ++ i :: B ++ j :: C /\ less O j i w' = Ok true w'.
Proof.
  exists (keyE []), obs0, ordk, 20, [4; 8; 5], (kw []), mixed3. split; [apply mkE_wf|]. split; [apply obs0_wf|]. split; [done|]. split; [apply ordk_arrangeable|].
  split; [apply obs0_ordered|]. split; [apply kw_reachable; by left|]. split; [apply nodupb; by_vm|]. split; [by_vm|]. split.
  { intros k [<-|[<-|[<-|[]]]]; [exists 1, 30|exists 5, 20|exists 1, 10]; apply keyb_sound; by_vm. }
  split; [apply okv_unit; by_vm|]. exists 4, 5, [], [8], []. split; [done|]. apply less_true. by_vm.
Qed.
Theorem empty_unsortable : exists E O ms t l w, env_wf E /\ obs_wf O /\ movable_alloc E = true /\ arrangeable E ms /\ (forall T, weakly_ordered O T) /\ reachable E w /\
  NoDup (t :: l) /\ w_any w !! t = None /\ alive ms w l /\ arun E O (a_sort t [] l) w = UB UbNullVtable.
Proof.
  exists (keyE []), obs0, ordk, 20, [9; 4], (kw []). split; [apply mkE_wf|]. split; [apply obs0_wf|]. split; [done|]. split; [apply ordk_arrangeable|].
  split; [apply obs0_ordered|]. split; [apply kw_reachable; by left|]. split; [apply nodupb; by_vm|]. split; [by_vm|]. split; [|by_vm].
  intros k [<-|[<-|[]]]; [apply (keyb_sound ordk (kw []) 9 None); by_vm|apply (keyb_sound ordk (kw []) 4 (Some (1, 30))); by_vm].
Qed.
