(** Proofs for C95. *)
From Coq Require Import Btauto.
From stdpp Require Import gmap list sets.
From Verif Require Import TypeListModel TypeListSpec AnyModel AnyInv AnySteps AnyOps AnyLife AnyMove AnyAssign AnyHistory AnyExec AnyFacts AnyFacts2 AnySteal AnyRefs AnyValueSpec.

Lemma run_answered E o w :
  match answered E o w with
  | Ok a w' => run E o w = Ok tt w' /\ a <> AThrew
  | Exn w' => run E o w = Exn w'
  | UB r => run E o w = UB r
  | Term => run E o w = Term
  end.
Proof.
  destruct o; cbn [answered]; try (unfold bindM; match goal with |- context [run E ?o w] => destruct (run E o w) as [[] ?| | |] end; by cbn).
  cbn [run]. unfold bindM. match goal with |- context [invoke E ?a ?b ?c w] => by destruct (invoke E a b c w) end.
Qed.
Lemma arg_value_val w T s : arg_value (content w) T s = arg_val w T s.
Proof.
  destruct s as [x|k]; [done|]. cbn. destruct (content w k) as [[[T' x]|]|]; try done.
  destruct (Nat.eqb_spec T' T), (decide (T' = T)); done.
Qed.
Lemma same_mem_content w w' i : w_any w' = w_any w -> w_heap w' = w_heap w -> content w' i = content w i.
Proof. intros H1 H2. unfold content, view, block_of. by rewrite H1, H2. Qed.

Lemma upd_one (w w' : world) (i : nat) c : content w' i = c -> (forall k, k <> i -> content w' k = content w k) ->
  forall k, content w' k = upd (content w) i c k.
Proof. intros H1 H2 k. unfold upd. destruct (Nat.eqb_spec k i) as [->|]; auto. Qed.
Lemma upd_two (w w' : world) (i j : nat) c d : i <> j -> content w' i = c -> content w' j = d ->
  (forall k, k <> i -> k <> j -> content w' k = content w k) ->
  forall k, content w' k = upd (upd (content w) i c) j d k.
Proof. intros H H1 H2 H3 k. unfold upd. destruct (Nat.eqb_spec k j) as [->|]; [done|]. destruct (Nat.eqb_spec k i) as [->|]; auto. Qed.

Lemma swap_never_throws E w w' i j t : env_wf E -> reachable E w -> movable_alloc E = true -> pre E w (OSwap i j t) -> alloc_safe E w (OSwap i j t) ->
  run E (OSwap i j t) w <> Exn w'.
Proof.
  intros Hwf Hr Hmv (Ht & a & Ha & b & Hb & Hms & Hm) _ Ho. pose proof (reachable_inv _ _ Hwf Hr) as HI. cbn in Ho.
  assert (compat E a b = true) as Hc by (unfold compat, movable_alloc in *; by rewrite Hmv).
  destruct (decide (i = j)) as [->|Hij].
  { assert (a = b) as -> by congruence. pose proof (swap_self_spec E w j t b Hwf HI Hb Ht Hm) as H. unfold wp in H. by rewrite Ho in H. }
  pose proof (swap_spec E w i j t a b Hwf HI Hij Ha Hb Ht Hms Hm (or_introl Hc)) as H. unfold wp in H. rewrite Ho in H. destruct H as [H _]. congruence.
Qed.

Ltac prepare :=
  match goal with
  | Hwf : env_wf ?E, Hr : reachable ?E ?w, Hp : pre ?E ?w ?o, Hs : alloc_safe ?E ?w ?o, Hsafe : match run ?E ?o ?w with _ => _ end
    |- context [answered ?E ?o ?w] =>
      let a := fresh "a" in let w' := fresh "w'" in let Ha := fresh "Ha" in let Hans := fresh "Hans" in let Hk := fresh "Hk" in
      pose proof (run_answered E o w) as Ha; destruct (answered E o w) as [a w'|w'| |] eqn:Hans;
      [ destruct Ha as [Ha _]; assert (a = ADone) as -> by (cbn [answered] in Hans; unfold bindM in Hans; rewrite Ha in Hans; by injection Hans)
      | | by rewrite Ha in Hsafe | by rewrite Ha in Hsafe ];
      assert (forall k, k ∉ touches o -> content w' k = content w k) as Hk
        by (intros k Hk; apply (frame E w w' _ k Hwf Hr Hp Hs); [first [by left|by right]|done]);
      cbn [touches] in Hk; cbn [vstep threw];
      try (intros Hmv; eexists; split; [done|]; intros k; pose proof (ctor_strong E w w' o Hwf Hr eq_refl Hp Hs Ha) as (H1 & H2 & _); by apply same_mem_content)
  end.

Lemma step_value E w o : env_wf E -> reachable E w -> pre E w o -> alloc_safe E w o -> by_name o ->
  match answered E o w with
  | Ok a w' => exists v', vstep (e_meth E) (threw a) o (content w) = Some (a, v') /\ forall k, content w' k = v' k
  | Exn w' => (assigns o = true -> movable_alloc E = true) -> exists v', vstep (e_meth E) true o (content w) = Some (AThrew, v') /\ forall k, content w' k = v' k
  | UB _ => False
  | Term => may_terminate E o
  end.
Proof.
  intros Hwf Hr Hp Hs Hb. pose proof (reachable_inv _ _ Hwf Hr) as HI. pose proof (step_safe E w o Hwf HI Hp Hs) as Hsafe. unfold wp in Hsafe.
  destruct o as [i al ms|i al ms T s nt|i ms T s nt|i j ms|i j|i j ms|i j|i j t|i j t|i T s nt|i|i|i n|i n x|i|r j ms|r|i al x].
  14: { destruct Hp as ((a & Ha & Hm) & T & y & Hc). cbn [answered vstep]. rewrite Hc.
    pose proof (invoke_spec E w i a n x T y HI Ha Hm Hc) as H. unfold wp in H. unfold bindM. destruct (invoke E i n x w) as [z w'|w'| |]; try done.
    - destruct H as (Hz & _ & [Hv _ _] & _ & Hc' & _). destruct (e_meth E T n y x) as [y' r]. cbn in *. subst r. eexists. split; [done|].
      apply upd_one; [done|]. intros k Hk. apply view_content. apply Hv. set_solver.
    - intros _. destruct H as (Hz & _ & [Hv _ _] & _ & Hc' & _). destruct (e_meth E T n y x) as [y' r]. cbn in *. subst r. eexists. split; [done|].
      apply upd_one; [done|]. intros k Hk. apply view_content. apply Hv. set_solver. }
  all: prepare.
  (* ODefault *)
  - eexists; split; [done|]. apply upd_one; [|intros k Hne; apply Hk; set_solver]. destruct Hp as [Hi Hd].
    destruct (new_any_inv E w i al ms HI Hi Hd) as (H1 & _ & _). cbn [run default_ctor] in Ha. unfold default_ctor in Ha. rewrite H1 in Ha. injection Ha as <-.
    unfold content, view. cbn. by rewrite lookup_insert.
  - cbn [run] in Ha. unfold default_ctor, new_any in Ha. by destruct (w_any w !! i).
  (* OValue *)
  - pose proof (value_ctor_fact E w i al ms T s nt Hwf Hr Hp) as H. rewrite Ha in H. destruct H as [(x & Hx & Hc) _]. rewrite arg_value_val, Hx.
    eexists; split; [done|]. apply upd_one; [done|intros k Hne; apply Hk; set_solver].
  (* OForce *)
  - pose proof (force_ctor_fact E w i ms T s nt Hwf Hr Hp) as H. rewrite Ha in H. destruct H as [(x & Hx & Hc) _]. rewrite arg_value_val, Hx.
    eexists; split; [done|]. apply upd_one; [done|intros k Hne; apply Hk; set_solver].
  (* OCopy *)
  - destruct (copy_equal E w w' i j ms Hwf Hr Hp Ha) as (Hc & _).
    eexists; split; [done|]. apply upd_one; [done|intros k Hne; apply Hk; set_solver].
  (* OMove *)
  - destruct (move_ctor_fact E w w' i j Hwf Hr Hp (or_introl Ha)) as (_ & Hc & He). assert (i <> j) by (intros ->; destruct Hp as (H1 & a & H2 & _); congruence).
    eexists; split; [done|]. apply upd_two; [done|done|done|intros k Hne Hne'; apply Hk; set_solver].
  - intros _. destruct (move_ctor_fact E w w' i j Hwf Hr Hp (or_intror Ha)) as (H1 & _). congruence.
  (* OTransMove *)
  - destruct (trans_move_fact E w w' i j ms Hwf Hr Hp Hs (or_introl Ha)) as (_ & Hc & He). assert (i <> j) by (intros ->; destruct Hp as (H1 & _ & a & H2 & _); congruence).
    eexists; split; [done|]. apply upd_two; [done|done|done|intros k Hne Hne'; apply Hk; set_solver].
  - intros _. destruct (trans_move_fact E w w' i j ms Hwf Hr Hp Hs (or_intror Ha)) as (H1 & _). congruence.
  (* OMoveAssign *)
  - pose proof (move_assign_all E w w' i j Hwf Hr Hp Ha) as H. eexists; split; [done|]. destruct (decide (i = j)) as [->|Hij].
    + by rewrite Nat.eqb_refl, H.
    + destruct (Nat.eqb_spec i j); [done|]. destruct H as [Hc He]. apply upd_two; [done|done|done|intros k Hne Hne'; apply Hk; set_solver].
  - intros Hmv. specialize (Hmv eq_refl). destruct (move_assign_never_throws E w i j Hwf Hr Hp) as (w'' & H & _); [|congruence].
    unfold movable_alloc in Hmv. by apply orb_prop in Hmv.
  (* OCopyAssign *)
  - destruct (copy_assign_all E w w' i j t Hwf Hr Hp Ha) as (Hc & _). eexists; split; [done|]. apply upd_one; [done|intros k Hne; apply Hk; set_solver].
  - intros Hmv. specialize (Hmv eq_refl). eexists; split; [done|]. intros k. pose proof Hp as (Ht & a & Ha1 & b & Hb1 & _).
    destruct (copy_assign_strong E w w' i j t a b Hwf Hr Hp Ha1 Hb1) as (H1 & H2 & _); [|done|by apply same_mem_content].
    unfold copy_compat, compat, movable_alloc in *. apply orb_prop in Hmv as [->| ->]; btauto.
  (* OSwap *)
  - destruct (swap_fact E w w' i j t Hwf Hr Hp Hs Ha) as (Hc & Hd). eexists; split; [done|]. destruct (decide (i = j)) as [->|Hij].
    + intros k. unfold upd. destruct (Nat.eqb_spec k j) as [->|]; [done|]. apply Hk. set_solver.
    + apply upd_two; [done|done|done|intros k Hne Hne'; apply Hk; set_solver].
  - intros Hmv. specialize (Hmv eq_refl). exfalso. by eapply swap_never_throws.
  (* OEmplace *)
  - pose proof (emplace_fact E w i T s nt Hwf Hr Hp) as H. rewrite Ha in H. destruct H as (x & Hx & Hc). rewrite arg_value_val, Hx.
    eexists; split; [done|]. apply upd_one; [done|intros k Hne; apply Hk; set_solver].
  - pose proof (emplace_fact E w i T s nt Hwf Hr Hp) as H. rewrite Ha in H.
    intros _. eexists; split; [done|]. apply upd_one; [done|intros k Hne; apply Hk; set_solver].
  (* OReset *)
  - destruct (reset_fact E w i Hwf Hr Hp) as (w'' & H & He & _). rewrite Ha in H. injection H as <-.
    eexists; split; [done|]. apply upd_one; [done|intros k Hne; apply Hk; set_solver].
  - destruct (reset_fact E w i Hwf Hr Hp) as (w'' & H & He & _). congruence.
  (* ODestroy *)
  - destruct (destroy_fact E w i Hwf Hr Hp) as (w'' & H & He & _). rewrite Ha in H. injection H as <-.
    eexists; split; [done|]. apply upd_one; [done|intros k Hne; apply Hk; set_solver].
  - destruct (destroy_fact E w i Hwf Hr Hp) as (w'' & H & He & _). congruence.
  (* OReplace *)
  - pose proof (replace_fact E w i n Hwf Hr Hp) as H. rewrite Ha in H. destruct H as [He _].
    eexists; split; [done|]. apply upd_one; [done|intros k Hne; apply Hk; set_solver].
  - pose proof (replace_fact E w i n Hwf Hr Hp) as H. rewrite Ha in H. destruct H as [He _].
    intros _. eexists; split; [done|]. apply upd_one; [done|intros k Hne; apply Hk; set_solver].
  (* ODtor *)
  - destruct Hp as (a & Ha1 & _). destruct (dtor_spec E w i a HI Ha1) as (w'' & H & _ & _ & _ & Hn). cbn [run] in Ha. rewrite Ha in H. injection H as <-.
    eexists; split; [done|]. apply upd_one; [|intros k Hne; apply Hk; set_solver]. unfold content, view. by rewrite Hn.
  - destruct Hp as (a & Ha1 & _). destruct (dtor_spec E w i a HI Ha1) as (w'' & H & _). cbn [run] in Ha. congruence.
  (* references *)
  - eexists; split; [done|]. intros k. apply Hk. set_solver.
  - destruct Hp as (Hn & (a & Ha1 & Hin) & T & x & Hc). cbn [run] in Ha.
    rewrite (new_sref_spec E w r j a ms T x HI Ha1 Hc Hn Hin) in Ha. done.
  - eexists; split; [done|]. intros k. apply Hk. set_solver.
  - cbn [run] in Ha. by unfold drop_sref in Ha.
  (* OMaterialize *)
  - destruct x as [j ms|]; [|done]. pose proof (materialize_fact E w i al _ Hwf Hr Hp) as H. rewrite Ha in H. destruct H as (c & Hc & Hc').
    eexists; split; [done|]. apply upd_one; [|intros k Hne; apply Hk; set_solver]. rewrite Hc'. cbn in Hc. by destruct (content w j) as [[|]|]; simplify_eq.
  - intros _. destruct x as [j ms|]; [|done]. eexists; split; [done|]. intros k.
    pose proof (materialize_fact E w i al _ Hwf Hr Hp) as H. rewrite Ha in H. destruct H as (H1 & H2). by apply same_mem_content.
Qed.

(** ** Programs *)
Lemma upd_ext (v v' : values) i c : (forall k, v k = v' k) -> forall k, upd v i c k = upd v' i c k.
Proof. intros H k. unfold upd. by destruct (k =? i). Qed.
Definition same_step (r r' : option (answer * values)) : Prop :=
  match r, r' with Some (a, v), Some (a', v') => a = a' /\ forall k, v k = v' k | None, None => True | _, _ => False end.
Lemma vstep_ext meth th o (v v' : values) : (forall k, v k = v' k) -> same_step (vstep meth th o v) (vstep meth th o v').
Proof.
  intros H. assert (forall T s, arg_value v T s = arg_value v' T s) as Harg by (intros T [x|k]; cbn; [done|by rewrite H]).
  destruct o as [| | | | | | | | | | | | |i n x| | | |i al x], th; cbn; rewrite ?Harg, ?H; try done; try (split; [done|]); try done; try (by repeat apply upd_ext).
  all: try (destruct (arg_value v' _ _); cbn; [|done]; split; [done|]; by apply upd_ext).
  all: try (destruct (v' i) as [[[T y]|]|]; try done; destruct (meth T n y x); split; [done|]; by apply upd_ext).
  - destruct (_ =? _); [done|]. by repeat apply upd_ext.
  - by destruct x.
  - destruct x; [|done]. cbn. rewrite H. split; [done|]. by apply upd_ext.
Qed.

Lemma plays E l : env_wf E -> Forall by_name l -> forall w v t w', reachable E w -> (forall k, content w k = v k) -> allowed_alloc E l w ->
  (movable_alloc E = true \/ Forall2 (fun o a => assigns o = true -> a <> AThrew) l t) -> play E l w = Ok t w' ->
  exists v', vplay (e_meth E) (map threw t) l v = Some (t, v') /\ forall k, content w' k = v' k.
Proof.
  intros Hwf. induction 1 as [|o l Hb _ IH]; intros w v t w' Hr Hv Hal Hmv Hpl; cbn [play allowed_alloc] in *.
  { injection Hpl as <- <-. exists v. done. }
  destruct Hal as (Hp & Hs & Hal). pose proof (step_value E w o Hwf Hr Hp Hs Hb) as Hst. pose proof (run_answered E o w) as Hra.
  destruct (answered E o w) as [a w1|w1| |]; try done.
  - destruct Hra as [Hra Hna]. rewrite Hra in Hal. destruct (play E l w1) as [t1 w2| | |] eqn:Hpl1; try done. injection Hpl as <- <-.
    destruct Hst as (v1 & Hst & Hv1). cbn [map vplay]. pose proof (vstep_ext (e_meth E) (threw a) o _ _ Hv) as Hx. rewrite Hst in Hx.
    destruct (vstep (e_meth E) (threw a) o v) as [[a' v1']|]; [|done]. destruct Hx as [<- Hx].
    destruct (IH w1 v1' t1 w2) as (v2 & Hp2 & Hv2); [by eapply reach_ok|by intros k; rewrite Hv1, Hx|done| |done|].
    { destruct Hmv as [Hmv|Hmv]; [by left|right]. by inversion Hmv. }
    exists v2. by rewrite Hp2.
  - rewrite Hra in Hal. destruct (play E l w1) as [t1 w2| | |] eqn:Hpl1; try done. injection Hpl as <- <-.
    assert (assigns o = true -> movable_alloc E = true) as Hm.
    { intros Ho. destruct Hmv as [Hmv|Hmv]; [done|]. inversion Hmv as [|? ? ? ? Hbad]; subst. by destruct (Hbad Ho). }
    destruct (Hst Hm) as (v1 & Hst' & Hv1). cbn [map vplay threw]. pose proof (vstep_ext (e_meth E) true o _ _ Hv) as Hx. rewrite Hst' in Hx.
    destruct (vstep (e_meth E) true o v) as [[a' v1']|]; [|done]. destruct Hx as [<- Hx].
    destruct (IH w1 v1' t1 w2) as (v2 & Hp2 & Hv2); [by eapply reach_exn|by intros k; rewrite Hv1, Hx|done| |done|].
    { destruct Hmv as [Hmv|Hmv]; [by left|right]. by inversion Hmv. }
    exists v2. by rewrite Hp2.
Qed.
Lemma as_values E l w t w' : env_wf E -> reachable E w -> Forall by_name l -> allowed_alloc E l w ->
  movable_alloc E = true \/ Forall2 (fun o a => assigns o = true -> a <> AThrew) l t -> play E l w = Ok t w' ->
  exists v', vplay (e_meth E) (map threw t) l (content w) = Some (t, v') /\ forall k, content w' k = v' k.
Proof. intros Hwf Hr Hb Hal Hm Hpl. by eapply plays. Qed.

(** *** when nothing throws *)
Definition quiet {A} (m : M A) : Prop := forall w, match m w with Exn _ | Term => False | _ => True end.
Lemma q_ret {A} (a : A) : quiet (retM a). Proof. by intros w. Qed.
Lemma q_ub {A} r : quiet (@ubM A r). Proof. by intros w. Qed.
Lemma q_bind {A B} (m : M A) (f : A -> M B) : quiet m -> (forall a, quiet (f a)) -> quiet (bindM m f).
Proof. intros Hm Hf w. unfold bindM. specialize (Hm w). destruct (m w) as [a w'| | |]; try done. apply Hf. Qed.
Lemma q_noexcept {A} b (m : M A) : quiet m -> quiet (noexcept_if b m).
Proof. intros Hm w. unfold noexcept_if. specialize (Hm w). destruct (m w); try done; by destruct b. Qed.
Lemma q_on_exn {A} (m : M A) h : quiet m -> quiet (on_exn m h).
Proof. intros Hm w. unfold on_exn. specialize (Hm w). by destruct (m w). Qed.
Lemma q_ensure b r : quiet (ensure b r). Proof. destruct b; [apply q_ret|apply q_ub]. Qed.
Lemma q_get_any i : quiet (get_any i). Proof. intros w. unfold get_any. by destruct (w_any w !! i). Qed.
Lemma q_put_any i a : quiet (put_any i a). Proof. intros w. unfold put_any. by destruct (w_any w !! i). Qed.
Lemma q_get_block i : quiet (get_block i). Proof. intros w. unfold get_block. by destruct (w_heap w !! i). Qed.
Lemma q_put_block i a : quiet (put_block i a). Proof. intros w. unfold put_block. by destruct (w_heap w !! i). Qed.
Lemma q_new_any i al ms : quiet (new_any i al ms). Proof. intros w. unfold new_any. by destruct (w_any w !! i). Qed.
Lemma q_vt_read ms v m : quiet (vt_read ms v m).
Proof.
  intros w. unfold vt_read. repeat case_match; done.
Qed.
Section Quiet.
  Context (E : env) (HE : forall k, e_throws E k = false).
  Lemma q_ask {A} (f : bool -> M A) : quiet (f false) -> quiet (bindM (ask E) f).
  Proof. intros Hf w. unfold bindM, ask. rewrite HE. apply Hf. Qed.
  Lemma q_ask_if {A} (b : bool) (f : bool -> M A) : quiet (f false) -> quiet (bindM (if b then retM false else ask E) f).
  Proof. intros Hf. destruct b; [|by apply q_ask]. intros w. unfold bindM, retM. apply Hf. Qed.
  Ltac q :=
    repeat match goal with
    | |- quiet (bindM (ask E) _) => apply q_ask
    | |- quiet (bindM (if _ then retM false else ask E) _) => apply q_ask_if
    | |- quiet (bindM _ _) => apply q_bind; [|intros ?]
    | |- quiet (retM _) => apply q_ret
    | |- quiet (ubM _) => apply q_ub
    | |- quiet (noexcept_if _ _) => apply q_noexcept
    | |- quiet (on_exn _ _) => apply q_on_exn
    | |- quiet (ensure _ _) => apply q_ensure
    | |- quiet (get_any _) => apply q_get_any
    | |- quiet (put_any _ _) => apply q_put_any
    | |- quiet (get_block _) => apply q_get_block
    | |- quiet (put_block _ _) => apply q_put_block
    | |- quiet (new_any _ _ _) => apply q_new_any
    | |- quiet (vt_read _ _ _) => apply q_vt_read
    | |- quiet (fun w => Ok _ _) => by intros ?
    | |- quiet fresh => by intros ?
    | |- quiet (emit _) => by intros ?
    | |- quiet (set_vt _ _) => unfold set_vt
    | |- quiet (set_vp _ _) => unfold set_vp
    | |- quiet (set_alloc _ _) => unfold set_alloc
    | |- quiet (set_size _ _ _) => unfold set_size
    | |- quiet (get_size _) => unfold get_size
    | |- quiet (match ?x with _ => _ end) => destruct x
    | H : forall _, _ |- _ => apply H
    | H : quiet _ |- _ => apply H
    end.
  Lemma q_read_obj p : quiet (read_obj p). Proof. unfold read_obj. q. Qed.
  Lemma q_read_as T p : quiet (read_as T p). Proof. unfold read_as. pose proof q_read_obj. q. Qed.
  Lemma q_write_place p o : quiet (write_place p o). Proof. unfold write_place. q. Qed.
  Lemma q_check_place T p : quiet (check_place E T p). Proof. unfold check_place. q. Qed.
  Lemma q_read_src T s : quiet (read_src T s). Proof. unfold read_src. pose proof q_read_as. q. Qed.
  Lemma q_construct T p s nt : quiet (construct E T p s nt).
  Proof. unfold construct. pose proof q_check_place. pose proof q_read_src. pose proof q_write_place. q. Qed.
  Lemma q_destroy_at T p : quiet (destroy_at E T p).
  Proof. unfold destroy_at. pose proof q_read_as. pose proof q_write_place. q. Qed.
  Lemma q_memcpy T s d : quiet (memcpy E T s d).
  Proof. unfold memcpy. pose proof q_check_place. pose proof q_read_as. pose proof q_write_place. q. Qed.
  Lemma q_allocate al n : quiet (allocate E al n). Proof. unfold allocate. q. Qed.
  Lemma q_deallocate al p n : quiet (deallocate E al p n). Proof. unfold deallocate. q. Qed.
  Lemma q_subtable a b v : quiet (subtableM a b v). Proof. unfold subtableM. q. Qed.
  Lemma q_any_slot i m : quiet (any_slot i m). Proof. unfold any_slot. q. Qed.
  Lemma q_relocate T s d : quiet (relocate E T s d).
  Proof. unfold relocate. pose proof q_memcpy. pose proof q_construct. pose proof q_destroy_at. q. Qed.
  Lemma q_write_size_at d n : quiet (write_size_at E d n). Proof. unfold write_size_at. q. Qed.
  Lemma q_copy_fn T al s d : quiet (copy_fn E T al s d).
  Proof. unfold copy_fn. pose proof q_memcpy. pose proof q_construct. pose proof q_allocate. pose proof q_write_size_at. q. Qed.
  Lemma q_get_move_fn i : quiet (get_move_fn i). Proof. unfold get_move_fn. pose proof q_any_slot. q. Qed.
  Lemma q_construct_value i T s nt : quiet (construct_value E i T s nt). Proof. unfold construct_value. pose proof q_construct. q. Qed.
  Lemma q_emplace_in_empty i T f s nt : quiet (emplace_in_empty E i T f s nt).
  Proof. unfold emplace_in_empty. pose proof q_construct_value. pose proof q_allocate. q. Qed.
  Lemma q_destroy_value i : quiet (destroy_value E i).
  Proof. unfold destroy_value, call_destroy. pose proof q_any_slot. pose proof q_destroy_at. q. Qed.
  Lemma q_deallocate_memory i : quiet (deallocate_memory E i). Proof. unfold deallocate_memory. pose proof q_deallocate. q. Qed.
  Lemma q_reset i : quiet (reset E i). Proof. unfold reset. pose proof q_destroy_value. pose proof q_deallocate_memory. q. Qed.
  Lemma q_capacity i : quiet (capacity E i). Proof. unfold capacity. q. Qed.
  Lemma q_replace i n : quiet (replace_with_bytes E i n).
  Proof. unfold replace_with_bytes. pose proof q_destroy_value. pose proof q_deallocate_memory. pose proof q_capacity. pose proof q_allocate. q. Qed.
  Lemma q_emplace i T s nt : quiet (emplace E i T s nt).
  Proof. unfold emplace. pose proof q_destroy_value. pose proof q_deallocate_memory. pose proof q_emplace_in_empty. pose proof q_construct_value. q. Qed.
  Lemma q_move_value_from b i j : quiet (move_value_from E b i j).
  Proof. unfold move_value_from. pose proof q_get_move_fn. pose proof q_relocate. pose proof q_allocate. pose proof q_subtable. q. Qed.
  Lemma q_drop_any i : quiet (drop_any E i). Proof. unfold drop_any. q. Qed.
  Lemma q_dtor i : quiet (dtor E i). Proof. unfold dtor. pose proof q_reset. pose proof q_drop_any. q. Qed.
  Lemma q_copy_body i j : quiet (copy_body E i j). Proof. unfold copy_body. pose proof q_any_slot. pose proof q_copy_fn. pose proof q_subtable. q. Qed.
  Lemma q_copy_ctor i j ms : quiet (copy_ctor E i j ms). Proof. unfold copy_ctor, ctor. pose proof q_copy_body. q. Qed.
  Lemma q_move_assign i j : quiet (move_assign E i j).
  Proof.
    unfold move_assign. pose proof q_reset. pose proof q_move_value_from. pose proof q_destroy_value. pose proof q_get_move_fn. pose proof q_relocate.
    pose proof q_deallocate_memory. q.
  Qed.
  Lemma q_move_ctor i j : quiet (move_ctor E i j). Proof. unfold move_ctor, ctor. pose proof q_move_value_from. q. Qed.
  Lemma q_new_sref r j ms : quiet (new_sref r j ms).
  Proof.
    unfold new_sref. q. clear. induction ms as [|m ms IH]; cbn; q.
    intros w. by destruct (w_sref w !! r).
  Qed.
  Lemma q_make_ref x : quiet (make_ref x).
  Proof. unfold make_ref. pose proof q_subtable. q. intros w. by destruct (w_sref w !! r). Qed.
  Lemma q_run o : match o with OInvoke _ _ _ => False | _ => True end -> quiet (run E o).
  Proof.
    intros Ho. destruct o; cbn [run]; try done; unfold default_ctor, value_ctor, force_ctor, trans_move_ctor, ctor, copy_assign, swap_any, drop_sref, materialize, eval_arg.
    all: pose proof q_emplace_in_empty; pose proof q_copy_ctor; pose proof q_move_value_from; pose proof q_move_ctor; pose proof q_move_assign; pose proof q_reset; pose proof q_dtor;
      pose proof q_emplace; pose proof q_destroy_value; pose proof q_replace; pose proof q_new_sref; pose proof q_make_ref; pose proof q_copy_fn; q.
  Qed.
End Quiet.

Lemma same_answers E1 E2 l w1 w2 t1 t2 w1' w2' : env_wf E1 -> env_wf E2 -> (forall T n y x, e_meth E1 T n y x = e_meth E2 T n y x) ->
  reachable E1 w1 -> reachable E2 w2 -> (forall k, content w1 k = content w2 k) -> Forall by_name l ->
  allowed_alloc E1 l w1 -> allowed_alloc E2 l w2 -> play E1 l w1 = Ok t1 w1' -> play E2 l w2 = Ok t2 w2' ->
  movable_alloc E1 = true \/ Forall2 (fun o a => assigns o = true -> a <> AThrew) l t1 ->
  movable_alloc E2 = true \/ Forall2 (fun o a => assigns o = true -> a <> AThrew) l t2 ->
  map threw t1 = map threw t2 -> t1 = t2 /\ forall k, content w1' k = content w2' k.
Proof.
  intros Hwf1 Hwf2 Hme Hr1 Hr2 Hc Hb Ha1 Ha2 Hp1 Hp2 Hm1 Hm2 Hth.
  destruct (as_values E1 l w1 t1 w1' Hwf1 Hr1 Hb Ha1 Hm1 Hp1) as (v1 & Hv1 & Hc1).
  destruct (plays E2 l Hwf2 Hb w2 (content w1) t2 w2' Hr2 (fun k => eq_sym (Hc k)) Ha2 Hm2 Hp2) as (v2 & Hv2 & Hc2).
  assert (forall ths v, vplay (e_meth E1) ths l v = vplay (e_meth E2) ths l v) as Hsame.
  { clear -Hme. induction l as [|o l IH]; intros [|th ths] v; cbn; try done.
    assert (vstep (e_meth E1) th o v = vstep (e_meth E2) th o v) as ->.
    { destruct o, th; cbn; try done; destruct (v i) as [[[T y]|]|]; try done; by rewrite Hme. }
    destruct (vstep (e_meth E2) th o v) as [[a v']|]; [|done]. by rewrite IH. }
  rewrite Hth, Hsame, Hv2 in Hv1. injection Hv1 as <- <-. split; [done|]. intros k. by rewrite Hc1, Hc2.
Qed.

Lemma quiet_answered E o w : (forall k, e_throws E k = false) ->
  match answered E o w with
  | Exn _ => exists i n x, o = OInvoke i n x
  | Term => exists i n x, o = OInvoke i n x
  | _ => True
  end.
Proof.
  intros HE. destruct (match o with OInvoke _ _ _ => true | _ => false end) eqn:Ho; [destruct (answered E o w); try done; destruct o; try done; eauto|].
  pose proof (q_run E HE o) as Hq. assert (quiet (run E o)) as Hr by (apply Hq; by destruct o). specialize (Hr w).
  pose proof (run_answered E o w) as H. destruct (answered E o w); try done; by rewrite H in Hr.
Qed.
Lemma nothing_throws_same E1 E2 l : env_wf E1 -> env_wf E2 -> (forall T n y x, e_meth E1 T n y x = e_meth E2 T n y x) ->
  (forall k, e_throws E1 k = false) -> (forall k, e_throws E2 k = false) -> Forall by_name l ->
  forall w1 w2, reachable E1 w1 -> reachable E2 w2 -> (forall k, content w1 k = content w2 k) ->
  allowed_alloc E1 l w1 -> allowed_alloc E2 l w2 ->
  exists t w1' w2', play E1 l w1 = Ok t w1' /\ play E2 l w2 = Ok t w2' /\ forall k, content w1' k = content w2' k.
Proof.
  intros Hwf1 Hwf2 Hme HE1 HE2. induction 1 as [|o l Hb _ IH]; intros w1 w2 Hr1 Hr2 Hc Ha1 Ha2; cbn [play allowed_alloc] in *.
  { exists [], w1, w2. done. }
  destruct Ha1 as (Hp1 & Hs1 & Ha1), Ha2 as (Hp2 & Hs2 & Ha2).
  pose proof (step_value E1 w1 o Hwf1 Hr1 Hp1 Hs1 Hb) as H1. pose proof (step_value E2 w2 o Hwf2 Hr2 Hp2 Hs2 Hb) as H2.
  pose proof (quiet_answered E1 o w1 HE1) as Q1. pose proof (quiet_answered E2 o w2 HE2) as Q2.
  pose proof (run_answered E1 o w1) as R1. pose proof (run_answered E2 o w2) as R2.
  assert (forall th, same_step (vstep (e_meth E1) th o (content w1)) (vstep (e_meth E2) th o (content w2))) as Hss.
  { intros th. assert (vstep (e_meth E1) th o (content w1) = vstep (e_meth E2) th o (content w1)) as ->.
    { destruct o, th; cbn; try done; destruct (content w1 i) as [[[T y]|]|]; try done; by rewrite Hme. }
    by apply vstep_ext. }
  assert (forall th v, (exists i n x, o = OInvoke i n x) -> vstep (e_meth E1) th o v = vstep (e_meth E1) false o v) as I1.
  { intros th v (i & n & x & ->). by destruct th. }
  assert (forall th v, (exists i n x, o = OInvoke i n x) -> vstep (e_meth E2) th o v = vstep (e_meth E2) false o v) as I2.
  { intros th v (i & n & x & ->). by destruct th. }
  assert ((exists i n x, o = OInvoke i n x) -> (assigns o = true -> movable_alloc E1 = true) /\ (assigns o = true -> movable_alloc E2 = true) /\
    ~ may_terminate E1 o /\ ~ may_terminate E2 o) as Hno.
  { intros (i & n & x & ->). cbn. repeat split; try done; by intros []. }
  assert (forall a, a <> AThrew -> threw a = false) as Hnt by (by intros []).
  destruct (answered E1 o w1) as [a1 u1|u1| |]; try done.
  - destruct R1 as [R1 N1]. rewrite (Hnt _ N1) in H1. destruct H1 as (v1 & H1 & C1). rewrite R1 in Ha1.
    destruct (answered E2 o w2) as [a2 u2|u2| |]; try done.
    + destruct R2 as [R2 N2]. rewrite (Hnt _ N2) in H2. destruct H2 as (v2 & H2 & C2). rewrite R2 in Ha2.
      specialize (Hss false). rewrite H1, H2 in Hss. destruct Hss as [<- Hv].
      destruct (IH u1 u2) as (t & x1 & x2 & P1 & P2 & Hc'); [by eapply reach_ok|by eapply reach_ok|intros k; by rewrite C1, C2, Hv|done|done|].
      exists (a1 :: t), x1, x2. by rewrite P1, P2.
    + destruct (Hno Q2) as (_ & M2 & _). destruct (H2 M2) as (v2 & H2' & _). rewrite (I2 true _ Q2) in H2'.
      specialize (Hss false). rewrite H1, H2' in Hss. by destruct Hss.
    + by destruct (Hno Q2) as (_ & _ & _ & []).
  - destruct (Hno Q1) as (M1 & _). destruct (H1 M1) as (v1 & H1' & C1). rewrite R1 in Ha1. rewrite (I1 true _ Q1) in H1'.
    destruct (answered E2 o w2) as [a2 u2|u2| |]; try done.
    + destruct R2 as [R2 N2]. rewrite (Hnt _ N2) in H2. destruct H2 as (v2 & H2 & C2).
      specialize (Hss false). rewrite H1', H2 in Hss. by destruct Hss as [<- _].
    + destruct (Hno Q2) as (_ & M2 & _). destruct (H2 M2) as (v2 & H2' & C2). rewrite (I2 true _ Q2) in H2'. rewrite R2 in Ha2.
      specialize (Hss false). rewrite H1', H2' in Hss. destruct Hss as [_ Hv].
      destruct (IH u1 u2) as (t & x1 & x2 & P1 & P2 & Hc'); [by eapply reach_exn|by eapply reach_exn|intros k; by rewrite C1, C2, Hv|done|done|].
      exists (AThrew :: t), x1, x2. by rewrite P1, P2.
    + by destruct (Hno Q2) as (_ & _ & _ & []).
  - by destruct (Hno Q1) as (_ & _ & [] & _).
Qed.

(** programs are defined, and end unless a constructor promised not to throw and did *)
Lemma play_ends E l : env_wf E -> Forall by_name l -> forall w, reachable E w -> allowed_alloc E l w ->
  match play E l w with Ok _ _ => True | Term => Exists (may_terminate E) l | _ => False end.
Proof.
  intros Hwf. induction 1 as [|o l Hb _ IH]; intros w Hr Hal; cbn [play allowed_alloc] in *; [done|].
  destruct Hal as (Hp & Hs & Hal). pose proof (step_value E w o Hwf Hr Hp Hs Hb) as Hst. pose proof (run_answered E o w) as Hra.
  destruct (answered E o w) as [a w1|w1| |]; try done.
  - destruct Hra as [Hra _]. rewrite Hra in Hal. specialize (IH w1 (reach_ok _ _ _ _ Hr Hp Hs Hra) Hal).
    destruct (play E l w1); try done. by right.
  - rewrite Hra in Hal. specialize (IH w1 (reach_exn _ _ _ _ Hr Hp Hs Hra) Hal). destruct (play E l w1); try done. by right.
  - by left.
Qed.
Lemma behaves E l w : env_wf E -> reachable E w -> Forall by_name l -> allowed_alloc E l w ->
  match play E l w with
  | Ok t w' => movable_alloc E = true \/ Forall2 (fun o a => assigns o = true -> a <> AThrew) l t ->
      exists v', vplay (e_meth E) (map threw t) l (content w) = Some (t, v') /\ forall k, content w' k = v' k
  | Term => Exists (may_terminate E) l
  | _ => False
  end.
Proof.
  intros Hwf Hr Hb Hal. pose proof (play_ends E l Hwf Hb w Hr Hal) as He. destruct (play E l w) as [t w'| | |] eqn:Hpl; try done.
  intros Hm. by eapply as_values.
Qed.
