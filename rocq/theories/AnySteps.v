(** Function-level lemmas: every member function of basic_any, run in a world satisfying the invariant. *)
From stdpp Require Import gmap list.
From Verif Require Import TypeListModel TypeListSpec TypeListProofs AnyModel AnyInv.

Definition owned_out (S : gset nat) (w : world) (b : nat) : Prop :=
  exists k a, k ∉ S /\ w_any w !! k = Some a /\ a_vp a = PHeap b.
Definition owned_in (S : gset nat) (w : world) (b : nat) : Prop :=
  exists k a, k ∈ S /\ w_any w !! k = Some a /\ a_vp a = PHeap b.

Lemma owned_in_not_out E S w b : Inv E w -> owned_in S w b -> ~ owned_out S w b.
Proof.
  intros HI (k & a & Hk & Ha & Hp) (k' & a' & Hk' & Ha' & Hp').
  pose proof (inv_inj _ _ HI _ _ _ _ _ Ha Ha' Hp Hp'). congruence.
Qed.
Lemma any_block E w i a b : Inv E w -> w_any w !! i = Some a -> a_vp a = PHeap b ->
  exists al n bo, w_heap w !! b = Some (Block al n bo) /\ alloc_eqb E (a_alloc a) al = true /\ a_un a = USize n.
Proof.
  intros HI Ha Hp. pose proof (inv_ok _ _ HI _ _ Ha) as [_ H]. unfold block_of in H. rewrite Hp in H.
  destruct H as (al & n & bo & ? & ? & ? & _). by exists al, n, bo.
Qed.
Lemma fresh_not_out E S w b : Inv E w -> w_next w <= b -> ~ owned_out S w b.
Proof.
  intros HI Hb (k & a & Hk & Ha & Hp). destruct (any_block _ _ _ _ _ HI Ha Hp) as (al & n & bo & H & _).
  apply (inv_fresh _ _ HI) in H. lia.
Qed.
Lemma fresh_none E w b : Inv E w -> w_next w <= b -> w_heap w !! b = None.
Proof.
  intros HI Hb. destruct (w_heap w !! b) eqn:H; [|done]. apply (inv_fresh _ _ HI) in H. lia.
Qed.
Lemma heap_owner E S w b x : Inv E w -> w_heap w !! b = Some x -> owned_in S w b \/ owned_out S w b.
Proof.
  intros HI H. destruct (inv_own _ _ HI _ _ H) as (i & a & Ha & Hp).
  destruct (decide (i ∈ S)); [left|right]; by exists i, a.
Qed.

(** Re-establishing the invariant when only the anys in [S] were touched. *)
Lemma inv_frame E S w w' :
  Inv E w -> w_sref w' = w_sref w ->
  (forall k, k ∉ S -> w_any w' !! k = w_any w !! k) ->
  (forall b, owned_out S w b -> w_heap w' !! b = w_heap w !! b) ->
  (forall k a, k ∈ S -> w_any w' !! k = Some a -> any_ok E k a (block_of w' a) /\ home_ok w' a) ->
  (forall k a b, k ∈ S -> w_any w' !! k = Some a -> a_vp a = PHeap b ->
     ~ owned_out S w b /\
     (forall k' a', k' ∈ S -> w_any w' !! k' = Some a' -> a_vp a' = PHeap b -> k' = k)) ->
  (forall b x, w_heap w' !! b = Some x ->
     b < w_next w' /\ (owned_in S w' b \/ owned_out S w b)) ->
  Inv E w' /\ (forall k, k ∉ S -> view w' k = view w k).
Proof.
  intros HI Hs F1 F2 F3 F4 F5.
  assert (Hv : forall k, k ∉ S -> view w' k = view w k).
  { intros k Hk. unfold view. rewrite (F1 k Hk). destruct (w_any w !! k) as [a|] eqn:Ha; [|done].
    do 2 f_equal. unfold block_of. destruct (a_vp a) eqn:Hp; [done|]. apply F2. by exists k, a. }
  split; [|done]. constructor.
  - intros i a Ha. destruct (decide (i ∈ S)) as [Hi|Hi]; [by apply F3|].
    pose proof (Hv i Hi) as H. unfold view in H. rewrite Ha in H. rewrite (F1 i Hi) in Ha. rewrite Ha in H.
    injection H as H. rewrite H. by apply (inv_ok _ _ HI).
  - intros i a Ha. destruct (decide (i ∈ S)) as [Hi|Hi]; [by apply F3 with (k := i)|].
    rewrite (F1 i Hi) in Ha. pose proof (inv_home _ _ HI _ _ Ha) as H. unfold home_ok, vt_alive in *.
    by rewrite Hs.
  - intros i j a a' b Ha Ha' Hp Hp'.
    destruct (decide (i ∈ S)) as [Hi|Hi], (decide (j ∈ S)) as [Hj|Hj].
    + destruct (F4 _ _ _ Hi Ha Hp) as [_ H]. symmetry. by eapply H.
    + exfalso. destruct (F4 _ _ _ Hi Ha Hp) as [H _]. apply H. exists j, a'. by rewrite <- F1.
    + exfalso. destruct (F4 _ _ _ Hj Ha' Hp') as [H _]. apply H. exists i, a. by rewrite <- F1.
    + rewrite F1 in Ha, Ha' by done. by eapply (inv_inj _ _ HI).
  - intros b x Hb. destruct (F5 _ _ Hb) as [_ [(k & a & ? & ? & ?)|(k & a & ? & ? & ?)]]; exists k, a; [done|].
    by rewrite F1.
  - intros b x Hb. by destruct (F5 _ _ Hb).
Qed.

Lemma eff_refl S w : Eff S w w.
Proof. by split. Qed.
Lemma eff_trans S w1 w2 w3 : Eff S w1 w2 -> Eff S w2 w3 -> Eff S w1 w3.
Proof.
  intros [V1 R1 N1] [V2 R2 N2]. split.
  - intros k Hk. by rewrite V2, V1.
  - congruence.
  - lia.
Qed.
Lemma eff_mono S S' w w' : S ⊆ S' -> Eff S w w' -> Eff S' w w'.
Proof. intros HS [V R N]. split; [|done..]. intros k Hk. apply V. set_solver. Qed.

(** nothing asked from the oracle, nothing allocated *)
Definition Quiet (w w' : world) : Prop := w_tick w' = w_tick w /\ allocs w' = allocs w.
Lemma quiet_refl w : Quiet w w. Proof. done. Qed.
Lemma quiet_trans w1 w2 w3 : Quiet w1 w2 -> Quiet w2 w3 -> Quiet w1 w3.
Proof. unfold Quiet. intros [-> ->] [-> ->]. done. Qed.

Lemma view_lookup S w w' k a : Eff S w w' -> k ∉ S -> w_any w !! k = Some a -> w_any w' !! k = Some a.
Proof.
  intros HE Hk Ha. pose proof (eff_view _ _ _ HE k Hk) as H. unfold view in H. rewrite Ha in H.
  destruct (w_any w' !! k) as [a'|]; [|done]. injection H as -> _. done.
Qed.
Lemma content_frame S w w' k : Eff S w w' -> k ∉ S -> content w' k = content w k.
Proof. intros HE Hk. unfold content. by rewrite (eff_view _ _ _ HE k Hk). Qed.

(** simplification of projections of updated worlds *)
Lemma write_w_any w b o : w_any (write_w w (PHeap b) o) = w_any w.
Proof. simpl. by destruct (w_heap w !! b). Qed.
Lemma write_w_heap w i o : w_heap (write_w w (PData i) o) = w_heap w.
Proof. simpl. by destruct (w_any w !! i). Qed.
Lemma write_w_sref w p o : w_sref (write_w w p o) = w_sref w.
Proof. destruct p; simpl; by case_match. Qed.
Lemma write_w_next w p o : w_next (write_w w p o) = w_next w.
Proof. destruct p; simpl; by case_match. Qed.
Lemma write_w_tick w p o : w_tick (write_w w p o) = w_tick w.
Proof. destruct p; simpl; by case_match. Qed.
Lemma write_w_log w p o : w_log (write_w w p o) = w_log w.
Proof. destruct p; simpl; by case_match. Qed.

(** ** destroy_value *)
Lemma any_home E w i a v : Inv E w -> w_any w !! i = Some a -> a_vt a = Some v -> vt_alive w v.
Proof. intros HI Ha Hv. pose proof (inv_home _ _ HI _ _ Ha) as H. unfold home_ok in H. by rewrite Hv in H. Qed.

(** the dynamic type and the object of a non-empty any *)
Lemma any_value E w i a v : Inv E w -> w_any w !! i = Some a -> a_vt a = Some v ->
  exists T x id, vt_entries (a_ms a) v T /\ obj_at w (a_vp a) = Some (Obj T x id) /\
    content w i = Some (Some (T, x)) /\ ty_align (e_ty E T) <= max_align.
Proof.
  intros HI Ha Hv. pose proof (inv_ok _ _ HI _ _ Ha) as [_ H]. unfold block_of in H. rewrite Hv in H.
  unfold content, view, content_of, block_of, obj_at. rewrite Ha, Hv. destruct (a_vp a) as [k|b].
  - destruct H as [-> (T & x & id & He & Hu & Hf)]. exists T, x, id. rewrite Ha, Hu.
    repeat split; auto. unfold fits in Hf. apply andb_prop in Hf as [Hf _]. apply andb_prop in Hf as [Hf _].
    by apply Nat.leb_le.
  - destruct H as (al & n & bo & Hb & _ & _ & T & x & id & He & -> & Hs & Hal). exists T, x, id. rewrite Hb.
    repeat split; auto.
Qed.

Lemma any_slot_ok E w i a v T m : Inv E w -> w_any w !! i = Some a -> a_vt a = Some v ->
  vt_entries (a_ms a) v T -> In m (a_ms a) -> any_slot i m w = Ok T w.
Proof.
  intros HI Ha Hv He Hm. unfold any_slot. rewrite (bind_get_any _ _ _ _ Ha), Hv.
  apply vt_read_ok; [|done..]. by eapply any_home.
Qed.

Lemma mem_allocated_false i a : mem_allocated i a = false <-> a_vp a = PData i.
Proof. unfold mem_allocated. rewrite negb_false_iff. by rewrite bool_decide_eq_true. Qed.
Lemma mem_allocated_heap i a b : a_vp a = PHeap b -> mem_allocated i a = true.
Proof. unfold mem_allocated. intros ->. rewrite bool_decide_false; done. Qed.
Lemma vp_cases E w i a : Inv E w -> w_any w !! i = Some a ->
  (a_vp a = PData i /\ mem_allocated i a = false) \/ (exists b, a_vp a = PHeap b /\ mem_allocated i a = true).
Proof.
  intros HI Ha. pose proof (inv_ok _ _ HI _ _ Ha) as [_ H]. destruct (a_vp a) as [k|b] eqn:Hp.
  - destruct H as [-> _]. left. split; [done|]. by apply mem_allocated_false.
  - right. exists b. split; [done|]. by eapply mem_allocated_heap.
Qed.

Ltac seteq := repeat match goal with
  | H : _ ∈ {[_]} |- _ => apply elem_of_singleton in H; subst
  | H : _ ∉ {[_]} |- _ => rewrite not_elem_of_singleton in H
  end.

(** world after overwriting the place an any points to, and changing its vtable pointer *)
Lemma destroy_value_spec E w i a : Inv E w -> w_any w !! i = Some a ->
  exists w' a', destroy_value E i w = Ok tt w' /\ Inv E w' /\ Eff {[i]} w w' /\ Quiet w w' /\
    w_any w' !! i = Some a' /\ a_vt a' = None /\ a_vp a' = a_vp a /\ a_alloc a' = a_alloc a /\
    a_ms a' = a_ms a /\ (forall b, a_vp a = PHeap b -> a_un a' = a_un a).
Proof.
  intros HI Ha. unfold destroy_value.
  destruct (a_vt a) as [v|] eqn:Hv.
  2:{ exists w, a. split; [|eauto 10 using eff_refl, quiet_refl].
      apply noexcept_ok. rewrite (bind_get_any _ _ _ _ Ha). unfold has_val. by rewrite Hv. }
  destruct (any_value _ _ _ _ _ HI Ha Hv) as (T & x & id & He & Ho & _ & Hal).
  pose proof (inv_ok _ _ HI _ _ Ha) as [Hd Hok].
  assert (Hslot : any_slot i MDestroy w = Ok T w) by by eapply any_slot_ok.
  assert (Hrun : forall w1, call_destroy E T (a_vp a) w = Ok tt w1 ->
     noexcept_if true (let! a := get_any i in if has_val a then let! T := any_slot i MDestroy in
        call_destroy E T (a_vp a);;; set_vt i None else retM tt) w
     = noexcept_if true (set_vt i None) w1).
  { intros w1 H1. unfold noexcept_if at 1. rewrite (bind_get_any _ _ _ _ Ha). unfold has_val. rewrite Hv.
    rewrite (bind_ok _ _ _ _ _ Hslot), (bind_ok _ _ _ _ _ H1). done. }
  unfold block_of in Hok. rewrite Hv in Hok.
  destruct (ty_tdestr (e_ty E T)) eqn:Htd.
  - (* trivially destructible: nothing but the vtable pointer changes *)
    assert (call_destroy E T (a_vp a) w = Ok tt w) as H1 by (unfold call_destroy; by rewrite Htd).
    rewrite (Hrun _ H1). eexists _, _.
    split; [apply noexcept_ok; by apply set_vt_ok|].
    match goal with |- Inv _ ?w1 /\ _ => destruct (inv_frame E {[i]} w w1) as [I V] end; try done.
    + intros k Hk. seteq. cbn. by rewrite lookup_insert_ne.
    + intros k a' Hk. seteq. cbn. rewrite lookup_insert. intros [= <-]. cbn. split; [|done]. split; [done|].
      cbn. destruct (a_vp a) as [k|b] eqn:Hp.
      * destruct Hok as [-> (T' & x' & id' & He' & Hu & Hf)]. split; [done|].
        rewrite Hu. cbn. unfold obj_at in Ho. rewrite Ha, Hu in Ho. injection Ho as -> -> ->.
        unfold nontrivial. cbn. by rewrite Htd.
      * destruct Hok as (al & n & bo & Hb & Hae & Hu & T' & x' & id' & He' & -> & Hs & _).
        exists al, n, (Some (Obj T' x' id')). unfold block_of. cbn. repeat split; auto.
        cbn in Ho. rewrite Hb in Ho. injection Ho as -> -> ->. unfold nontrivial. cbn. by rewrite Htd.
    + intros k a' b Hk. seteq. cbn. rewrite lookup_insert. intros [= <-] Hp. cbn in Hp.
      split.
      * eapply owned_in_not_out; [done|]. exists i, a. set_solver.
      * intros k' a' Hk'. by seteq.
    + intros b y Hb. cbn in *. split; [by eapply inv_fresh|].
      destruct (heap_owner E {[i]} w b y HI Hb) as [(k & a' & Hk & Ha' & Hp)|]; [left|by right].
      seteq. eexists i, _. split; [set_solver|]. cbn. rewrite lookup_insert. split; [done|]. cbn. congruence.
    + split; [done|]. split.
      { by split. }
      split; [by split|]. cbn. rewrite lookup_insert. done.
  - assert (call_destroy E T (a_vp a) w = Ok tt (dtor_w E w T (a_vp a) id)) as H1.
    { unfold call_destroy. rewrite Htd. by eapply destroy_at_ok. }
    rewrite (Hrun _ H1). clear Hrun H1 Hslot. unfold dtor_w. rewrite Htd.
    destruct (a_vp a) as [k|b] eqn:Hp.
    + destruct Hok as [-> (T' & x' & id' & He' & Hu & Hf)]. cbn [write_w]. rewrite Ha.
      eexists _, _. split.
      { apply noexcept_ok. apply set_vt_ok. cbn. by rewrite lookup_insert. }
      cbn. rewrite Hp.
      match goal with |- Inv _ ?w1 /\ _ => destruct (inv_frame E {[i]} w w1) as [I V] end; try done.
      * intros k Hk. seteq. cbn. by rewrite !lookup_insert_ne.
      * intros k a' Hk. seteq. cbn. rewrite lookup_insert. intros [= <-]. cbn. done.
      * intros k a' b Hk. seteq. cbn. rewrite lookup_insert. intros [= <-]. done.
      * intros b y Hb. cbn in *. split; [by eapply inv_fresh|].
        destruct (heap_owner E {[i]} w b y HI Hb) as [(k & a' & Hk & Ha' & Hp')|]; [|by right].
        seteq. congruence.
      * split; [done|]. split.
        { by split. }
        split; [by split|]. cbn. rewrite lookup_insert. done.
    + destruct Hok as (al & n & bo & Hb & Hae & Hu & T' & x' & id' & He' & -> & Hs & _). cbn [write_w].
      rewrite Hb. eexists _, _. split.
      { apply noexcept_ok. apply set_vt_ok. cbn. done. }
      cbn. rewrite Hp.
      match goal with |- Inv _ ?w1 /\ _ => destruct (inv_frame E {[i]} w w1) as [I V] end; try done.
      * intros k Hk. seteq. cbn. by rewrite !lookup_insert_ne.
      * intros b' Hb'. cbn. rewrite lookup_insert_ne; [done|]. intros ->.
        eapply owned_in_not_out; [done| |done]. exists i, a. set_solver.
      * intros k a' Hk. seteq. cbn. rewrite lookup_insert. intros [= <-]. cbn. split; [|done]. split; [done|].
        cbn. exists al, n, None. unfold block_of. cbn. by rewrite lookup_insert.
      * intros k a' b' Hk. seteq. cbn. rewrite lookup_insert. intros [= <-] [= <-]. split.
        -- eapply owned_in_not_out; [done|]. exists i, a. set_solver.
        -- intros k' a' Hk'. by seteq.
      * intros b' y Hb'. cbn in *.
        destruct (decide (b' = b)) as [->|Hne].
        { split; [by eapply inv_fresh|]. left. eexists i, _. split; [set_solver|]. cbn.
          rewrite lookup_insert. done. }
        rewrite lookup_insert_ne in Hb' by done. split; [by eapply inv_fresh|].
        destruct (heap_owner E {[i]} w b' y HI Hb') as [(k & a' & Hk & Ha' & Hp')|]; [|by right].
        seteq. congruence.
      * split; [done|]. split.
        { by split. }
        split; [by split|]. cbn. rewrite lookup_insert. done.
Qed.

(** ** Weakest preconditions: normal result, exception, termination; never UB *)
Definition wp {A} (m : M A) (Q : A -> world -> Prop) (X : world -> Prop) (t : Prop) (w : world) : Prop :=
  match m w with Ok a w' => Q a w' | Exn w' => X w' | UB _ => False | Term => t end.

Lemma wp_bind {A B} (m : M A) (f : A -> M B) Q X t w :
  wp m (fun a w' => wp (f a) Q X t w') X t w -> wp (bindM m f) Q X t w.
Proof. unfold wp, bindM. by destruct (m w). Qed.
Lemma wp_ok {A} (m : M A) (Q : A -> world -> Prop) (X : world -> Prop) (t : Prop) w a w' : m w = Ok a w' -> Q a w' -> wp m Q X t w.
Proof. unfold wp. by intros ->. Qed.
Lemma wp_exn {A} (m : M A) (Q : A -> world -> Prop) (X : world -> Prop) (t : Prop) w w' : m w = Exn w' -> X w' -> wp m Q X t w.
Proof. unfold wp. by intros ->. Qed.
Lemma wp_bind_ok {A B} (m : M A) (f : A -> M B) (Q : B -> world -> Prop) X t w a w' :
  m w = Ok a w' -> wp (f a) Q X t w' -> wp (bindM m f) Q X t w.
Proof. unfold wp, bindM. by intros ->. Qed.
Lemma wp_ret {A} (a : A) (Q : A -> world -> Prop) (X : world -> Prop) (t : Prop) w : Q a w -> wp (retM a) Q X t w.
Proof. done. Qed.
Lemma wp_noexcept {A} (b : bool) (m : M A) (Q : A -> world -> Prop) (X : world -> Prop) (t : Prop) w :
  wp m Q (fun w' => if b then t else X w') t w -> wp (noexcept_if b m) Q X t w.
Proof. unfold wp, noexcept_if. destruct (m w); try done. by destruct b. Qed.
Lemma wp_onexn {A} (m : M A) h (Q : A -> world -> Prop) (X : world -> Prop) (t : Prop) w :
  wp m Q (fun w' => wp h (fun _ w'' => X w'') (fun _ => t) t w') t w -> wp (on_exn m h) Q X t w.
Proof. unfold wp, on_exn. destruct (m w) as [? ?|w1| |]; try done. destruct (h w1); done. Qed.
Lemma wp_mono {A} (m : M A) (Q Q' : A -> world -> Prop) (X X' : world -> Prop) (t t' : Prop) w :
  wp m Q X t w -> (forall a w', Q a w' -> Q' a w') -> (forall w', X w' -> X' w') -> (t -> t') ->
  wp m Q' X' t' w.
Proof. unfold wp. destruct (m w); auto. Qed.

Definition own1 (i : nat) (w : world) (b : nat) : Prop :=
  exists a, w_any w !! i = Some a /\ a_vp a = PHeap b.

Lemma inv_upd1 E w w' i a' :
  Inv E w -> w_sref w' = w_sref w -> w_any w' = <[i := a']> (w_any w) -> w_next w <= w_next w' ->
  any_ok E i a' (block_of w' a') -> home_ok w' a' ->
  (forall b, b < w_next w -> ~ own1 i w b -> w_heap w' !! b = w_heap w !! b) ->
  (forall b, a_vp a' = PHeap b -> own1 i w b \/ w_next w <= b) ->
  (forall b x, w_heap w' !! b = Some x ->
     b < w_next w' /\ (a_vp a' = PHeap b \/ (b < w_next w /\ ~ own1 i w b /\ w_heap w !! b = Some x))) ->
  Inv E w' /\ (forall k, k <> i -> view w' k = view w k).
Proof.
  intros HI Hs Hany Hn Hok Hh H1 H2 H3.
  assert (Hin : forall b, own1 i w b <-> owned_in {[i]} w b).
  { intros b. split.
    - intros (a & ? & ?). exists i, a. set_solver.
    - intros (k & a & Hk & ? & ?). seteq. by exists a. }
  destruct (inv_frame E {[i]} w w') as [I V]; try done.
  - intros k Hk. seteq. by rewrite Hany, lookup_insert_ne.
  - intros b Hb. apply H1.
    + destruct (decide (b < w_next w)); [done|]. exfalso. eapply fresh_not_out; [done| |done]. lia.
    + rewrite Hin. intros Ho. by eapply owned_in_not_out.
  - intros k a Hk. seteq. rewrite Hany, lookup_insert. by intros [= <-].
  - intros k a b Hk. seteq. rewrite Hany, lookup_insert. intros [= <-] Hp. split.
    + destruct (H2 _ Hp) as [Ho|Ho]; [apply Hin in Ho; by eapply owned_in_not_out|by eapply fresh_not_out].
    + intros k' a'' Hk'. by seteq.
  - intros b x Hb. destruct (H3 _ _ Hb) as [Hlt Hor]. split; [done|]. destruct Hor as [Hp|(Hlt2 & Hno & Hw)].
    + left. exists i, a'. rewrite Hany, lookup_insert. set_solver.
    + rewrite Hin in Hno. destruct (heap_owner E {[i]} w b x HI Hw); [done|by right].
  - split; [done|]. intros k Hk. apply V. set_solver.
Qed.

Lemma eff_upd1 w w' i a a' :
  w_any w !! i = Some a -> w_sref w' = w_sref w -> w_any w' = <[i := a']> (w_any w) -> w_next w <= w_next w' ->
  (forall k, k <> i -> view w' k = view w k) -> Eff {[i]} w w'.
Proof.
  intros Ha Hs Hany Hn V. split; [|done|done].
  intros k Hk. apply V. set_solver.
Qed.

Lemma own1_same E i w b a : Inv E w -> w_any w !! i = Some a -> own1 i w b <-> a_vp a = PHeap b.
Proof.
  intros HI Ha. split; [|intros H; by exists a]. intros (a' & Ha' & H). by simplify_eq.
Qed.

(** ** deallocate_memory, reset *)
Lemma deallocate_memory_spec E w i a b :
  Inv E w -> w_any w !! i = Some a -> a_vt a = None -> a_vp a = PHeap b ->
  exists w', deallocate_memory E i w = Ok tt w' /\ Inv E w' /\ Eff {[i]} w w' /\ Quiet w w' /\
    w_any w' = <[i := Any None (PData i) (a_un a) (a_alloc a) (a_ms a)]> (w_any w) /\
    w_heap w' = delete b (w_heap w) /\ w_next w' = w_next w.
Proof.
  intros HI Ha Hv Hp. pose proof (inv_ok _ _ HI _ _ Ha) as [Hd Hok]. unfold block_of in Hok.
  rewrite Hp, Hv in Hok. destruct Hok as (al & n & bo & Hb & Hae & Hu & Hf).
  eexists. split.
  { unfold deallocate_memory. apply noexcept_ok. rewrite (bind_get_any _ _ _ _ Ha).
    unfold has_val. rewrite Hv, (mem_allocated_heap i a b Hp). cbn [negb andb ensure].
    unfold bindM at 1, retM.
    rewrite (bind_ok _ _ _ _ _ (get_size_ok _ _ _ _ Ha Hu)), Hp.
    rewrite (bind_ok _ _ _ _ _ (deallocate_ok E w (a_alloc a) b _ n Hb Hae eq_refl Hf)).
    rewrite (set_vp_ok _ _ _ a) by done. rewrite Hv. done. }
  match goal with |- Inv _ ?w1 /\ _ => destruct (inv_upd1 E w w1 i (Any None (PData i) (a_un a) (a_alloc a) (a_ms a))) as [I V] end;
    try done; cbn.
  - split; [done|]. cbn. split; [done|]. by rewrite Hu.
  - intros b' Hlt Hno. rewrite lookup_delete_ne; [done|]. intros ->. apply Hno. by exists a.
  - intros b' x. destruct (decide (b = b')) as [<-|]; [by rewrite lookup_delete|].
    rewrite lookup_delete_ne by done. intros Hb'. split; [by eapply inv_fresh|]. right.
    split; [by eapply inv_fresh|]. split; [|done]. rewrite (own1_same E i w b' a HI Ha). congruence.
  - split; [done|]. split.
    { by eapply eff_upd1. }
    split; [done|]. done.
Qed.

Lemma reset_spec E w i a : Inv E w -> w_any w !! i = Some a ->
  exists w' a', reset E i w = Ok tt w' /\ Inv E w' /\ Eff {[i]} w w' /\ Quiet w w' /\
    w_any w' !! i = Some a' /\ a_vt a' = None /\ a_vp a' = PData i /\ a_alloc a' = a_alloc a /\
    a_ms a' = a_ms a.
Proof.
  intros HI Ha. destruct (destroy_value_spec _ _ _ _ HI Ha) as
    (w1 & a1 & H1 & I1 & E1 & Q1 & Ha1 & Hv1 & Hp1 & Hal1 & Hm1 & _).
  destruct (vp_cases _ _ _ _ I1 Ha1) as [[Hp Hma]|(b & Hp & Hma)].
  - exists w1, a1. split; [|done]. unfold reset. apply noexcept_ok.
    rewrite (bind_ok _ _ _ _ _ H1), (bind_get_any _ _ _ _ Ha1), Hma. done.
  - destruct (deallocate_memory_spec _ _ _ _ _ I1 Ha1 Hv1 Hp) as (w2 & H2 & I2 & E2 & Q2 & Hany & Hh & Hn).
    eexists w2, _. split.
    { unfold reset. apply noexcept_ok.
      rewrite (bind_ok _ _ _ _ _ H1), (bind_get_any _ _ _ _ Ha1), Hma. done. }
    split; [done|]. split; [by eapply eff_trans|]. split; [by eapply quiet_trans|].
    rewrite Hany, lookup_insert. split; [done|]. done.
Qed.

(** ** Constructor arguments *)
(** the argument is a value, or refers to the value held by an any other than [i] *)
Definition src_from (w : world) (i T : nat) (s : src) (v : nat) : Prop :=
  match s with
  | SVal v' => v' = v
  | SRef p => exists k a ob, k <> i /\ view w k = Some (a, ob) /\ a_vp a = p /\ content_of a ob = Some (T, v)
  end.

Lemma content_obj E w k a ob T v : Inv E w -> view w k = Some (a, ob) -> content_of a ob = Some (T, v) ->
  exists id, obj_at w (a_vp a) = Some (Obj T v id).
Proof.
  intros HI Hv Hc. unfold view in Hv. destruct (w_any w !! k) as [a0|] eqn:Ha; [|done].
  injection Hv as -> <-. pose proof (inv_ok _ _ HI _ _ Ha) as [_ Hok]. unfold content_of, block_of in *.
  destruct (a_vt a); [|done]. destruct (a_vp a) as [k'|b]; cbn.
  - destruct Hok as [-> _]. rewrite Ha. destruct (a_un a) as [| |o]; try done.
    destruct o; cbn in *. simplify_eq. by eexists.
  - destruct (w_heap w !! b) as [x|]; [|done]. destruct (b_obj x) as [o|]; [|done]. destruct o; cbn in *.
    simplify_eq. by eexists.
Qed.
Lemma src_from_reads E w i T s v : Inv E w -> src_from w i T s v -> src_reads w T s v.
Proof.
  intros HI. destruct s as [|p]; [done|]. intros (k & a & ob & _ & Hv & <- & Hc). by eapply content_obj.
Qed.
Lemma src_from_eff w w' i T s v : Eff {[i]} w w' -> src_from w i T s v -> src_from w' i T s v.
Proof.
  intros HE. destruct s as [|p]; [done|]. intros (k & a & ob & Hk & Hv & Hp & Hc). exists k, a, ob.
  rewrite (eff_view _ _ _ HE) by set_solver. done.
Qed.

Lemma allocs_log w w' : w_log w' = w_log w -> allocs w' = allocs w.
Proof. unfold allocs. by intros ->. Qed.

(** the new contents of any [i] after constructing T in its current place *)
Definition room (E : env) (i T : nat) (a : any) : Prop :=
  ty_align (e_ty E T) <= max_align /\
  match a_vp a with
  | PData k => k = i /\ fits E T = true
  | PHeap _ => exists n, a_un a = USize n /\ ty_size (e_ty E T) <= n
  end.

Lemma room_place_fit E w i T a : Inv E w -> w_any w !! i = Some a -> a_vt a = None -> room E i T a ->
  place_fit E w T (a_vp a).
Proof.
  intros HI Ha Hv [Hal Hr]. pose proof (inv_ok _ _ HI _ _ Ha) as [_ Hok]. unfold block_of in Hok.
  rewrite Hv in Hok. split; [done|]. destruct (a_vp a) as [k|b].
  - destruct Hr as [-> Hf]. exists a. split; [done|]. destruct Hok as [_ Hu]. split; [|done].
    unfold fits in Hf. apply andb_prop in Hf as [_ Hf]. by apply Nat.leb_le.
  - destruct Hr as (n & Hu & Hs). destruct Hok as (al & n' & bo & Hb & _ & Hu' & Hf).
    exists (Block al n' bo). split; [done|]. split; [|done]. cbn. congruence.
Qed.

(** what the world looks like when any [i] (empty) got object [o] in its place and vtable [vt] *)
Lemma fill_inv E w w' i a (o : option obj) vt :
  Inv E w -> w_any w !! i = Some a -> a_vt a = None -> w_sref w' = w_sref w -> w_next w <= w_next w' ->
  match a_vp a with
  | PData _ => w_any w' = <[i := Any vt (PData i) (match o with Some x => UObj x | None => UEmpty end) (a_alloc a) (a_ms a)]> (w_any w)
               /\ w_heap w' = w_heap w
  | PHeap b => w_any w' = <[i := Any vt (PHeap b) (a_un a) (a_alloc a) (a_ms a)]> (w_any w) /\
               exists x, w_heap w !! b = Some x /\ w_heap w' = <[b := Block (b_alloc x) (b_size x) o]> (w_heap w)
  end ->
  match o, vt with
  | Some x, Some v => room E i (o_ty x) a /\ vt_entries (a_ms a) v (o_ty x) /\ vt_alive w v
  | None, None => True
  | _, _ => False
  end ->
  Inv E w' /\ Eff {[i]} w w' /\
  content w' i = Some (match o with Some x => Some (o_ty x, o_val x) | None => None end).
Proof.
  intros HI Ha Hv Hs Hn Hw Ho. pose proof (inv_ok _ _ HI _ _ Ha) as [Hd Hok]. unfold block_of in Hok.
  rewrite Hv in Hok. destruct (a_vp a) as [k|b] eqn:Hp.
  - destruct Hw as [Hany Hh]. destruct Hok as [-> Hu].
    destruct (inv_upd1 E w w' i (Any vt (PData i) (match o with Some x => UObj x | None => UEmpty end) (a_alloc a) (a_ms a))) as [I V]; try done.
    + split; [done|]. cbn. split; [done|]. destruct o as [[T x id]|], vt as [v|]; try done.
      destruct Ho as [[_ Hr] [He _]]. rewrite Hp in Hr. exists T, x, id. by destruct Hr.
    + unfold home_ok, vt_alive. cbn. destruct vt as [v|]; [|done]. destruct o; [|done].
      destruct Ho as (_ & _ & Hal). by rewrite Hs.
    + intros b _ _. by rewrite Hh.
    + rewrite Hh. intros b x Hb. split; [apply (inv_fresh _ _ HI) in Hb; lia|]. right.
      split; [by eapply inv_fresh|]. split; [|done]. rewrite (own1_same E i w b a HI Ha). congruence.
    + split; [done|]. split; [by eapply eff_upd1|]. unfold content, view. rewrite Hany, lookup_insert. cbn.
      destruct o as [[]|], vt; try done.
  - destruct Hw as [Hany (x & Hb & Hh)]. destruct Hok as (al & n & bo & Hb' & Hae & Hu & Hf).
    rewrite Hb in Hb'. injection Hb' as ->. cbn in *.
    destruct (inv_upd1 E w w' i (Any vt (PHeap b) (a_un a) (a_alloc a) (a_ms a))) as [I V]; try done.
    + split; [done|]. cbn. exists al, n, o. unfold block_of. cbn. rewrite Hh, lookup_insert.
      repeat split; try done. destruct o as [[T x id]|], vt as [v|]; try done.
      destruct Ho as ((Hal & Hr) & He & _). rewrite Hp in Hr. destruct Hr as (n' & Hu' & Hsz). exists T, x, id.
      rewrite Hu in Hu'. injection Hu' as <-. done.
    + unfold home_ok, vt_alive. cbn. destruct vt as [v|]; [|done]. destruct o; [|done].
      destruct Ho as (_ & _ & Hal). by rewrite Hs.
    + intros b' Hlt Hno. rewrite Hh, lookup_insert_ne; [done|]. intros ->. apply Hno. by exists a.
    + cbn. intros b' [= <-]. left. by exists a.
    + cbn. intros b' y Hy. rewrite Hh in Hy. destruct (decide (b' = b)) as [->|Hne].
      { split; [apply (inv_fresh _ _ HI) in Hb; lia|]. by left. }
      rewrite lookup_insert_ne in Hy by done. split; [apply (inv_fresh _ _ HI) in Hy; lia|]. right.
      split; [by eapply inv_fresh|]. split; [|done]. rewrite (own1_same E i w b' a HI Ha). congruence.
    + split; [done|]. split; [by eapply eff_upd1|]. unfold content, view, block_of. rewrite Hany, lookup_insert. cbn.
      rewrite Hh, lookup_insert. destruct o as [[]|], vt; try done.
Qed.

Lemma construct_value_spec E w i a T s v nt t :
  Inv E w -> w_any w !! i = Some a -> a_vt a = None -> room E i T a -> src_from w i T s v ->
  wp (construct_value E i T s nt)
     (fun _ w' => Inv E w' /\ Eff {[i]} w w' /\ content w' i = Some (Some (T, v)) /\
        allocs w' = allocs w /\
        exists a', w_any w' !! i = Some a' /\ a_vt a' = Some (addr_vtable_for T (a_ms a)) /\ a_vp a' = a_vp a /\
          a_alloc a' = a_alloc a /\ a_ms a' = a_ms a /\ (forall b, a_vp a = PHeap b -> a_un a' = a_un a))
     (fun w' => nt = false /\ Inv E w' /\ Eff {[i]} w w' /\ allocs w' = allocs w /\
        (forall b x, w_heap w !! b = Some x -> a_vp a = PHeap b ->
            w_heap w' = <[b := Block (b_alloc x) (b_size x) None]> (w_heap w)) /\
        (a_vp a = PData i -> w_heap w' = w_heap w) /\
        exists a', w_any w' !! i = Some a' /\ a_vt a' = None /\ a_vp a' = a_vp a /\
          a_alloc a' = a_alloc a /\ a_ms a' = a_ms a /\ (forall b, a_vp a = PHeap b -> a_un a' = a_un a) /\
          w_any w' = <[i := a']> (w_any w))
     t w.
Proof.
  intros HI Ha Hv Hr Hsrc. pose proof (room_place_fit _ _ _ _ _ HI Ha Hv Hr) as Hpf.
  pose proof (src_from_reads _ _ _ _ _ _ HI Hsrc) as Hrd.
  pose proof (inv_ok _ _ HI _ _ Ha) as [Hd Hok]. unfold block_of in Hok. rewrite Hv in Hok.
  unfold construct_value. apply wp_noexcept. eapply wp_bind_ok; [by apply get_any_ok|]. apply wp_bind.
  destruct (decide (nt = true \/ e_throws E (w_tick w) = false)) as [Hnt|Hnt].
  - eapply wp_ok; [by apply construct_ok|].
    set (w1 := ctor_w E w T (a_vp a) v (negb nt)).
    assert (Hw1 : w_sref w1 = w_sref w /\ w_next w1 = S (w_next w) /\ allocs w1 = allocs w /\
      match a_vp a with
      | PData _ => w_any w1 = <[i := Any None (PData i) (UObj (Obj T v (w_next w))) (a_alloc a) (a_ms a)]> (w_any w)
               /\ w_heap w1 = w_heap w
      | PHeap b => w_any w1 = w_any w /\
               exists x, w_heap w !! b = Some x /\ w_heap w1 = <[b := Block (b_alloc x) (b_size x) (Some (Obj T v (w_next w)))]> (w_heap w)
      end).
    { unfold w1, ctor_w. destruct (a_vp a) as [k|b] eqn:Hp.
      - destruct Hok as [-> _]. cbn. destruct (negb nt), (ty_tdestr _); cbn; rewrite Ha, Hv, Hp; cbn; done.
      - destruct Hok as (al & n & bo & Hb & _). cbn.
        destruct (negb nt), (ty_tdestr _); cbn; rewrite Hb; cbn; repeat split; try done; by eexists. }
    clearbody w1. destruct Hw1 as (Hs1 & Hn1 & Hal1 & Hw1).
    assert (exists a1, w_any w1 !! i = Some a1 /\ a_vp a1 = a_vp a /\ a_alloc a1 = a_alloc a /\ a_ms a1 = a_ms a /\
       (forall b, a_vp a = PHeap b -> a_un a1 = a_un a) /\
       (forall k, a_vp a = PData k -> a_un a1 = UObj (Obj T v (w_next w)))) as (a1 & Ha1 & Hp1 & Hl1 & Hm1 & Hu1 & Hu1').
    { destruct (a_vp a) as [k|b] eqn:Hp.
      - destruct Hok as [-> _]. destruct Hw1 as [-> _]. rewrite lookup_insert. eexists. split; [done|]. done.
      - destruct Hw1 as [-> _]. exists a. repeat split; try done. }
    eapply wp_ok; [by apply set_vt_ok|].
    match goal with |- Inv _ ?w2 /\ _ => set (w2' := w2) end.
    destruct (fill_inv E w w2' i a (Some (Obj T v (w_next w))) (Some (addr_vtable_for T (a_ms a)))) as (I & F & C); try done.
    + unfold w2'. cbn. lia.
    + unfold w2'. cbn. destruct (a_vp a) as [k|b] eqn:Hp.
      * destruct Hok as [-> _]. destruct Hw1 as [Hany Hh]. split; [|done].
        rewrite Hp1, Hl1, Hm1, (Hu1' i eq_refl), Hany. by rewrite insert_insert.
      * destruct Hw1 as [Hany Hh]. rewrite Hp1, Hl1, Hm1, (Hu1 b eq_refl), Hany. done.
    + cbn. split; [done|]. split; [apply addr_vtable_entries|done].
    + split; [done|]. split; [done|]. split; [done|]. split; [done|].
      unfold w2'. cbn. rewrite lookup_insert. eexists. split; [done|]. cbn. rewrite Hm1. done.
  - assert (nt = false /\ e_throws E (w_tick w) = true) as [-> Ht].
    { destruct nt, (e_throws E (w_tick w)); try done; exfalso; apply Hnt; auto. }
    eapply wp_exn; [by eapply construct_exn|].
    match goal with |- _ /\ Inv _ ?w2 /\ _ => set (w2' := w2) end.
    assert (Hw1 : w_sref w2' = w_sref w /\ w_next w2' = w_next w /\ allocs w2' = allocs w /\
      match a_vp a with
      | PData _ => w_any w2' = <[i := Any None (PData i) UEmpty (a_alloc a) (a_ms a)]> (w_any w)
               /\ w_heap w2' = w_heap w
      | PHeap b => w_any w2' = <[i := Any None (PHeap b) (a_un a) (a_alloc a) (a_ms a)]> (w_any w) /\
               exists x, w_heap w !! b = Some x /\ w_heap w2' = <[b := Block (b_alloc x) (b_size x) None]> (w_heap w)
      end).
    { unfold w2'. destruct (a_vp a) as [k|b] eqn:Hp.
      - destruct Hok as [-> _]. cbn. rewrite Ha, Hv, Hp. done.
      - destruct Hok as (al & n & bo & Hb & _). cbn. rewrite Hb. cbn. repeat split; try done; [|by eexists].
        rewrite insert_id; [done|]. destruct a; cbn in *; congruence. }
    clearbody w2'. destruct Hw1 as (Hs1 & Hn1 & Hal1 & Hw1).
    destruct (fill_inv E w w2' i a None None) as (I & F & C); try done; [lia|].
    split; [done|]. split; [done|]. split; [done|]. split; [done|].
    destruct (a_vp a) as [k|b] eqn:Hp.
    + destruct Hok as [-> _]. destruct Hw1 as [-> ->]. split; [done|]. split; [done|].
      rewrite lookup_insert. by eexists.
    + destruct Hw1 as [-> (x & Hx & ->)]. split; [|split; [done|]].
      { intros b' x' Hx' [= <-]. congruence. }
      rewrite lookup_insert. by eexists.
Qed.
