(** The properties of basic_any over reachable states, derived from the specifications of its members. *)
From stdpp Require Import gmap list.
From Verif Require Import TypeListModel TypeListSpec TypeListProofs AnyModel AnyInv AnySteps AnyOps AnyMove
  AnyLife AnyAssign AnyRefs AnyHistory AnyLogSpec AnyLog AnyExec.

(** ** Vocabulary *)

(** the object an any currently contains *)
Definition contained (w : world) (i : nat) : option obj :=
  match w_any w !! i with
  | Some a => match a_vt a with Some _ => obj_at w (a_vp a) | None => None end
  | None => None
  end.
(** block [b] is the memory of any [i] *)
Definition owns (w : world) (i b : nat) : Prop := exists a, w_any w !! i = Some a /\ a_vp a = PHeap b.
(** where the value of any [i] is *)
Definition address (w : world) (i : nat) : option ptr :=
  match w_any w !! i with
  | Some a => match a_vt a with Some _ => Some (a_vp a) | None => None end
  | None => None
  end.
Definition is_empty (w : world) (i : nat) : Prop := content w i = Some None.
(** result of running an operation, exception or not *)
Definition outcome (E : env) (o : op) (w w' : world) : Prop := run E o w = Ok tt w' \/ run E o w = Exn w'.

(** the objects with a non-trivial destructor that are contained in some any *)
Definition held (E : env) (w : world) : gmap nat (nat * nat) :=
  map_imap (fun i _ => match contained w i with
                       | Some o => if ty_tdestr (e_ty E (o_ty o)) then None else Some (o_id o, o_ty o)
                       | None => None end) (w_any w).

(** ** Safety *)
Lemma reachable_outcome E w o w' : reachable E w -> pre E w o -> alloc_safe E w o -> outcome E o w w' -> reachable E w'.
Proof. intros Hr Hp Hs [H|H]; [by eapply reach_ok|by eapply reach_exn]. Qed.

Lemma every_program E l w : e_always_eq E = true -> allowed E l init_world -> exec E l init_world = Ok tt w -> reachable E w.
Proof. intros He Ha Hx. eapply exec_reachable; [apply reach_init|by apply always_allowed|done]. Qed.

Lemma memory_safe E l r : env_wf E -> e_always_eq E = true -> allowed E l init_world -> exec E l init_world <> UB r.
Proof. intros Hwf He Ha. apply exec_safe; [done|apply reach_init|by apply always_allowed]. Qed.

Lemma terminates_only_force E l : env_wf E -> e_always_eq E = true -> allowed E l init_world -> exec E l init_world = Term ->
  exists i ms T s, In (OForce i ms T s true) l /\ fits E T = true.
Proof.
  intros Hwf He Ha. pose proof (reach_init E) as Hr. revert Ha Hr. generalize init_world.
  induction l as [|o tl IH]; intros w Ha Hr Ht; cbn in *; [done|].
  destruct Ha as (Hp & Ha). pose proof (always_alloc_safe _ _ _ He Hp) as Hs.
  pose proof (step_safe E w o Hwf (reachable_inv _ _ Hwf Hr) Hp Hs) as H. unfold wp in H.
  assert (Hrec : forall w1, reachable E w1 -> allowed E tl w1 -> exec E tl w1 = Term ->
     exists i ms T s, In (OForce i ms T s true) (o :: tl) /\ fits E T = true).
  { intros w1 H1 H2 H3. destruct (IH w1 H2 H1 H3) as (i & ms & T & s & Hin & Hf). exists i, ms, T, s. split; [by right|done]. }
  destruct (run E o w) as [[] w1|w1| |] eqn:Hrun; try done.
  - eapply Hrec; [by eapply reach_ok|done|done].
  - eapply Hrec; [by eapply reach_exn|done|done].
  - destruct o; cbn in H; try done; try (destruct H; congruence). apply andb_prop in H as [-> Hf].
    exists i, ms, T, s. split; [by left|done].
Qed.

(** ** Blocks and objects *)
Lemma blocks_owned E w : env_wf E -> reachable E w ->
  exists m, blocks (fun a b => alloc_eqb E a b = true) (w_log w) m /\
    (forall b, is_Some (m !! b) <-> exists i, owns w i b) /\
    (forall b i j, owns w i b -> owns w j b -> i = j).
Proof.
  intros Hwf Hr. pose proof (reachable_inv _ _ Hwf Hr) as HI. pose proof (reachable_LI _ Hwf _ Hr) as [HL _ _ _ _].
  eexists. split; [exact HL|]. split.
  - intros b. rewrite lookup_fmap, fmap_is_Some. split.
    + intros [x Hx]. destruct (inv_own _ _ HI _ _ Hx) as (i & a & Ha & Hp). exists i, a. done.
    + intros (i & a & Ha & Hp). destruct (any_block _ _ _ _ _ HI Ha Hp) as (al & n & bo & Hb & _). by eexists.
  - intros b i j (a & Ha & Hp) (a' & Ha' & Hp'). by eapply (inv_inj _ _ HI).
Qed.

Lemma no_leak E w : env_wf E -> reachable E w -> w_any w = ∅ ->
  blocks (fun a b => alloc_eqb E a b = true) (w_log w) ∅ /\ count is_malloc (w_log w) = count is_free (w_log w).
Proof.
  intros Hwf Hr Hn. destruct (blocks_owned _ _ Hwf Hr) as (m & Hb & Ho & _).
  assert (m = ∅) as ->.
  { apply map_eq. intros b. rewrite lookup_empty. destruct (m !! b) as [x|] eqn:Hx; [|done]. exfalso.
    destruct (proj1 (Ho b)) as (i & a & Ha & _); [by eexists|]. by rewrite Hn in Ha. }
  split; [done|]. rewrite (blocks_count _ _ _ Hb), map_size_empty. lia.
Qed.

Lemma nt_contained E w p id T : Inv E w -> nt_at E w p = Some (id, T) ->
  exists i a v, w_any w !! i = Some a /\ a_vp a = p /\ contained w i = Some (Obj T v id) /\ ty_tdestr (e_ty E T) = false.
Proof.
  intros HI. unfold nt_at, nt_of. destruct (obj_at w p) as [o|] eqn:Ho; [|done].
  destruct (ty_tdestr _) eqn:Ht; [done|]. intros [= <- <-]. destruct p as [i|b].
  - cbn in Ho. destruct (w_any w !! i) as [a|] eqn:Ha; [|done]. destruct (a_un a) as [| |o'] eqn:Hu; try done.
    injection Ho as ->. pose proof (inv_ok _ _ HI _ _ Ha) as [_ Hok]. destruct (a_vp a) as [k|b] eqn:Hp.
    + destruct Hok as [-> Hok]. exists i, a, (o_val o). split; [done|]. split; [done|]. split; [|done].
      unfold contained. rewrite Ha, Hp. destruct (a_vt a).
      * cbn. rewrite Ha, Hu. by destruct o.
      * rewrite Hu in Hok. cbn in Hok. unfold nontrivial in Hok. rewrite Ht in Hok. done.
    + destruct Hok as (al & n & bo & _ & _ & Hu' & _). congruence.
  - cbn in Ho. destruct (w_heap w !! b) as [x|] eqn:Hx; [|done]. destruct (inv_own _ _ HI _ _ Hx) as (i & a & Ha & Hp).
    exists i, a, (o_val o). split; [done|]. split; [done|]. split; [|done]. unfold contained. rewrite Ha, Hp. destruct (a_vt a) eqn:Hv.
    + cbn. rewrite Hx, Ho. by destruct o.
    + pose proof (inv_ok _ _ HI _ _ Ha) as [_ Hok]. unfold block_of in Hok. rewrite Hp, Hv in Hok.
      destruct Hok as (al & n & bo & Hb & _ & _ & Hf). rewrite Hx in Hb. injection Hb as ->. cbn in Ho. subst.
      cbn in Hf. unfold nontrivial in Hf. rewrite Ht in Hf. done.
Qed.

Lemma held_lookup E w i id T : held E w !! i = Some (id, T) <->
  exists v, contained w i = Some (Obj T v id) /\ ty_tdestr (e_ty E T) = false.
Proof.
  unfold held. rewrite map_lookup_imap. split.
  - destruct (w_any w !! i) eqn:Ha; [|done]. cbn. destruct (contained w i) as [[T' v id']|]; [|done]. cbn.
    destruct (ty_tdestr _) eqn:Ht; [done|]. intros [= <- <-]. by exists v.
  - intros (v & Hc & Ht). destruct (w_any w !! i) eqn:Ha.
    + cbn. rewrite Hc. cbn. by rewrite Ht.
    + unfold contained in Hc. by rewrite Ha in Hc.
Qed.

Lemma contained_place w i o : contained w i = Some o -> exists a, w_any w !! i = Some a /\ obj_at w (a_vp a) = Some o.
Proof. unfold contained. destruct (w_any w !! i) as [a|]; [|done]. destruct (a_vt a); [|done]. by exists a. Qed.

Lemma place_inj E w i j a a' : Inv E w -> w_any w !! i = Some a -> w_any w !! j = Some a' -> a_vp a = a_vp a' -> i = j.
Proof.
  intros HI Ha Ha' Hp. pose proof (inv_ok _ _ HI _ _ Ha) as [_ H1]. pose proof (inv_ok _ _ HI _ _ Ha') as [_ H2].
  rewrite Hp in H1. destruct (a_vp a') eqn:Hp'.
  - destruct H1 as [-> _]. by destruct H2.
  - by eapply (inv_inj _ _ HI).
Qed.

Lemma bijection_size {A} (m : gmap nat A) (h : gmap nat (nat * A)) :
  (forall id x, m !! id = Some x <-> exists i, h !! i = Some (id, x)) ->
  (forall i j id x y, h !! i = Some (id, x) -> h !! j = Some (id, y) -> i = j) -> size m = size h.
Proof.
  revert m. induction h as [|i [id x] h Hi IH] using map_ind; intros m Hb Hj.
  - assert (m = ∅) as ->; [|by rewrite !map_size_empty]. apply map_eq. intros k. rewrite lookup_empty.
    destruct (m !! k) eqn:Hk; [|done]. apply Hb in Hk as [? ?]. done.
  - rewrite map_size_insert_None by done. rewrite <- (IH (delete id m)).
    + assert (Hm : m !! id = Some x). { apply Hb. exists i. by rewrite lookup_insert. }
      rewrite map_size_delete_Some by by eexists. assert (size m <> 0); [|lia].
      intros Hz. apply map_size_empty_inv in Hz. by subst.
    + intros k y. rewrite lookup_delete_Some, Hb. split.
      * intros (Hne & j & Hh). exists j. destruct (decide (i = j)) as [<-|].
        -- rewrite lookup_insert in Hh. congruence.
        -- by rewrite lookup_insert_ne in Hh.
      * intros (j & Hh). assert (j <> i) by (intros ->; congruence). split; [|exists j; by rewrite lookup_insert_ne].
        intros ->. apply H. apply (Hj j i k y x); [by rewrite lookup_insert_ne|by rewrite lookup_insert].
    + intros j k z y y' H1 H2. assert (j <> i) by (intros ->; congruence). assert (k <> i) by (intros ->; congruence).
      apply (Hj j k z y y'); by rewrite lookup_insert_ne.
Qed.

Lemma objects_held E w : env_wf E -> reachable E w ->
  exists m, objects (w_log w) m /\
    (forall id T, m !! id = Some T <-> exists i, held E w !! i = Some (id, T)) /\
    (forall i j id T T', held E w !! i = Some (id, T) -> held E w !! j = Some (id, T') -> i = j) /\
    count is_ctor (w_log w) = count is_dtor (w_log w) + size (held E w).
Proof.
  intros Hwf Hr. pose proof (reachable_inv _ _ Hwf Hr) as HI. pose proof (reachable_LI _ Hwf _ Hr) as [_ _ _ (m & Hm & Hiff) Hinj].
  assert (H1 : forall id T, m !! id = Some T <-> exists i, held E w !! i = Some (id, T)).
  { intros id T. rewrite Hiff. split.
    - intros (p & Hp). destruct (nt_contained _ _ _ _ _ HI Hp) as (i & a & v & Ha & _ & Hc & Ht). exists i. apply held_lookup. by exists v.
    - intros (i & (v & Hc & Ht)%held_lookup). apply contained_place in Hc as (a & Ha & Ho). exists (a_vp a).
      unfold nt_at. rewrite Ho. cbn. by rewrite Ht. }
  assert (H2 : forall i j id T T', held E w !! i = Some (id, T) -> held E w !! j = Some (id, T') -> i = j).
  { intros i j id T T' (v & Hc & Ht)%held_lookup (v' & Hc' & Ht')%held_lookup.
    apply contained_place in Hc as (a & Ha & Ho). apply contained_place in Hc' as (a' & Ha' & Ho').
    eapply place_inj; [done|done|done|]. eapply (Hinj (a_vp a) (a_vp a') id T T'); unfold nt_at; rewrite ?Ho, ?Ho'; cbn; by rewrite ?Ht, ?Ht'. }
  exists m. split; [done|]. split; [done|]. split; [done|].
  rewrite (objects_count _ _ Hm). f_equal. by apply bijection_size.
Qed.

Lemma all_destroyed E w : env_wf E -> reachable E w -> w_any w = ∅ -> count is_ctor (w_log w) = count is_dtor (w_log w).
Proof.
  intros Hwf Hr Hn. destruct (objects_held _ _ Hwf Hr) as (m & _ & _ & _ & ->).
  assert (held E w = ∅) as ->; [|rewrite map_size_empty; lia]. apply map_eq. intros i. unfold held. rewrite Hn. done.
Qed.

(** an object that was constructed and is not contained any more has had its destructor run, once;
    one that is contained has not *)
Definition dtors_of (id : nat) (l : list event) : nat := count (fun e => match e with EvDtor k _ => k =? id | _ => false end) l.
Lemma count_cons P e l : count P (e :: l) = (if P e then S (count P l) else count P l).
Proof. unfold count. cbn. by destruct (P e). Qed.
Lemma objects_in_ctor l m id T : objects l m -> m !! id = Some T -> exists T', In (EvCtor id T') l.
Proof.
  intros H. revert id T. induction H as [|l m i T Ho IH Hnew|l m i T Ho IH Hm|l m b al n Ho IH|l m b al n Ho IH]; intros id T0 Hex.
  - done.
  - destruct (decide (i = id)) as [->|]; [exists T; by left|]. rewrite lookup_insert_ne in Hex by done.
    destruct (IH _ _ Hex) as (T'' & ?). exists T''. by right.
  - apply lookup_delete_Some in Hex as [_ Hex]. destruct (IH _ _ Hex) as (T'' & ?). exists T''. by right.
  - destruct (IH _ _ Hex) as (T'' & ?). exists T''. by right.
  - destruct (IH _ _ Hex) as (T'' & ?). exists T''. by right.
Qed.
Lemma objects_dtor_ctor l m id T : objects l m -> In (EvDtor id T) l -> exists T', In (EvCtor id T') l.
Proof.
  induction 1 as [|l m i T1 Ho IH Hnew|l m i T1 Ho IH Hm|l m b al n Ho IH|l m b al n Ho IH].
  - done.
  - intros [?|Hin]; [done|]. destruct (IH Hin) as [T' ?]. exists T'. by right.
  - intros [[= -> ->]|Hin].
    + destruct (objects_in_ctor _ _ _ _ Ho Hm) as [T' ?]. exists T'. by right.
    + destruct (IH Hin) as [T' ?]. exists T'. by right.
  - intros [?|Hin]; [done|]. destruct (IH Hin) as [T' ?]. exists T'. by right.
  - intros [?|Hin]; [done|]. destruct (IH Hin) as [T' ?]. exists T'. by right.
Qed.
Lemma dtors_of_none l m id : objects l m -> (forall T, ~ In (EvCtor id T) l) -> dtors_of id l = 0.
Proof.
  intros Ho Hn. unfold dtors_of, count. destruct (List.filter _ l) as [|e tl] eqn:Hf; [done|]. exfalso.
  assert (Hin : In e (List.filter (fun e => match e with EvDtor k _ => k =? id | _ => false end) l)) by (rewrite Hf; by left).
  apply filter_In in Hin as [Hin He]. destruct e as [| | |k T]; try done. apply Nat.eqb_eq in He as ->.
  destruct (objects_dtor_ctor _ _ _ _ Ho Hin) as [T' H']. by apply Hn in H'.
Qed.
Lemma objects_once l m id T : objects l m -> In (EvCtor id T) l ->
  match m !! id with Some T' => T' = T /\ dtors_of id l = 0 | None => dtors_of id l = 1 end.
Proof.
  intros H. revert id T. induction H as [|l m i T Ho IH Hnew|l m i T Ho IH Hm|l m b al n Ho IH|l m b al n Ho IH]; intros id T0 Hin.
  - done.
  - unfold dtors_of in *. rewrite count_cons. destruct (decide (i = id)) as [->|Hne].
    + rewrite lookup_insert. destruct Hin as [[= ->]|Hin]; [|by apply Hnew in Hin]. split; [done|].
      by eapply dtors_of_none.
    + rewrite lookup_insert_ne by done. destruct Hin as [[= ? ?]|Hin]; [done|]. by apply (IH id T0).
  - unfold dtors_of in *. rewrite count_cons. destruct Hin as [?|Hin]; [done|]. specialize (IH id T0 Hin).
    destruct (Nat.eqb_spec i id) as [->|Hne].
    + rewrite lookup_delete. rewrite Hm in IH. destruct IH as [_ ->]. done.
    + rewrite lookup_delete_ne by done. done.
  - destruct Hin as [?|Hin]; [done|]. unfold dtors_of in *. rewrite count_cons. by apply (IH id T0).
  - destruct Hin as [?|Hin]; [done|]. unfold dtors_of in *. rewrite count_cons. by apply (IH id T0).
Qed.
Lemma destroyed_once E w id T : env_wf E -> reachable E w -> In (EvCtor id T) (w_log w) ->
  ((exists i, held E w !! i = Some (id, T)) /\ dtors_of id (w_log w) = 0) \/
  ((forall i T', held E w !! i <> Some (id, T')) /\ dtors_of id (w_log w) = 1).
Proof.
  intros Hwf Hr Hin. destruct (objects_held _ _ Hwf Hr) as (m & Hm & Hiff & _). pose proof (objects_once _ _ _ _ Hm Hin) as H.
  destruct (m !! id) as [T'|] eqn:Hl.
  - destruct H as [-> H]. left. split; [|done]. by apply Hiff.
  - right. split; [|done]. intros i T' Hh. assert (m !! id = Some T') by (apply Hiff; by exists i). congruence.
Qed.

(** ** Values *)
Lemma content_contained E w i : Inv E w -> content w i =
  match w_any w !! i with Some _ => Some (match contained w i with Some o => Some (o_ty o, o_val o) | None => None end) | None => None end.
Proof.
  intros HI. unfold content, view, contained. destruct (w_any w !! i) as [a|] eqn:Ha; [|done]. f_equal.
  unfold content_of, block_of. pose proof (inv_ok _ _ HI _ _ Ha) as [_ Hok]. destruct (a_vt a); [|done].
  destruct (a_vp a) as [k|b]; cbn.
  - destruct Hok as [-> _]. rewrite Ha. by destruct (a_un a).
  - by destruct (w_heap w !! b).
Qed.

Lemma view_content w w' k : view w' k = view w k -> content w' k = content w k.
Proof. unfold content. by intros ->. Qed.
Lemma view_address w w' k : view w' k = view w k -> address w' k = address w k.
Proof.
  unfold view, address. destruct (w_any w' !! k) as [a'|], (w_any w !! k) as [a|]; try done. by intros [= -> _].
Qed.
Lemma view_contained E w w' k : Inv E w -> view w' k = view w k -> contained w' k = contained w k.
Proof.
  intros HI. unfold view, contained. destruct (w_any w' !! k) as [a'|] eqn:Ha', (w_any w !! k) as [a|] eqn:Ha; try done.
  intros [= -> Hb]. destruct (a_vt a); [|done]. unfold block_of in Hb. pose proof (inv_ok _ _ HI _ _ Ha) as [_ Hok].
  destruct (a_vp a) as [j|b]; cbn.
  - destruct Hok as [-> _]. by rewrite Ha, Ha'.
  - by rewrite Hb.
Qed.

Lemma frame E w w' o k : env_wf E -> reachable E w -> pre E w o -> alloc_safe E w o -> outcome E o w w' ->
  k ∉ touches o -> content w' k = content w k /\ address w' k = address w k /\ contained w' k = contained w k.
Proof.
  intros Hwf Hr Hp Hs Ho Hk. pose proof (reachable_inv _ _ Hwf Hr) as HI. pose proof (step_safe E w o Hwf HI Hp Hs) as H. unfold wp in H.
  assert (untouched (touches o) w w') as Hu by (destruct Ho as [Ho|Ho]; rewrite Ho in H; by destruct H).
  specialize (Hu k Hk). split; [by apply view_content|]. split; [by apply view_address|]. by eapply view_contained.
Qed.

Lemma copy_equal E w w' i j ms : env_wf E -> reachable E w -> pre E w (OCopy i j ms) -> run E (OCopy i j ms) w = Ok tt w' ->
  content w' i = content w j /\ content w' j = content w j /\ address w' j = address w j /\
  (forall p q, address w' i = Some p -> address w' j = Some q -> p <> q).
Proof.
  intros Hwf Hr Hp Hrun. pose proof (reachable_inv _ _ Hwf Hr) as HI.
  assert (alloc_safe E w (OCopy i j ms)) as Hs by done.
  assert (Hij : j <> i). { destruct Hp as (Hi & _ & a & Ha & _). congruence. }
  destruct (frame E w w' _ j Hwf Hr Hp Hs (or_introl Hrun)) as (Hc & Had & _); [cbn; set_solver|].
  destruct Hp as (Hi & Hd & a & Ha & Hct & Hcp).
  pose proof (copy_ctor_spec E w i j a ms Hwf HI Hi Ha Hd Hct Hcp) as H. unfold wp in H. cbn in Hrun. rewrite Hrun in H.
  destruct H as (I & F & Hco & _). split; [done|]. split; [done|]. split; [done|].
  intros p q Hpp Hq. unfold address in Hpp, Hq. destruct (w_any w' !! i) as [ai|] eqn:Hai; [|done]. destruct (w_any w' !! j) as [aj|] eqn:Haj; [|done].
  destruct (a_vt ai); [|done]. destruct (a_vt aj); [|done]. intros ->. simplify_eq. apply Hij. symmetry. eapply (place_inj E w' i j ai aj); [done..|congruence].
Qed.

Lemma move_ctor_fact E w w' i j : env_wf E -> reachable E w -> pre E w (OMove i j) -> outcome E (OMove i j) w w' ->
  run E (OMove i j) w = Ok tt w' /\ content w' i = content w j /\ is_empty w' j.
Proof.
  intros Hwf Hr (Hi & a & Ha & Hm) Ho. pose proof (reachable_inv _ _ Hwf Hr) as HI.
  pose proof (move_ctor_spec E w i j a Hwf HI Hi Ha Hm) as H. unfold wp in H. destruct Ho as [Ho|Ho]; cbn in Ho; rewrite Ho in H; [|done].
  destruct H as (_ & _ & H1 & H2 & _). done.
Qed.
Lemma trans_move_fact E w w' i j ms : env_wf E -> reachable E w -> pre E w (OTransMove i j ms) -> alloc_safe E w (OTransMove i j ms) ->
  outcome E (OTransMove i j ms) w w' ->
  run E (OTransMove i j ms) w = Ok tt w' /\ content w' i = content w j /\ is_empty w' j.
Proof.
  intros Hwf Hr (Hi & Hd & a & Ha & Hct & Hm) (a' & Ha' & Hs) Ho. pose proof (reachable_inv _ _ Hwf Hr) as HI.
  rewrite Ha in Ha'. injection Ha' as <-.
  assert (forall b, a_vp a = PHeap b -> a_vt a <> None -> alloc_eqb E (e_def_alloc E) (a_alloc a) = true) as Hal.
  { intros b Hb Hv. destruct Hs as [?|[?|?]]; [done|congruence|done]. }
  pose proof (trans_move_ctor_spec E w i j a ms Hwf HI Hi Ha Hd Hct Hm Hal) as H. unfold wp in H. destruct Ho as [Ho|Ho]; cbn in Ho; rewrite Ho in H; [|done].
  destruct H as (_ & _ & H1 & H2 & _). done.
Qed.
Lemma move_assign_fact E w w' i j : env_wf E -> reachable E w -> pre E w (OMoveAssign i j) -> alloc_safe E w (OMoveAssign i j) ->
  run E (OMoveAssign i j) w = Ok tt w' ->
  if decide (i = j) then w' = w else content w' i = content w j /\ is_empty w' j.
Proof.
  intros Hwf Hr (a & Ha & b & Hb & Hms & Hm) (a' & Ha' & b' & Hb' & Hs) Ho. pose proof (reachable_inv _ _ Hwf Hr) as HI.
  rewrite Ha in Ha'. injection Ha' as <-. rewrite Hb in Hb'. injection Hb' as <-. cbn in Ho. destruct (decide (i = j)) as [->|Hij].
  { rewrite move_assign_self in Ho. by injection Ho. }
  assert (compat E a b = false -> e_soos E = 0 -> a_vt b = None \/ reusable a b) as Hc.
  { intros Hc Hz. destruct Hs as [?|[?|[?|[?|?]]]]; [done|by left|congruence|done|by right]. }
  pose proof (move_assign_spec E w i j a b Hwf HI Hij Ha Hb Hms Hm Hc) as H. unfold wp in H. rewrite Ho in H.
  destruct H as (_ & _ & H1 & H2 & _). done.
Qed.
Lemma copy_assign_fact E w w' i j t : env_wf E -> reachable E w -> pre E w (OCopyAssign i j t) -> alloc_safe E w (OCopyAssign i j t) ->
  run E (OCopyAssign i j t) w = Ok tt w' ->
  content w' i = content w j /\ (j <> i -> content w' j = content w j) /\ w_any w' !! t = None.
Proof.
  intros Hwf Hr Hp Hs Ho. pose proof (reachable_inv _ _ Hwf Hr) as HI.
  assert (Hj : j <> i -> content w' j = content w j).
  { intros Hij. apply (frame E w w' _ j Hwf Hr Hp Hs (or_introl Ho)). cbn. set_solver. }
  destruct Hp as (Ht & a & Ha & b & Hb & Hms & Hm). destruct Hs as (a' & Ha' & b' & Hb' & Hs).
  rewrite Ha in Ha'. injection Ha' as <-. rewrite Hb in Hb'. injection Hb' as <-.
  assert (copy_compat E a b = false -> e_soos E = 0 -> a_vt b = None) as Hc.
  { intros Hc Hz. destruct Hs as [?|[?|?]]; [done|congruence|done]. }
  pose proof (copy_assign_spec E w i j t a b Hwf HI Ha Hb Ht Hms Hm Hc) as H. unfold wp in H. cbn in Ho. rewrite Ho in H.
  destruct H as (_ & _ & H1 & H2 & _). done.
Qed.
Lemma swap_fact E w w' i j t : env_wf E -> reachable E w -> pre E w (OSwap i j t) -> alloc_safe E w (OSwap i j t) ->
  run E (OSwap i j t) w = Ok tt w' -> content w' i = content w j /\ content w' j = content w i.
Proof.
  intros Hwf Hr (Ht & a & Ha & b & Hb & Hms & Hm) (a' & Ha' & b' & Hb' & Hs) Ho. pose proof (reachable_inv _ _ Hwf Hr) as HI.
  rewrite Ha in Ha'. injection Ha' as <-. rewrite Hb in Hb'. injection Hb' as <-. cbn in Ho. destruct (decide (i = j)) as [->|Hij].
  { assert (a = b) as -> by congruence. pose proof (swap_self_spec E w j t b Hwf HI Hb Ht Hm) as H. unfold wp in H. rewrite Ho in H. by destruct H as (_ & _ & H1 & _). }
  assert (compat E a b = true \/ e_soos E <> 0) as Hc by (destruct Hs as [?|?]; done).
  pose proof (swap_spec E w i j t a b Hwf HI Hij Ha Hb Ht Hms Hm Hc) as H. unfold wp in H. rewrite Ho in H.
  by destruct H as (_ & _ & H1 & H2 & _).
Qed.

(** ** Exceptions *)
Definition is_ctor_op (o : op) : bool :=
  match o with
  | ODefault _ _ _ | OValue _ _ _ _ _ _ | OForce _ _ _ _ _ | OCopy _ _ _ | OMove _ _ | OTransMove _ _ _ | OMaterialize _ _ _ => true
  | _ => false
  end.
Lemma ctor_strong E w w' o : env_wf E -> reachable E w -> is_ctor_op o = true -> pre E w o -> alloc_safe E w o -> run E o w = Exn w' ->
  w_any w' = w_any w /\ w_heap w' = w_heap w /\ w_sref w' = w_sref w.
Proof.
  intros Hwf Hr Hc Hp Hs Hrun. pose proof (reachable_inv _ _ Hwf Hr) as HI.
  cut (same_mem w w'). { intros (? & ? & ? & _). done. }
  destruct o; try done; cbn in Hrun.
  - unfold default_ctor, new_any in Hrun. by destruct (w_any w !! i).
  - destruct Hp as (Hi & Hd & Hal & Ha). destruct (eval_arg_ok _ _ _ _ _ HI Ha) as (x & v & Hx & Hsrc).
    rewrite (bind_ok _ _ _ _ _ Hx) in Hrun. pose proof (value_ctor_spec E w i al ms T x v nt HI Hi Hd Hal Hsrc) as H.
    unfold wp in H. rewrite Hrun in H. by destruct H.
  - destruct Hp as (Hi & Hd & Hal & Ha). destruct (eval_arg_ok _ _ _ _ _ HI Ha) as (x & v & Hx & Hsrc).
    rewrite (bind_ok _ _ _ _ _ Hx) in Hrun. pose proof (force_ctor_spec E w i ms T x v nt HI Hi Hd Hal Hsrc) as H.
    unfold wp in H. rewrite Hrun in H. by destruct H.
  - destruct Hp as (Hi & Hd & a & Ha & Hct & Hcp). pose proof (copy_ctor_spec E w i j a ms Hwf HI Hi Ha Hd Hct Hcp) as H.
    unfold wp in H. rewrite Hrun in H. by destruct H as (_ & _ & H).
  - destruct (move_ctor_fact E w w' i j Hwf Hr Hp (or_intror Hrun)) as (H & _). cbn in H. congruence.
  - destruct (trans_move_fact E w w' i j ms Hwf Hr Hp Hs (or_intror Hrun)) as (H & _). cbn in H. congruence.
  - destruct Hp as (Hi & Hst & ms & T & Hden & Hd & Hcp & Hal & Hno).
    assert (exists r v, make_ref x w = Ok r w /\ ref_good w r T v /\ pr_ms r = ms) as (r & v & Hrr & Hg & Hms).
    { destruct x as [j ms'|r]; cbn in Hden.
      - destruct Hden as (-> & (b & Hb & Hct) & v & Hc').
        destruct (make_ref_any E w j b ms T v HI Hb Hc' Hct) as (r & Hrr & Hg & Hms & _). by exists r, v.
      - destruct Hden as (s & v & id & Hsr & Hm & Ht & Hobj). exists (PRef (VPtr (Some r) (sr_tab s) 0) (sr_ptr s) (sr_ms s)), v.
        unfold make_ref. rewrite Hsr. split; [done|]. split; [|done]. split; [|split]; cbn.
        + unfold vt_alive. cbn. by eexists.
        + rewrite Hm. intros k m Hk. cbn. rewrite Ht, nth_error_map, Hk. done.
        + by exists id. }
    rewrite <- Hms in Hd, Hcp.
    pose proof (materialize_spec E w i al x r T v Hwf HI Hst Hi Hrr Hg Hd Hcp Hal Hno) as H. unfold wp in H. rewrite Hrun in H. by destruct H.
Qed.

Lemma copy_assign_strong E w w' i j t a b : env_wf E -> reachable E w -> pre E w (OCopyAssign i j t) ->
  w_any w !! i = Some a -> w_any w !! j = Some b -> copy_compat E a b = true ->
  run E (OCopyAssign i j t) w = Exn w' -> w_any w' = w_any w /\ w_heap w' = w_heap w /\ w_sref w' = w_sref w.
Proof.
  intros Hwf Hr (Ht & a' & Ha' & b' & Hb' & Hms & Hm) Ha Hb Hc Ho. pose proof (reachable_inv _ _ Hwf Hr) as HI.
  rewrite Ha in Ha'. injection Ha' as <-. rewrite Hb in Hb'. injection Hb' as <-.
  assert (copy_compat E a b = false -> e_soos E = 0 -> a_vt b = None) as Hc' by congruence.
  pose proof (copy_assign_spec E w i j t a b Hwf HI Ha Hb Ht Hms Hm Hc') as H. unfold wp in H. cbn in Ho. rewrite Ho in H.
  destruct H as (_ & _ & _ & [(? & ? & ? & _)|(? & _)]); [done|congruence].
Qed.
Lemma move_assign_never_throws E w i j : env_wf E -> reachable E w -> pre E w (OMoveAssign i j) ->
  e_always_eq E = true \/ e_pocma E = true ->
  exists w', run E (OMoveAssign i j) w = Ok tt w' /\ w_tick w' = w_tick w /\ allocs w' = allocs w.
Proof.
  intros Hwf Hr (a & Ha & b & Hb & Hms & Hm) Hal. pose proof (reachable_inv _ _ Hwf Hr) as HI. cbn.
  destruct (decide (i = j)) as [->|Hij]; [exists w; rewrite move_assign_self; done|].
  assert (compat E a b = true) as Hc. { unfold compat. destruct Hal as [->| ->]; [done|]. by rewrite orb_true_r. }
  assert (compat E a b = false -> e_soos E = 0 -> a_vt b = None \/ reusable a b) as Hc' by congruence.
  pose proof (move_assign_spec E w i j a b Hwf HI Hij Ha Hb Hms Hm Hc') as H. unfold wp in H.
  destruct (move_assign E i j w) as [[] w'|w'| |]; [|by destruct H; congruence|done|destruct H; congruence].
  destruct H as (_ & _ & _ & _ & a' & o' & _ & _ & _ & _ & _ & _ & H & _). exists w'. split; [done|]. by destruct (H Hc) as [[? ?] _].
Qed.
Lemma move_ctor_never_throws E w i j : env_wf E -> reachable E w -> pre E w (OMove i j) ->
  exists w', run E (OMove i j) w = Ok tt w' /\ w_tick w' = w_tick w /\ allocs w' = allocs w.
Proof.
  intros Hwf Hr (Hi & a & Ha & Hm). pose proof (reachable_inv _ _ Hwf Hr) as HI. cbn.
  pose proof (move_ctor_spec E w i j a Hwf HI Hi Ha Hm) as H. unfold wp in H. destruct (move_ctor E i j w) as [[] w'|w'| |]; try done.
  destruct H as (_ & _ & _ & _ & [? ?] & _). exists w'. done.
Qed.
Lemma trans_move_never_throws E w i j ms : env_wf E -> reachable E w -> pre E w (OTransMove i j ms) -> alloc_safe E w (OTransMove i j ms) ->
  exists w', run E (OTransMove i j ms) w = Ok tt w' /\ w_tick w' = w_tick w /\ allocs w' = allocs w.
Proof.
  intros Hwf Hr (Hi & Hd & a & Ha & Hct & Hm) (a' & Ha' & Hs). pose proof (reachable_inv _ _ Hwf Hr) as HI. cbn.
  rewrite Ha in Ha'. injection Ha' as <-.
  assert (forall b, a_vp a = PHeap b -> a_vt a <> None -> alloc_eqb E (e_def_alloc E) (a_alloc a) = true) as Hal.
  { intros b Hb Hv. destruct Hs as [?|[?|?]]; [done|congruence|done]. }
  pose proof (trans_move_ctor_spec E w i j a ms Hwf HI Hi Ha Hd Hct Hm Hal) as H. unfold wp in H. destruct (trans_move_ctor E i j ms w) as [[] w'|w'| |]; try done.
  destruct H as (_ & _ & _ & _ & [? ?] & _). exists w'. done.
Qed.

Lemma empty_of w i a : w_any w !! i = Some a -> a_vt a = None -> is_empty w i.
Proof. intros Ha Hv. unfold is_empty, content, view. rewrite Ha. unfold content_of. by rewrite Hv. Qed.

(** value denoted by a constructor argument *)
Definition arg_val (w : world) (T : nat) (s : arg) : option nat :=
  match s with
  | AVal v => Some v
  | AFrom k => match content w k with Some (Some (T', v)) => if decide (T' = T) then Some v else None | _ => None end
  end.
Lemma eval_arg_val E w i T s : Inv E w -> arg_ok w i T s -> exists x v, eval_arg s w = Ok x w /\ src_from w i T x v /\ arg_val w T s = Some v.
Proof.
  intros HI Ha. destruct s as [v|k].
  - exists (SVal v), v. done.
  - destruct Ha as (Hk & v & Hc). cbn. rewrite Hc. exists (SRef (match w_any w !! k with Some a => a_vp a | None => PData 0 end)), v.
    unfold content in Hc. destruct (view w k) as [[a ob]|] eqn:Hv; [|done]. injection Hc as Hc.
    unfold view in Hv. destruct (w_any w !! k) as [a0|] eqn:Ha; [|done]. injection Hv as -> Hob.
    split; [by rewrite (bind_get_any _ _ _ _ Ha)|]. split; [|by destruct (decide (T = T))].
    exists k, a, ob. unfold view. rewrite Ha, Hob. done.
Qed.

Lemma emplace_fact E w i T s nt : env_wf E -> reachable E w -> pre E w (OEmplace i T s nt) ->
  match run E (OEmplace i T s nt) w with
  | Ok _ w' => exists v, arg_val w T s = Some v /\ content w' i = Some (Some (T, v))
  | Exn w' => is_empty w' i
  | _ => False
  end.
Proof.
  intros Hwf Hr ((a & Ha & _) & Hal & Hs). pose proof (reachable_inv _ _ Hwf Hr) as HI.
  destruct (eval_arg_val _ _ _ _ _ HI Hs) as (x & v & Hx & Hsrc & Hv). cbn [run]. rewrite (bind_ok _ _ _ _ _ Hx).
  pose proof (emplace_spec E w i a T x v nt HI Ha Hal Hsrc) as H. unfold wp in H. destruct (emplace E i T x nt w) as [u w'|w'| |]; try done.
  - destruct H as (_ & _ & H & _). by exists v.
  - destruct H as (_ & _ & _ & a' & Ha' & Hvt & _). by eapply empty_of.
Qed.
Lemma value_ctor_fact E w i al ms T s nt : env_wf E -> reachable E w -> pre E w (OValue i al ms T s nt) ->
  match run E (OValue i al ms T s nt) w with
  | Ok _ w' => (exists v, arg_val w T s = Some v /\ content w' i = Some (Some (T, v))) /\
      (if fits E T then address w' i = Some (PData i) /\ allocs w' = allocs w
       else (exists b, address w' i = Some (PHeap b)) /\ allocs w' = S (allocs w))
  | Exn w' => fits E T && nt = false
  | _ => False
  end.
Proof.
  intros Hwf Hr (Hi & Hd & Hal & Hs). pose proof (reachable_inv _ _ Hwf Hr) as HI.
  destruct (eval_arg_val _ _ _ _ _ HI Hs) as (x & v & Hx & Hsrc & Hv). cbn [run]. rewrite (bind_ok _ _ _ _ _ Hx).
  pose proof (value_ctor_spec E w i al ms T x v nt HI Hi Hd Hal Hsrc) as H. unfold wp in H. destruct (value_ctor E i al ms T x nt w) as [u w'|w'| |]; try done.
  - destruct H as (_ & _ & Hc & Hall & a' & Ha' & _ & _ & Hpl). split; [by exists v|].
    assert (exists vt, a_vt a' = Some vt) as [vt Hvt].
    { unfold content, view in Hc. rewrite Ha' in Hc. unfold content_of in Hc. destruct (a_vt a'); [by eexists|done]. }
    unfold address. rewrite Ha', Hvt, Hall. destruct (fits E T); [by rewrite Hpl|]. destruct Hpl as [[b ->] _]. eauto.
  - by destruct H.
Qed.
Lemma force_ctor_fact E w i ms T s nt : env_wf E -> reachable E w -> pre E w (OForce i ms T s nt) ->
  match run E (OForce i ms T s nt) w with
  | Ok _ w' => (exists v, arg_val w T s = Some v /\ content w' i = Some (Some (T, v))) /\ (exists b, address w' i = Some (PHeap b))
  | Exn w' => True
  | Term => nt && fits E T = true
  | _ => False
  end.
Proof.
  intros Hwf Hr (Hi & Hd & Hal & Hs). pose proof (reachable_inv _ _ Hwf Hr) as HI.
  destruct (eval_arg_val _ _ _ _ _ HI Hs) as (x & v & Hx & Hsrc & Hv). cbn [run]. rewrite (bind_ok _ _ _ _ _ Hx).
  pose proof (force_ctor_spec E w i ms T x v nt HI Hi Hd Hal Hsrc) as H. unfold wp in H. destruct (force_ctor E i ms T x nt w) as [u w'|w'| |]; try done.
  destruct H as (_ & _ & Hc & Hall & a' & Ha' & _ & _ & Hpl). split; [by exists v|].
  assert (exists vt, a_vt a' = Some vt) as [vt Hvt].
  { unfold content, view in Hc. rewrite Ha' in Hc. unfold content_of in Hc. destruct (a_vt a'); [by eexists|done]. }
  unfold address. rewrite Ha', Hvt. destruct Hpl as [[b ->] _]. eauto.
Qed.

Lemma reset_fact E w i : env_wf E -> reachable E w -> pre E w (OReset i) ->
  exists w', run E (OReset i) w = Ok tt w' /\ is_empty w' i /\ (forall b, ~ owns w' i b) /\ w_tick w' = w_tick w.
Proof.
  intros Hwf Hr (a & Ha & _). pose proof (reachable_inv _ _ Hwf Hr) as HI.
  destruct (reset_spec E w i a HI Ha) as (w' & a' & H1 & _ & _ & [Ht _] & Ha' & Hv & Hp & _).
  exists w'. split; [done|]. split; [by eapply empty_of|]. split; [|done]. intros b (a2 & Ha2 & Hp2). congruence.
Qed.
Lemma destroy_fact E w i : env_wf E -> reachable E w -> pre E w (ODestroy i) ->
  exists w', run E (ODestroy i) w = Ok tt w' /\ is_empty w' i /\ (forall b, owns w' i b <-> owns w i b) /\ w_tick w' = w_tick w /\
    capacity E i w' = match capacity E i w with Ok n _ => Ok n w' | _ => UB UbInactiveSize end.
Proof.
  intros Hwf Hr (a & Ha & _). pose proof (reachable_inv _ _ Hwf Hr) as HI.
  destruct (destroy_value_spec E w i a HI Ha) as (w' & a' & H1 & I1 & _ & [Ht _] & Ha' & Hv & Hp & _ & _ & Hun).
  exists w'. split; [done|]. split; [by eapply empty_of|]. split; [|split; [done|]].
  - intros b. split; intros (a2 & Ha2 & Hp2); eexists; split; try done; congruence.
  - unfold capacity. rewrite (bind_get_any _ _ _ _ Ha), (bind_get_any _ _ _ _ Ha'). unfold mem_allocated. rewrite Hp.
    destruct (a_vp a) as [k|b] eqn:Hpa.
    + pose proof (inv_ok _ _ HI _ _ Ha) as [_ Hok]. rewrite Hpa in Hok. destruct Hok as [-> _].
      rewrite bool_decide_true by done. done.
    + rewrite bool_decide_false by done. cbn. destruct (any_block _ _ _ _ _ HI Ha Hpa) as (al & n & bo & _ & _ & Hu).
      unfold get_size. rewrite (bind_get_any _ _ _ _ Ha), (bind_get_any _ _ _ _ Ha'). by rewrite (Hun b), Hu by done.
Qed.

Lemma capacity_fact E w i : env_wf E -> reachable E w -> is_Some (w_any w !! i) ->
  exists n, capacity E i w = Ok n w /\
    (forall b, owns w i b -> exists x, w_heap w !! b = Some x /\ n = b_size x) /\
    ((forall b, ~ owns w i b) -> n = e_soos E).
Proof.
  intros Hwf Hr [a Ha]. pose proof (reachable_inv _ _ Hwf Hr) as HI. unfold capacity. rewrite (bind_get_any _ _ _ _ Ha). unfold mem_allocated.
  destruct (a_vp a) as [k|b] eqn:Hp.
  - pose proof (inv_ok _ _ HI _ _ Ha) as [_ Hok]. rewrite Hp in Hok. destruct Hok as [-> _].
    rewrite bool_decide_true by done. cbn. exists (e_soos E). split; [done|]. split; [|done]. intros b (a' & Ha' & Hp'). congruence.
  - rewrite bool_decide_false by done. cbn. destruct (any_block _ _ _ _ _ HI Ha Hp) as (al & n & bo & Hb & _ & Hu).
    unfold get_size. rewrite (bind_get_any _ _ _ _ Ha), Hu. exists n. split; [done|]. split.
    + intros b' (a' & Ha' & Hp'). assert (b' = b) as -> by congruence. by eexists.
    + intros Hn. exfalso. apply (Hn b). by exists a.
Qed.
Lemma sizeof_now_fact E w i c : env_wf E -> reachable E w -> content w i = Some c ->
  exists n, sizeof_now E i w = Ok n w /\
    match c with
    | None => n = 0
    | Some (T, _) => ty_size (e_ty E T) <= n /\ capacity E i w = Ok n w
    end.
Proof.
  intros Hwf Hr Hc. pose proof (reachable_inv _ _ Hwf Hr) as HI. unfold content, view in Hc. destruct (w_any w !! i) as [a|] eqn:Ha; [|done].
  injection Hc as Hc. unfold sizeof_now, capacity. rewrite !(bind_get_any _ _ _ _ Ha). unfold has_val, mem_allocated, content_of, block_of in *.
  pose proof (inv_ok _ _ HI _ _ Ha) as [_ Hok]. unfold block_of in Hok. destruct (a_vt a) as [v|]; [|exists 0; by subst].
  destruct (a_vp a) as [k|b] eqn:Hp.
  - destruct Hok as (-> & T & x & id & _ & Hu & Hf). rewrite bool_decide_true by done. cbn. rewrite Hu in Hc. cbn in Hc. subst c.
    exists (e_soos E). split; [done|]. split; [|done]. unfold fits in Hf. apply andb_prop in Hf as [_ Hf]. by apply Nat.leb_le.
  - rewrite bool_decide_false by done. cbn. destruct Hok as (al & n & bo & Hb & _ & Hu & T & x & id & _ & -> & Hs & _).
    rewrite Hb in Hc. cbn in Hc. subst c. unfold get_size. rewrite (bind_get_any _ _ _ _ Ha), Hu. by exists n.
Qed.

Lemma replace_fact E w i n : env_wf E -> reachable E w -> pre E w (OReplace i n) ->
  match run E (OReplace i n) w with
  | Ok _ w' => is_empty w' i /\ exists c, capacity E i w' = Ok c w' /\ n <= c
  | Exn w' => is_empty w' i /\ (forall b, owns w' i b <-> owns w i b)
  | _ => False
  end.
Proof.
  intros Hwf Hr Hp. assert (Ho : forall w', outcome E (OReplace i n) w w' -> reachable E w').
  { intros w' Ho. by eapply reachable_outcome. }
  destruct Hp as (a & Ha & _). pose proof (reachable_inv _ _ Hwf Hr) as HI. cbn [run].
  pose proof (replace_with_bytes_spec E w i a n HI Ha) as H. unfold wp in H. unfold outcome in Ho. cbn [run] in Ho.
  destruct (replace_with_bytes E i n w) as [[] w'|w'| |]; try done.
  - destruct H as (I & F & a' & Ha' & Hv & _ & _ & H). split; [by eapply empty_of|].
    unfold capacity. rewrite (bind_get_any _ _ _ _ Ha'). unfold mem_allocated, get_size.
    destruct H as [(_ & Hp & Hn & _)|[(b & m & _ & _ & Hm & Hp & Hu & _)|(_ & b & Hp & Hu & _)]]; rewrite Hp.
    + rewrite bool_decide_true by done. by exists (e_soos E).
    + rewrite bool_decide_false by done. cbn. rewrite (bind_get_any _ _ _ _ Ha'), Hu. by exists m.
    + rewrite bool_decide_false by done. cbn. rewrite (bind_get_any _ _ _ _ Ha'), Hu. by exists n.
  - destruct H as (_ & _ & _ & a' & Ha' & Hv & Hp & _). split; [by eapply empty_of|].
    intros b. split; intros (a2 & Ha2 & Hp2); eexists; split; try done; congruence.
Qed.
(** room for a T in memory the any owns: emplace does not allocate and cannot fail for lack of memory *)
Lemma emplace_reuses E w i b T s nt x : env_wf E -> reachable E w -> pre E w (OEmplace i T s nt) ->
  owns w i b -> w_heap w !! b = Some x -> ty_size (e_ty E T) <= b_size x ->
  match run E (OEmplace i T s nt) w with
  | Ok _ w' => allocs w' = allocs w /\ address w' i = Some (PHeap b)
  | Exn w' => True
  | _ => False
  end.
Proof.
  intros Hwf Hr ((a & Ha & _) & Hal & Hs) (a' & Ha' & Hp) Hb Hsz. pose proof (reachable_inv _ _ Hwf Hr) as HI.
  rewrite Ha in Ha'. injection Ha' as <-.
  destruct (eval_arg_val _ _ _ _ _ HI Hs) as (y & v & Hx & Hsrc & Hv). cbn [run]. rewrite (bind_ok _ _ _ _ _ Hx).
  pose proof (emplace_spec E w i a T y v nt HI Ha Hal Hsrc) as H. unfold wp in H. destruct (emplace E i T y nt w) as [u w'|w'| |]; try done.
  destruct (any_block _ _ _ _ _ HI Ha Hp) as (al & n & bo & Hb' & _ & Hu). rewrite Hb in Hb'. injection Hb' as ->. cbn in Hsz.
  destruct H as (_ & _ & _ & a' & Ha' & Hvt & _ & _ & [(b' & n' & Hp' & _ & _ & Hp'' & _ & Hall)|(Hno & _)]).
  - split; [done|]. unfold address. rewrite Ha', Hvt. congruence.
  - specialize (Hno b n Hp Hu). lia.
Qed.

(** ** Stability of addresses *)
Lemma is_stable_iff E w i : env_wf E -> reachable E w -> is_Some (w_any w !! i) ->
  exists s, is_stable_pointers i w = Ok s w /\ (s = true <-> exists b, owns w i b).
Proof.
  intros Hwf Hr [a Ha]. pose proof (reachable_inv _ _ Hwf Hr) as HI. unfold is_stable_pointers. rewrite (bind_get_any _ _ _ _ Ha).
  unfold mem_allocated, retM. eexists. split; [done|]. rewrite negb_true_iff, bool_decide_eq_false. split.
  - intros Hp. destruct (a_vp a) as [k|b] eqn:Hpa.
    + pose proof (inv_ok _ _ HI _ _ Ha) as [_ Hok]. rewrite Hpa in Hok. destruct Hok as [-> _]. done.
    + by exists b, a.
  - intros (b & a' & Ha' & Hp). congruence.
Qed.
Lemma stable_address E w i b T x : env_wf E -> reachable E w -> is_stable_pointers i w = Ok b w -> content w i = Some (Some (T, x)) ->
  (b = true <-> exists k, address w i = Some (PHeap k)).
Proof.
  intros Hwf Hr Hs Hc. unfold content, view in Hc. destruct (w_any w !! i) as [a|] eqn:Ha; [|done]. injection Hc as Hc.
  destruct (is_stable_iff E w i Hwf Hr) as (b' & Hb' & Hiff); [by eexists|]. assert (b = b') as -> by congruence. rewrite Hiff.
  unfold address. rewrite Ha. unfold content_of in Hc. destruct (a_vt a) as [v|]; [|done]. split.
  - intros (k & a' & Ha' & Hp). exists k. congruence.
  - intros (k & [= Hk]). by exists k, a.
Qed.
Lemma move_keeps_address E w w' i j b : env_wf E -> reachable E w -> pre E w (OMove i j) -> run E (OMove i j) w = Ok tt w' ->
  address w j = Some (PHeap b) -> address w' i = Some (PHeap b).
Proof.
  intros Hwf Hr Hp Hrun Had.
  assert (reachable E w') as Hr' by by eapply (reachable_outcome E w (OMove i j)); [..|by left].
  pose proof (reachable_inv _ _ Hwf Hr) as HI. pose proof (reachable_inv _ _ Hwf Hr') as HI'.
  destruct Hp as (Hi & a & Ha & Hm). cbn in Hrun.
  pose proof (move_ctor_spec E w i j a Hwf HI Hi Ha Hm) as H. unfold wp in H. rewrite Hrun in H.
  destruct H as (_ & _ & Hc & _ & _ & a' & o' & Ha' & _ & _ & _ & _ & _ & Hpt & _).
  unfold address in Had. rewrite Ha in Had. destruct (a_vt a) as [v|] eqn:Hv; [|done]. injection Had as Hpa.
  destruct (Hpt b Hpa) as [Hp' _]; [done|].
  assert (exists v', a_vt a' = Some v') as [v' Hv'].
  { unfold content, view in Hc. rewrite Ha', Ha in Hc. injection Hc as Hc. unfold content_of, block_of in Hc. rewrite Hv, Hpa in Hc.
    pose proof (inv_ok _ _ HI _ _ Ha) as [_ Hok]. unfold block_of in Hok. rewrite Hpa, Hv in Hok.
    destruct Hok as (al & n & bo & Hb & _ & _ & T & x & id & _ & -> & _). rewrite Hb in Hc. cbn in Hc.
    destruct (a_vt a'); [by eexists|done]. }
  unfold address. by rewrite Ha', Hv', Hp'.
Qed.
