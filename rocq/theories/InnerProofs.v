(** Proofs about InnerModel. *)
From stdpp Require Import gmap list.
From Verif Require Import InnerModel InnerSpec.

Section Proofs.
  Context (E : env) (Hwf : stateless_copies E).

  Lemma same_eqb a b : same E a b <-> alloc_eqb E a b = true.
  Proof. unfold same, alloc_eqb. rewrite orb_true_iff, Nat.eqb_eq. done. Qed.
  Lemma there_alive w al : there E w al <-> alive E w al = true.
  Proof. unfold there, alive. rewrite orb_true_iff, bool_decide_eq_true. done. Qed.
  Lemma same_there w a b : same E a b -> there E w a -> there E w b.
  Proof. unfold same, there. naive_solver. Qed.
  Lemma same_refl a : same E a a.
  Proof. by right. Qed.
  Lemma same_sym a b : same E a b -> same E b a.
  Proof. unfold same. naive_solver. Qed.
  Lemma same_trans a b c : same E a b -> same E b c -> same E a c.
  Proof. unfold same. naive_solver. Qed.

  (** an any whose memory and value agree with its allocator *)
  Definition sound (a : any) : Prop :=
    (forall n f, a_mem a = Some (n, f) -> same E (a_alloc a) f) /\
    (forall v r, a_val a = Some v -> v_res v = Some r -> same E (a_alloc a) r).
  Definition inv (w : world) : Prop := forall i a, w_any w !! i = Some a -> there E w (a_alloc a) /\ sound a.

  (** the only differences: the anys, and the list of ended objects *)
  Definition becomes (w : world) (m : gmap nat any) (r : res unit) : Prop := exists en, r = Ok tt (World m (w_dead w) en).

  Lemma inv_become w m en : inv w -> (forall i a, m !! i = Some a -> w_any w !! i = Some a \/ there E w (a_alloc a) /\ sound a) ->
    inv (World m (w_dead w) en).
  Proof. intros H Hm i a Hi. cbn in Hi. destruct (Hm i a Hi) as [Ho|Ho]; [exact (H i a Ho)|exact Ho]. Qed.

  Lemma use_ok al w : there E w al -> use E al w = Ok tt w.
  Proof. intros H. unfold use. by rewrite (proj1 (there_alive w al) H). Qed.
  Lemma use_value_ok v w : (forall r, v_res v = Some r -> there E w r) -> use_value E v w = Ok tt w.
  Proof. intros H. unfold use_value. destruct (v_res v) as [r|]; [|done]. apply use_ok; auto. Qed.

  Lemma set_val_ok i v w a : w_any w !! i = Some a ->
    set_val i v w = Ok tt (World (<[i := Any (a_alloc a) (a_mem a) v]> (w_any w)) (w_dead w) (w_ended w)).
  Proof. intros H. unfold set_val, bind, get. by rewrite H. Qed.
  Lemma set_mem_ok i m w a : w_any w !! i = Some a ->
    set_mem i m w = Ok tt (World (<[i := Any (a_alloc a) m (a_val a)]> (w_any w)) (w_dead w) (w_ended w)).
  Proof. intros H. unfold set_mem, bind, get. by rewrite H. Qed.
  Lemma set_alloc_ok i al w a : w_any w !! i = Some a ->
    set_alloc i al w = Ok tt (World (<[i := Any al (a_mem a) (a_val a)]> (w_any w)) (w_dead w) (w_ended w)).
  Proof. intros H. unfold set_alloc, bind, get. by rewrite H. Qed.
  Lemma bind_ok {A B} (m : M A) (f : A -> M B) w x w' : m w = Ok x w' -> bind m f w = f x w'.
  Proof. intros H. unfold bind. by rewrite H. Qed.
  Lemma get_ok i w a : w_any w !! i = Some a -> get i w = Ok a w.
  Proof. intros H. unfold get. by rewrite H. Qed.

  Lemma construct_value_ok i T w a : w_any w !! i = Some a -> there E w (a_alloc a) ->
    construct_value E i T w =
      Ok tt (World (<[i := Any (a_alloc a) (a_mem a) (Some (Value T (if e_aware E T then Some (a_alloc a) else None) (ByAllocator (a_alloc a))))]>
        (w_any w)) (w_dead w) (w_ended w)).
  Proof.
    intros Hi Ha. unfold construct_value. rewrite (bind_ok _ _ _ _ _ (get_ok _ _ _ Hi)).
    destruct (e_aware E T).
    - rewrite (bind_ok _ _ _ _ _ (use_ok _ _ Ha)). by apply set_val_ok.
    - rewrite (bind_ok _ _ _ tt w); [|done]. by apply set_val_ok.
  Qed.

  Definition built (T al : nat) : value := Value T (if e_aware E T then Some al else None) (ByAllocator al).
  Lemma built_sound al m T : (forall n f, m = Some (n, f) -> same E al f) -> sound (Any al m (Some (built T al))).
  Proof.
    intros Hm. split; [exact Hm|]. cbn. intros v r Hv Hr. injection Hv as <-. cbn in Hr. destruct (e_aware E T); [|done].
    injection Hr as <-. apply same_refl.
  Qed.
  Lemma emplace_in_empty_ok i T force w a : w_any w !! i = Some a -> there E w (a_alloc a) -> a_mem a = None ->
    exists m, (forall n f, m = Some (n, f) -> same E (a_alloc a) f) /\
      becomes w (<[i := Any (a_alloc a) m (Some (built T (a_alloc a)))]> (w_any w)) (emplace_in_empty E i T force w).
  Proof.
    intros Hi Ha Hm. unfold emplace_in_empty. destruct (fits E T && negb force).
    - exists None. split; [done|]. rewrite (construct_value_ok _ _ _ _ Hi Ha), Hm. by eexists.
    - exists (Some (e_size E T, a_alloc a)). split; [intros n f [= <- <-]; apply same_refl|].
      assert (H1 : allocate E i (e_size E T) w =
        Ok tt (World (<[i := Any (a_alloc a) (Some (e_size E T, a_alloc a)) (a_val a)]> (w_any w)) (w_dead w) (w_ended w))).
      { unfold allocate. rewrite (bind_ok _ _ _ _ _ (get_ok _ _ _ Hi)), (bind_ok _ _ _ _ _ (use_ok _ _ Ha)). by apply set_mem_ok. }
      rewrite (bind_ok _ _ _ _ _ H1). erewrite construct_value_ok; [|apply lookup_insert|done]. cbn. rewrite insert_insert. by eexists.
  Qed.

  Lemma destroy_value_ok i w a : inv w -> w_any w !! i = Some a ->
    becomes w (<[i := Any (a_alloc a) (a_mem a) None]> (w_any w)) (destroy_value E i w).
  Proof.
    intros Hw Hi. destruct (Hw i a Hi) as (Hal & _ & Hv). unfold destroy_value. rewrite (bind_ok _ _ _ _ _ (get_ok _ _ _ Hi)).
    destruct (a_val a) as [v|] eqn:Ev.
    - rewrite (bind_ok _ _ _ tt w); [|apply use_value_ok; intros r Hr; exact (same_there _ _ _ (Hv v r eq_refl Hr) Hal)].
      erewrite bind_ok; [|reflexivity]. erewrite set_val_ok; [|exact Hi]. by eexists.
    - exists (w_ended w). rewrite insert_id; [by destruct w|]. destruct a; cbn in *. by rewrite <- Ev.
  Qed.
  Lemma deallocate_memory_ok i w a : w_any w !! i = Some a -> there E w (a_alloc a) -> (forall n f, a_mem a = Some (n, f) -> same E (a_alloc a) f) ->
    becomes w (<[i := Any (a_alloc a) None (a_val a)]> (w_any w)) (deallocate_memory E i w).
  Proof.
    intros Hi Ha Hm. unfold deallocate_memory. rewrite (bind_ok _ _ _ _ _ (get_ok _ _ _ Hi)).
    destruct (a_mem a) as [[n f]|] eqn:Em.
    - assert (H1 : deallocate E (a_alloc a) f w = Ok tt w).
      { unfold deallocate. rewrite (bind_ok _ _ _ _ _ (use_ok _ _ Ha)). by rewrite (proj1 (same_eqb _ _) (Hm n f eq_refl)). }
      rewrite (bind_ok _ _ _ _ _ H1). erewrite set_mem_ok; [|exact Hi]. by eexists.
    - exists (w_ended w). rewrite insert_id; [by destruct w|]. destruct a; cbn in *. by rewrite <- Em.
  Qed.
  Lemma reset_ok i w a : inv w -> w_any w !! i = Some a -> becomes w (<[i := Any (a_alloc a) None None]> (w_any w)) (reset E i w).
  Proof.
    intros Hw Hi. destruct (Hw i a Hi) as (Hal & Hm & _). destruct (destroy_value_ok i w a Hw Hi) as [en He].
    unfold reset. rewrite (bind_ok _ _ _ _ _ He).
    destruct (deallocate_memory_ok i (World (<[i := Any (a_alloc a) (a_mem a) None]> (w_any w)) (w_dead w) en) (Any (a_alloc a) (a_mem a) None)) as [en' He'];
      [apply lookup_insert|exact Hal|exact Hm|].
    exists en'. rewrite He'. cbn. by rewrite insert_insert.
  Qed.

  (** the value arrives with the resource it had *)
  Definition moved (v v' : value) : Prop := v_ty v' = v_ty v /\ v_res v' = v_res v.
  Lemma move_value_from_ok reuse i j w a o : i <> j -> w_any w !! i = Some a -> w_any w !! j = Some o ->
    there E w (a_alloc a) -> (forall v r, a_val o = Some v -> v_res v = Some r -> there E w r) -> a_mem a = None -> a_val a = None ->
    (forall n f, a_mem o = Some (n, f) -> a_val o <> None -> same E (a_alloc a) f \/ (reuse = false /\ e_soos E <> 0)) ->
    exists m o' v', (forall n f, m = Some (n, f) -> same E (a_alloc a) f) /\ (a_mem o = None -> m = None) /\
      a_alloc o' = a_alloc o /\ (a_mem o' = a_mem o \/ a_mem o' = None) /\ a_val o' = None /\
      match a_val o, v' with Some v, Some v' => moved v v' | None, None => True | _, _ => False end /\
      becomes w (<[j := o']> (<[i := Any (a_alloc a) m v']> (w_any w))) (move_value_from E reuse i j w).
  Proof.
    intros Hij Hi Hj Hal Hres Hm Hv Hmem. unfold move_value_from. rewrite (bind_ok _ _ _ _ _ (get_ok _ _ _ Hj)).
    destruct (a_val o) as [v|] eqn:Ev.
    2: { exists None, o, None. split; [done|]. split; [done|]. split; [done|]. split; [by left|]. split; [done|]. split; [done|].
      exists (w_ended w). rewrite (insert_id (w_any w) i); [|by destruct a; cbn in *; subst]. rewrite insert_id; [by destruct w|done]. }
    assert (Huse : forall m en, use_value E v (World m (w_dead w) en) = Ok tt (World m (w_dead w) en)).
    { intros m en. apply use_value_ok. intros r Hr. exact (Hres v r eq_refl Hr). }
    destruct ((e_soos E =? 0) || (reuse && match a_mem o with Some _ => true | None => false end)) eqn:Es.
    - exists (a_mem o), (Any (a_alloc o) None None), (Some v).
      split; [intros n f Hnf; destruct (Hmem n f Hnf ltac:(done)) as [H|[-> H0]]; [exact H|]; apply orb_true_iff in Es as [Es|Es]; [apply Nat.eqb_eq in Es; done|done]|].
      split; [done|]. split; [done|]. split; [by right|]. split; [done|]. split; [done|]. exists (w_ended w).
      erewrite bind_ok; [|apply set_mem_ok; exact Hi]. erewrite bind_ok; [|apply set_mem_ok; cbn; rewrite lookup_insert_ne by done; exact Hj].
      erewrite bind_ok; [|apply set_val_ok; cbn; rewrite lookup_insert_ne by done; apply lookup_insert].
      cbn. erewrite set_val_ok; [|cbn; rewrite lookup_insert_ne by done; apply lookup_insert]. cbn.
      do 2 f_equal. apply map_eq. intros k. destruct (decide (k = j)) as [->|Hkj]; [by simplify_map_eq|].
      destruct (decide (k = i)) as [->|Hki]; by simplify_map_eq.
    - assert (Hkeep : forall m en, use_value E v (World m (w_dead w) en) = Ok tt (World m (w_dead w) en)) by exact Huse.
      destruct (a_mem o) as [[n f]|] eqn:Em.
      + assert (Hs : reuse = false) by (apply orb_false_iff in Es as [_ Es]; by destruct reuse). subst reuse.
        exists (Some (n, a_alloc a)), (Any (a_alloc o) (Some (n, f)) None), (Some (Value (v_ty v) (v_res v) Directly)).
        split; [intros ? ? [= <- <-]; apply same_refl|]. split; [done|]. split; [done|]. split; [by left|]. split; [done|]. split; [done|].
        assert (H1 : allocate E i n w = Ok tt (World (<[i := Any (a_alloc a) (Some (n, a_alloc a)) (a_val a)]> (w_any w)) (w_dead w) (w_ended w))).
        { unfold allocate. rewrite (bind_ok _ _ _ _ _ (get_ok _ _ _ Hi)), (bind_ok _ _ _ _ _ (use_ok _ _ Hal)). by apply set_mem_ok. }
        rewrite (bind_ok _ _ _ _ _ H1), (bind_ok _ _ _ _ _ (Hkeep _ _)). erewrite bind_ok; [|reflexivity].
        erewrite bind_ok; [|apply set_val_ok; apply lookup_insert]. cbn.
        erewrite set_val_ok; [|cbn; rewrite !lookup_insert_ne by done; exact Hj]. cbn. rewrite Em, insert_insert. by eexists.
      + exists None, (Any (a_alloc o) None None), (Some (Value (v_ty v) (v_res v) Directly)).
        split; [done|]. split; [done|]. split; [done|]. split; [by left|]. split; [done|]. split; [done|].
        rewrite (bind_ok _ _ _ tt w); [|destruct w; apply Hkeep]. erewrite bind_ok; [|reflexivity].
        erewrite bind_ok; [|apply set_val_ok; exact Hi]. cbn.
        erewrite set_val_ok; [|cbn; rewrite lookup_insert_ne by done; exact Hj]. cbn. rewrite Em, Hm. by eexists.
  Qed.

  Lemma copy_into_ok i v w a : w_any w !! i = Some a -> there E w (a_alloc a) -> a_mem a = None ->
    (forall r, v_res v = Some r -> there E w r /\ there E w (e_socc E r)) ->
    exists m, (forall n f, m = Some (n, f) -> same E (a_alloc a) f) /\ (fits E (v_ty v) = true -> m = None) /\
      becomes w (<[i := Any (a_alloc a) m (Some (Value (v_ty v) (e_socc E <$> v_res v) Directly))]> (w_any w)) (copy_into E i v w).
  Proof.
    intros Hi Hal Hm Hr. unfold copy_into. rewrite (bind_ok _ _ _ _ _ (get_ok _ _ _ Hi)).
    assert (Huse : forall m en, use_value E v (World m (w_dead w) en) = Ok tt (World m (w_dead w) en)).
    { intros m en. apply use_value_ok. intros r H. exact (proj1 (Hr r H)). }
    rewrite (bind_ok _ _ _ tt w); [|destruct w; apply Huse].
    set (al := if e_copy_req_alloc E then a_alloc a else e_def_alloc E).
    assert (Hsame : same E (a_alloc a) al).
    { subst al. destruct (e_copy_req_alloc E) eqn:Hc; [apply same_refl|left; exact (Hwf Hc)]. }
    assert (Hfin : forall m en, becomes w (<[i := Any (a_alloc a) m (Some (Value (v_ty v) (e_socc E <$> v_res v) Directly))]> (w_any w))
      ((match v_res v with
        | Some r => use E (e_socc E r) ;;; set_val i (Some (Value (v_ty v) (Some (e_socc E r)) Directly))
        | None => set_val i (Some (Value (v_ty v) None Directly))
        end) (World (<[i := Any (a_alloc a) m (a_val a)]> (w_any w)) (w_dead w) en))).
    { intros m en. destruct (v_res v) as [r|] eqn:Er.
      - erewrite bind_ok; [|apply use_ok; exact (proj2 (Hr r eq_refl))]. erewrite set_val_ok; [|apply lookup_insert]. cbn. rewrite insert_insert. by eexists.
      - erewrite set_val_ok; [|apply lookup_insert]. cbn. rewrite insert_insert. by eexists. }
    destruct (fits E (v_ty v)) eqn:Ef.
    - exists None. split; [done|]. split; [done|]. rewrite (bind_ok _ _ _ tt w) by done.
      specialize (Hfin None (w_ended w)). rewrite (insert_id (w_any w) i (Any (a_alloc a) None (a_val a))) in Hfin by (destruct a; cbn in *; by subst).
      by destruct w.
    - exists (Some (e_size E (v_ty v), al)). split; [by intros n f [= _ <-]|]. split; [done|].
      assert (H1 : (use E al ;;; set_mem i (Some (e_size E (v_ty v), al))) w =
        Ok tt (World (<[i := Any (a_alloc a) (Some (e_size E (v_ty v), al)) (a_val a)]> (w_any w)) (w_dead w) (w_ended w))).
      { rewrite (bind_ok _ _ _ tt w); [by apply set_mem_ok|]. apply use_ok. exact (same_there _ _ _ Hsame Hal). }
      rewrite (bind_ok _ _ _ _ _ H1). apply Hfin.
  Qed.

  (** ** Operations *)
  Lemma inv_insert w i a en : inv w -> there E w (a_alloc a) -> sound a -> inv (World (<[i := a]> (w_any w)) (w_dead w) en).
  Proof.
    intros Hw Ha Hs. apply inv_become; [exact Hw|]. intros k b Hk. apply lookup_insert_Some in Hk as [[<- <-]|[_ Hk]]; [by right|by left].
  Qed.
  Lemma inv_insert2 w i j a b en : inv w -> there E w (a_alloc a) -> sound a -> there E w (a_alloc b) -> sound b ->
    inv (World (<[j := b]> (<[i := a]> (w_any w))) (w_dead w) en).
  Proof.
    intros Hw Ha Hs Hb Hsb. apply inv_become; [exact Hw|]. intros k c Hk. apply lookup_insert_Some in Hk as [[<- <-]|[_ Hk]]; [by right|].
    apply lookup_insert_Some in Hk as [[<- <-]|[_ Hk]]; [by right|by left].
  Qed.
  Lemma sound_empty al m : (forall n f, m = Some (n, f) -> same E al f) -> sound (Any al m None).
  Proof. intros H. split; [exact H|]. by intros. Qed.

  Lemma emplace_ok i T w a : inv w -> w_any w !! i = Some a ->
    exists m, (forall n f, m = Some (n, f) -> same E (a_alloc a) f) /\
      becomes w (<[i := Any (a_alloc a) m (Some (built T (a_alloc a)))]> (w_any w)) (emplace E i T w).
  Proof.
    intros Hw Hi. destruct (Hw i a Hi) as (Hal & Hm & Hv). destruct (destroy_value_ok i w a Hw Hi) as [en He].
    unfold emplace. rewrite (bind_ok _ _ _ _ _ He). erewrite bind_ok; [|apply get_ok; apply lookup_insert]. cbn [a_mem].
    set (w1 := World (<[i := Any (a_alloc a) (a_mem a) None]> (w_any w)) (w_dead w) en).
    destruct (a_mem a) as [[n f]|] eqn:Em.
    - destruct (n <? e_size E T).
      + destruct (deallocate_memory_ok i w1 (Any (a_alloc a) (Some (n, f)) None)) as [en' He']; [apply lookup_insert|exact Hal|exact Hm|].
        erewrite bind_ok; [|exact He']. subst w1. cbn [w_any w_dead a_alloc a_val]. rewrite insert_insert.
        destruct (emplace_in_empty_ok i T false (World (<[i := Any (a_alloc a) None None]> (w_any w)) (w_dead w) en') (Any (a_alloc a) None None)) as (m & Hsm & en2 & He2);
          [apply lookup_insert|exact Hal|done|].
        exists m. split; [exact Hsm|]. exists en2. rewrite He2. cbn. by rewrite insert_insert.
      + exists (Some (n, f)). split; [exact Hm|]. erewrite construct_value_ok; [|apply lookup_insert|exact Hal]. cbn. rewrite insert_insert. by eexists.
    - destruct (emplace_in_empty_ok i T false w1 (Any (a_alloc a) None None)) as (m & Hsm & en2 & He2); [apply lookup_insert|exact Hal|done|].
      exists m. split; [exact Hsm|]. exists en2. rewrite He2. cbn. by rewrite insert_insert.
  Qed.

  Lemma default_ok i al w : w_any w !! i = None ->
    default_ctor i al w = Ok tt (World (<[i := Any al None None]> (w_any w)) (w_dead w) (w_ended w)).
  Proof. intros Hi. unfold default_ctor, bind, fresh. by rewrite Hi. Qed.
  Lemma value_ok i al T force w : w_any w !! i = None -> there E w al ->
    exists m, (forall n f, m = Some (n, f) -> same E al f) /\
      becomes w (<[i := Any al m (Some (built T al))]> (w_any w)) ((default_ctor i al ;;; emplace_in_empty E i T force) w).
  Proof.
    intros Hi Hal. rewrite (bind_ok _ _ _ _ _ (default_ok _ _ _ Hi)).
    destruct (emplace_in_empty_ok i T force (World (<[i := Any al None None]> (w_any w)) (w_dead w) (w_ended w)) (Any al None None)) as (m & Hsm & en2 & He2);
      [apply lookup_insert|exact Hal|done|].
    exists m. split; [exact Hsm|]. exists en2. rewrite He2. cbn. by rewrite insert_insert.
  Qed.

  Definition taken (u u' : option value) : Prop :=
    match u, u' with Some v, Some v' => moved v v' | None, None => True | _, _ => False end.
  Lemma inv_res w j o v r : inv w -> w_any w !! j = Some o -> a_val o = Some v -> v_res v = Some r -> there E w r.
  Proof. intros Hw Hj Hv Hr. destruct (Hw j o Hj) as (Hal & _ & Hs). exact (same_there _ _ _ (Hs v r Hv Hr) Hal). Qed.
  Lemma taken_res u u' v' r : taken u u' -> u' = Some v' -> v_res v' = Some r -> exists v, u = Some v /\ v_res v = Some r.
  Proof. intros Ht -> Hr. destruct u as [v|]; [|done]. exists v. split; [done|]. destruct Ht as [_ Ht]. by rewrite <- Ht. Qed.

  (** into a new any with allocator al *)
  Lemma move_into_new i j al w o : inv w -> w_any w !! i = None -> w_any w !! j = Some o -> there E w al ->
    (same E al (a_alloc o) \/ a_val o = None \/ a_mem o = None) ->
    exists m o' v', (forall n f, m = Some (n, f) -> same E al f) /\ (a_mem o = None -> m = None) /\ a_alloc o' = a_alloc o /\ sound o' /\ a_val o' = None /\
      taken (a_val o) v' /\
      becomes w (<[j := o']> (<[i := Any al m v']> (w_any w))) ((put i (Any al None None) ;;; move_value_from E true i j) w).
  Proof.
    intros Hw Hi Hj Hal Hc. destruct (Hw j o Hj) as (Halo & Hmo & Hso). assert (Hij : i <> j) by (intros ->; by rewrite Hi in Hj).
    erewrite bind_ok; [|reflexivity].
    destruct (move_value_from_ok true i j (World (<[i := Any al None None]> (w_any w)) (w_dead w) (w_ended w)) (Any al None None) o)
      as (m & o' & v' & H1 & H2 & H3 & H4 & H5 & H6 & en & H7); try done.
    - apply lookup_insert.
    - cbn. by rewrite lookup_insert_ne.
    - intros v r Hv Hr. exact (inv_res _ _ _ _ _ Hw Hj Hv Hr).
    - intros n f Hn Hv. left. cbn. destruct Hc as [Hc|[Hc|Hc]]; [|done|by rewrite Hc in Hn]. exact (same_trans _ _ _ Hc (Hmo n f Hn)).
    - exists m, o', v'. split; [exact H1|]. split; [exact H2|]. split; [exact H3|]. split.
      { split; [|by rewrite H5]. rewrite H3. destruct H4 as [-> | ->]; [exact Hmo|done]. }
      split; [exact H5|]. split; [exact H6|]. exists en. rewrite H7. cbn. do 2 f_equal. rewrite insert_insert. done.
  Qed.

  (** into an any that exists; only the memory must not change hands *)
  Lemma move_assign_ok i j w a o : i <> j -> inv w -> w_any w !! i = Some a -> w_any w !! j = Some o ->
    (together E (a_alloc a) (a_alloc o) \/ a_val o = None \/ a_mem o = None \/ e_soos E <> 0) ->
    exists a' o', there E w (a_alloc a') /\ (forall n f, a_mem a' = Some (n, f) -> same E (a_alloc a') f) /\
      (together E (a_alloc a) (a_alloc o) -> same E (a_alloc a') (a_alloc o)) /\
      (a_alloc a' = a_alloc a \/ e_pocma E = true /\ a_alloc a' = a_alloc o) /\
      a_alloc o' = a_alloc o /\ sound o' /\ a_val o' = None /\ taken (a_val o) (a_val a') /\
      becomes w (<[j := o']> (<[i := a']> (w_any w))) (move_assign E i j w).
  Proof.
    intros Hij Hw Hi Hj Hc. destruct (Hw i a Hi) as (Hal & Hm & Hs). destruct (Hw j o Hj) as (Halo & Hmo & Hso).
    unfold move_assign. rewrite (proj2 (Nat.eqb_neq i j) Hij).
    (* the value arrives in an empty any with allocator al *)
    assert (Hgo : forall reuse al en, there E w al ->
      (a_val o = None \/ a_mem o = None \/ same E al (a_alloc o) \/ (reuse = false /\ e_soos E <> 0)) ->
      exists a' o', a_alloc a' = al /\ (forall n f, a_mem a' = Some (n, f) -> same E (a_alloc a') f) /\
        a_alloc o' = a_alloc o /\ sound o' /\ a_val o' = None /\ taken (a_val o) (a_val a') /\
        becomes w (<[j := o']> (<[i := a']> (w_any w))) (move_value_from E reuse i j (World (<[i := Any al None None]> (w_any w)) (w_dead w) en))).
    { intros reuse al en Ht Hr.
      destruct (move_value_from_ok reuse i j (World (<[i := Any al None None]> (w_any w)) (w_dead w) en) (Any al None None) o)
        as (m & o' & v' & H1 & H2 & H3 & H4 & H5 & H6 & en' & H7); try done.
      - apply lookup_insert.
      - cbn. by rewrite lookup_insert_ne.
      - intros v r Hv Hvr. exact (inv_res _ _ _ _ _ Hw Hj Hv Hvr).
      - intros n f Hn Hv. cbn. destruct Hr as [Hr|[Hr|[Hr|Hr]]]; [done|by rewrite Hr in Hn|left; exact (same_trans _ _ _ Hr (Hmo n f Hn))|by right].
      - exists (Any al m v'), o'. split; [done|]. split; [exact H1|]. split; [exact H3|]. split.
        { split; [|by rewrite H5]. rewrite H3. destruct H4 as [-> | ->]; [exact Hmo|done]. }
        split; [exact H5|]. split; [exact H6|]. exists en'. rewrite H7. cbn. do 2 f_equal. by rewrite insert_insert. }
    destruct (e_always_eq E) eqn:Eae.
    { destruct (reset_ok i w a Hw Hi) as [en He]. rewrite (bind_ok _ _ _ _ _ He).
      destruct (Hgo true (a_alloc a) en Hal ltac:(right; right; left; by left)) as (a' & o' & G1 & G2 & G3 & G4 & G5 & G6 & G7).
      exists a', o'. rewrite G1 in *. split; [exact Hal|]. split; [exact G2|]. split; [intros _; by left|]. split; [by left|]. done. }
    destruct (e_pocma E) eqn:Epo.
    { destruct (reset_ok i w a Hw Hi) as [en He]. rewrite (bind_ok _ _ _ _ _ He).
      erewrite bind_ok; [|apply get_ok, lookup_insert]. erewrite bind_ok; [|apply get_ok; cbn; rewrite lookup_insert_ne by done; exact Hj].
      cbn [a_alloc]. destruct (alloc_eqb E (a_alloc a) (a_alloc o)) eqn:Eq.
      - rewrite (bind_ok _ _ _ tt (World (<[i := Any (a_alloc a) None None]> (w_any w)) (w_dead w) en)); [|done]. apply same_eqb in Eq.
        destruct (Hgo true (a_alloc a) en Hal ltac:(right; right; by left)) as (a' & o' & G1 & G2 & G3 & G4 & G5 & G6 & G7).
        exists a', o'. rewrite G1 in *. split; [exact Hal|]. split; [exact G2|]. split; [by intros _|]. split; [by left|]. done.
      - erewrite bind_ok; [|apply set_alloc_ok, lookup_insert]. cbn. rewrite insert_insert.
        destruct (Hgo true (a_alloc o) en Halo ltac:(right; right; left; apply same_refl)) as (a' & o' & G1 & G2 & G3 & G4 & G5 & G6 & G7).
        exists a', o'. rewrite G1 in *. split; [exact Halo|]. split; [exact G2|]. split; [intros _; apply same_refl|]. split; [by right|]. done. }
    destruct (destroy_value_ok i w a Hw Hi) as [en He]. rewrite (bind_ok _ _ _ _ _ He).
    erewrite bind_ok; [|apply get_ok, lookup_insert]. erewrite bind_ok; [|apply get_ok; cbn; rewrite lookup_insert_ne by done; exact Hj].
    cbn [a_alloc a_mem]. destruct (alloc_eqb E (a_alloc a) (a_alloc o)) eqn:Eq.
    { apply same_eqb in Eq.
      assert (Hw1 : inv (World (<[i := Any (a_alloc a) (a_mem a) None]> (w_any w)) (w_dead w) en)) by (apply inv_insert; [done|done|by apply sound_empty]).
      destruct (reset_ok i _ _ Hw1 (lookup_insert _ _ _)) as [en1 He1]. rewrite (bind_ok _ _ _ _ _ He1). cbn. rewrite insert_insert.
      destruct (Hgo true (a_alloc a) en1 Hal ltac:(right; right; by left)) as (a' & o' & G1 & G2 & G3 & G4 & G5 & G6 & G7).
      exists a', o'. rewrite G1 in *. split; [exact Hal|]. split; [exact G2|]. split; [by intros _|]. split; [by left|]. done. }
    assert (Hnt : ~ together E (a_alloc a) (a_alloc o)).
    { intros [H|H]; [|by rewrite Epo in H]. apply same_eqb in H. by rewrite H in Eq. }
    assert (Hnew : exists a' o', there E w (a_alloc a') /\ (forall n f, a_mem a' = Some (n, f) -> same E (a_alloc a') f) /\
      (together E (a_alloc a) (a_alloc o) -> same E (a_alloc a') (a_alloc o)) /\
      (a_alloc a' = a_alloc a \/ false = true /\ a_alloc a' = a_alloc o) /\
      a_alloc o' = a_alloc o /\ sound o' /\ a_val o' = None /\ taken (a_val o) (a_val a') /\
      becomes w (<[j := o']> (<[i := a']> (w_any w))) ((deallocate_memory E i ;;; move_value_from E false i j)
        (World (<[i := Any (a_alloc a) (a_mem a) None]> (w_any w)) (w_dead w) en))).
    { destruct (deallocate_memory_ok i (World (<[i := Any (a_alloc a) (a_mem a) None]> (w_any w)) (w_dead w) en) (Any (a_alloc a) (a_mem a) None)) as [en' He'];
        [apply lookup_insert|exact Hal|exact Hm|].
      rewrite (bind_ok _ _ _ _ _ He'). cbn. rewrite insert_insert.
      destruct (Hgo false (a_alloc a) en' Hal) as (a' & o' & G1 & G2 & G3 & G4 & G5 & G6 & G7).
      { destruct Hc as [Hc|[Hc|[Hc|Hc]]]; [done|by left|by right; left|by right; right; right]. }
      exists a', o'. rewrite G1 in *. split; [exact Hal|]. split; [exact G2|]. split; [done|]. split; [by left|]. done. }
    destruct (a_val o) as [v|] eqn:Ev; [|exact Hnew]. destruct (a_mem o) as [[m f]|] eqn:Em; [|exact Hnew].
    destruct (a_mem a) as [[n g]|] eqn:Eam; [|exact Hnew]. destruct (m <=? n); [|exact Hnew].
    assert (Huse : forall mm en, use_value E v (World mm (w_dead w) en) = Ok tt (World mm (w_dead w) en)).
    { intros mm en0. apply use_value_ok. intros r Hr. exact (inv_res _ _ _ _ _ Hw Hj Ev Hr). }
    rewrite (bind_ok _ _ _ _ _ (Huse _ _)). erewrite bind_ok; [|reflexivity]. erewrite bind_ok; [|apply set_val_ok, lookup_insert]. cbn.
    erewrite set_val_ok; [|cbn; rewrite !lookup_insert_ne by done; exact Hj]. cbn. rewrite insert_insert, Em.
    exists (Any (a_alloc a) (Some (n, g)) (Some (Value (v_ty v) (v_res v) Directly))), (Any (a_alloc o) (Some (m, f)) None).
    split; [exact Hal|]. split; [exact Hm|]. split; [done|]. split; [by left|]. split; [done|]. split; [by apply sound_empty|].
    split; [done|]. split; [done|]. by eexists.
  Qed.

  Lemma becomes_inv w m r : becomes w m r -> (forall en, inv (World m (w_dead w) en)) -> exists w', r = Ok tt w' /\ inv w'.
  Proof. intros [en ->] H. eexists. split; [done|]. apply H. Qed.
  Lemma taken_sound al m u u' al0 : taken u u' -> (forall n f, m = Some (n, f) -> same E al f) ->
    (forall v r, u = Some v -> v_res v = Some r -> same E al0 r) -> (same E al al0 \/ forall v, u = Some v -> v_res v = None) -> sound (Any al m u').
  Proof.
    intros Ht Hm Hs Hc. split; [exact Hm|]. cbn. intros v' r Hv' Hr. destruct (taken_res _ _ _ _ Ht Hv' Hr) as (v & Hv & Hvr).
    destruct Hc as [Hc|Hc]; [exact (same_trans _ _ _ Hc (Hs v r Hv Hvr))|]. by rewrite (Hc v Hv) in Hvr.
  Qed.
  Lemma any_eta a : Any (a_alloc a) (a_mem a) (a_val a) = a.
  Proof. by destruct a. Qed.

  Lemma dtor_ok i w a : inv w -> w_any w !! i = Some a -> becomes w (delete i (w_any w)) (dtor E i w).
  Proof.
    intros Hw Hi. destruct (reset_ok i w a Hw Hi) as [en He]. unfold dtor. rewrite (bind_ok _ _ _ _ _ He). exists en.
    unfold drop. cbn. by rewrite delete_insert_delete.
  Qed.

  Lemma move_assign_inv i j w a o : i <> j -> inv w -> w_any w !! i = Some a -> w_any w !! j = Some o ->
    (together E (a_alloc a) (a_alloc o) \/ plain E o) ->
    exists a' o', sound a' /\ there E w (a_alloc a') /\ (a_alloc a' = a_alloc a \/ e_pocma E = true /\ a_alloc a' = a_alloc o) /\
      a_alloc o' = a_alloc o /\ sound o' /\
      becomes w (<[j := o']> (<[i := a']> (w_any w))) (move_assign E i j w).
  Proof.
    intros Hij Hw Hi Hj Hc. destruct (Hw j o Hj) as (Halo & Hmo & Hso).
    destruct (move_assign_ok i j w a o Hij Hw Hi Hj) as (a' & o' & H1 & H2 & H3 & H4 & H5 & H6 & H7 & H8 & H9).
    { destruct Hc as [Hc|Hc]; [by left|]. destruct (a_val o) as [v|] eqn:Ev; [|by right; left]. right; right. exact (proj2 (Hc v Ev)). }
    exists a', o'. split; [|done]. rewrite <- (any_eta a'). eapply taken_sound; [exact H8|exact H2|exact Hso|].
    destruct Hc as [Hc|Hc]; [left; exact (H3 Hc)|right; intros v Hv; exact (proj1 (Hc v Hv))].
  Qed.

  Lemma copy_ctor_ok i j w o : inv w -> w_any w !! i = None -> w_any w !! j = Some o -> there E w (e_socc E (a_alloc o)) ->
    exists m v', (forall n f, m = Some (n, f) -> same E (e_socc E (a_alloc o)) f) /\
      match a_val o, v' with
      | Some v, Some v' => v_ty v' = v_ty v /\ v_res v' = e_socc E <$> v_res v
      | None, None => True | _, _ => False
      end /\
      becomes w (<[i := Any (e_socc E (a_alloc o)) m v']> (w_any w)) (copy_ctor E i j w).
  Proof.
    intros Hw Hi Hj Hal. destruct (Hw j o Hj) as (Halo & Hmo & Hso).
    unfold copy_ctor. rewrite (bind_ok _ _ _ tt w); [|unfold fresh; by rewrite Hi]. rewrite (bind_ok _ _ _ _ _ (get_ok _ _ _ Hj)).
    erewrite bind_ok; [|reflexivity]. destruct (a_val o) as [v|] eqn:Ev.
    - destruct (copy_into_ok i v (World (<[i := Any (e_socc E (a_alloc o)) None None]> (w_any w)) (w_dead w) (w_ended w)) (Any (e_socc E (a_alloc o)) None None))
        as (m & H1 & H2 & en & H3); [apply lookup_insert|exact Hal|done| |].
      { intros r Hr. split; [exact (inv_res _ _ _ _ _ Hw Hj Ev Hr)|]. destruct (Hso v r eq_refl Hr) as [Hae|Heq]; [by left|]. rewrite <- Heq. exact Hal. }
      exists m, (Some (Value (v_ty v) (e_socc E <$> v_res v) Directly)). split; [exact H1|]. split; [done|]. exists en. rewrite H3. cbn. by rewrite insert_insert.
    - exists None, None. split; [done|]. split; [done|]. by eexists.
  Qed.
  Lemma copy_sound m v' o : sound o -> (forall n f, m = Some (n, f) -> same E (e_socc E (a_alloc o)) f) ->
    match a_val o, v' with
    | Some v, Some v' => v_ty v' = v_ty v /\ v_res v' = e_socc E <$> v_res v
    | None, None => True | _, _ => False
    end -> sound (Any (e_socc E (a_alloc o)) m v').
  Proof.
    intros [_ Hs] Hm Hv. split; [exact Hm|]. cbn. intros u r -> Hr. destruct (a_val o) as [v|]; [|done]. destruct Hv as [_ Hv]. rewrite Hv in Hr.
    destruct (v_res v) as [r0|] eqn:Er; [|done]. injection Hr as <-. destruct (Hs v r0 eq_refl Er) as [H|Heq]; [by left|]. right. cbn. by rewrite Heq.
  Qed.

  Lemma copy_assign_inv i j t w a o : inv w -> w_any w !! t = None -> w_any w !! i = Some a -> w_any w !! j = Some o ->
    there E w (e_socc E (a_alloc o)) ->
    (together E (copy_target E a o) (e_socc E (a_alloc o)) \/ (forall v, a_val o = Some v -> v_res v = None /\ e_soos E <> 0)) ->
    exists w', copy_assign E i j t w = Ok tt w' /\ inv w'.
  Proof.
    intros Hw Ht Hi Hj Hso Hc. assert (Hti : t <> i) by (intros ->; by rewrite Ht in Hi). assert (Htj : t <> j) by (intros ->; by rewrite Ht in Hj).
    destruct (Hw j o Hj) as (Halo & Hsj). destruct (Hw i a Hi) as (Hal & Hsi).
    destruct (copy_ctor_ok t j w o Hw Ht Hj Hso) as (m & v' & H1 & H2 & en & H3).
    unfold copy_assign. rewrite (bind_ok _ _ _ _ _ H3).
    set (b := Any (e_socc E (a_alloc o)) m v'). assert (Hb : sound b) by (by apply copy_sound).
    assert (Hw1 : inv (World (<[t := b]> (w_any w)) (w_dead w) en)) by (by apply inv_insert).
    (* the target before the move *)
    assert (Htarget : exists a1 en1, sound a1 /\ there E w (a_alloc a1) /\ same E (a_alloc a1) (copy_target E a o) /\
      (if negb (e_always_eq E) && e_pocca E then
         let! a := get i in let! o := get j in
         if alloc_eqb E (a_alloc a) (a_alloc o) then ret tt else reset E i ;;; set_alloc i (a_alloc o)
       else ret tt) (World (<[t := b]> (w_any w)) (w_dead w) en) = Ok tt (World (<[i := a1]> (<[t := b]> (w_any w))) (w_dead w) en1)).
    { assert (Hid : <[i := a]> (<[t := b]> (w_any w)) = <[t := b]> (w_any w)) by (apply insert_id; by rewrite lookup_insert_ne).
      unfold copy_target. destruct (e_always_eq E) eqn:Eae; cbn.
      { exists a, en. rewrite Hid. split; [done|]. split; [done|]. split; [by left|done]. }
      destruct (e_pocca E); [|exists a, en; rewrite Hid; split; [done|]; split; [done|]; split; [apply same_refl|done]].
      erewrite bind_ok; [|apply get_ok; cbn; rewrite lookup_insert_ne by done; exact Hi].
      erewrite bind_ok; [|apply get_ok; cbn; rewrite lookup_insert_ne by done; exact Hj].
      destruct (alloc_eqb E (a_alloc a) (a_alloc o)) eqn:Eq.
      { exists a, en. rewrite Hid. split; [done|]. split; [done|]. split; [by apply same_eqb|done]. }
      destruct (reset_ok i _ a Hw1) as [en1 He1]; [cbn; by rewrite lookup_insert_ne|].
      exists (Any (a_alloc o) None None), en1. split; [by apply sound_empty|]. split; [done|]. split; [apply same_refl|].
      rewrite (bind_ok _ _ _ _ _ He1). erewrite set_alloc_ok; [|apply lookup_insert]. cbn. by rewrite insert_insert. }
    destruct Htarget as (a1 & en1 & Ha1 & Hal1 & Hsame & Hrun). rewrite (bind_ok _ _ _ _ _ Hrun).
    set (w2 := World (<[i := a1]> (<[t := b]> (w_any w))) (w_dead w) en1).
    assert (Hw2 : inv w2) by exact (inv_insert _ i a1 en1 Hw1 Hal1 Ha1).
    destruct (move_assign_inv i t w2 a1 b) as (a' & o' & K1 & K2 & K3 & K4 & K5 & en2 & K6); [done|done|apply lookup_insert|cbn; rewrite lookup_insert_ne by done; apply lookup_insert| |].
    { destruct Hc as [[Hc|Hc]|Hc].
      - left. left. exact (same_trans _ _ _ Hsame Hc).
      - left. by right.
      - right. intros v Hv. cbn in Hv. subst v'. destruct (a_val o) as [u|]; [|done]. destruct H2 as [_ H2]. destruct (Hc u eq_refl) as [Hu H0].
        split; [by rewrite H2, Hu|by right]. }
    rewrite (bind_ok _ _ _ _ _ K6).
    assert (Hw3 : inv (World (<[t := o']> (<[i := a']> (w_any w2))) (w_dead w2) en2)).
    { apply inv_insert2; try done. by rewrite K4. }
    destruct (dtor_ok t _ o' Hw3 (lookup_insert _ _ _)) as [en3 He3]. rewrite He3. eexists. split; [done|].
    intros k c Hk. cbn in Hk. apply lookup_delete_Some in Hk as [_ Hk]. exact (Hw3 k c Hk).
  Qed.

  Lemma swap_inv i j t w a o : inv w -> w_any w !! t = None -> w_any w !! i = Some a -> w_any w !! j = Some o ->
    (i = j \/ together E (a_alloc a) (a_alloc o) \/ (plain E a /\ plain E o)) ->
    exists w', swap E i j t w = Ok tt w' /\ inv w'.
  Proof.
    intros Hw Ht Hi Hj Hc. assert (Hti : t <> i) by (intros ->; by rewrite Ht in Hi). assert (Htj : t <> j) by (intros ->; by rewrite Ht in Hj).
    destruct (Hw i a Hi) as (Hal & Hsi). destruct (Hw j o Hj) as (Halo & Hsj).
    destruct (move_into_new t i (a_alloc a) w a Hw Ht Hi Hal) as (m & o1 & v' & H1 & H2 & H3 & H4 & H5 & H6 & en & H7); [by left; apply same_refl|].
    assert (Hmc : move_ctor E t i w = Ok tt (World (<[i := o1]> (<[t := Any (a_alloc a) m v']> (w_any w))) (w_dead w) en)).
    { unfold move_ctor. rewrite (bind_ok _ _ _ tt w); [|unfold fresh; by rewrite Ht]. rewrite (bind_ok _ _ _ _ _ (get_ok _ _ _ Hi)). exact H7. }
    unfold swap. rewrite (bind_ok _ _ _ _ _ Hmc).
    set (b := Any (a_alloc a) m v'). set (w1 := World (<[i := o1]> (<[t := b]> (w_any w))) (w_dead w) en).
    assert (Hb : sound b). { eapply taken_sound; [exact H6|exact H1|exact (proj2 Hsi)|]. left. apply same_refl. }
    assert (Hw1 : inv w1) by (apply (inv_insert2 w); try done; by rewrite H3).
    assert (Hpb : plain E a -> plain E b).
    { intros Hp v Hv. cbn in Hv. subst v'. destruct (a_val a) as [u|] eqn:Eu; [|done]. destruct H6 as [_ H6]. destruct (Hp u Eu) as [Hu [Hm|Hm]];
        (split; [by rewrite H6|]); [left; by apply H2|by right]. }
    (* the end: the temporary is destroyed *)
    assert (Hend : forall w2, inv w2 -> is_Some (w_any w2 !! t) -> exists w', dtor E t w2 = Ok tt w' /\ inv w').
    { intros w2 Hw2 [c Hc2]. destruct (dtor_ok t w2 c Hw2 Hc2) as [en3 He3]. rewrite He3. eexists. split; [done|].
      intros k d Hk. cbn in Hk. apply lookup_delete_Some in Hk as [_ Hk]. exact (Hw2 k d Hk). }
    destruct (decide (i = j)) as [<-|Hij].
    - rewrite (bind_ok _ _ _ tt w1); [|unfold move_assign; by rewrite Nat.eqb_refl].
      destruct (move_assign_inv i t w1 o1 b) as (a' & o' & K1 & K2 & K3 & K4 & K5 & en2 & K6);
        [done|done|apply lookup_insert|cbn; rewrite lookup_insert_ne by done; apply lookup_insert|left; left; rewrite H3; apply same_refl|].
      rewrite (bind_ok _ _ _ _ _ K6). apply Hend; [apply inv_insert2; try done; by rewrite K4|]. cbn. rewrite lookup_insert. by eexists.
    - assert (Hc' : together E (a_alloc a) (a_alloc o) \/ (plain E a /\ plain E o)) by (destruct Hc; [done|done]). clear Hc.
      destruct (move_assign_inv i j w1 o1 o) as (a' & o' & K1 & K2 & K3 & K4 & K5 & en2 & K6);
        [done|done|apply lookup_insert|cbn; rewrite !lookup_insert_ne by done; exact Hj|rewrite H3; destruct Hc' as [?|[? ?]]; [by left|by right]|].
      rewrite (bind_ok _ _ _ _ _ K6).
      set (w2 := World (<[j := o']> (<[i := a']> (w_any w1))) (w_dead w1) en2).
      assert (Hw2 : inv w2) by (apply (inv_insert2 w1); try done; by rewrite K4).
      destruct (move_assign_inv j t w2 o' b) as (a2 & o2 & L1 & L2 & L3 & L4 & L5 & en4 & L6); [done|done|apply lookup_insert| | |].
      { cbn. rewrite lookup_insert_ne by done. rewrite lookup_insert_ne by done. rewrite lookup_insert_ne by done. apply lookup_insert. }
      { rewrite K4. destruct Hc' as [[?|?]|[? ?]]; [left; left; by apply same_sym|left; by right|right; by apply Hpb]. }
      rewrite (bind_ok _ _ _ _ _ L6). apply Hend; [apply inv_insert2; try done; by rewrite L4|]. cbn. rewrite lookup_insert. by eexists.
  Qed.

  Lemma run_inv o w : inv w -> contract E w o -> agreeing E w o -> exists w', run E o w = Ok tt w' /\ inv w'.
  Proof.
    intros Hw Hc Ha. destruct o as [i al|i al T|i T|i j|i j|i j|i j|i j t|i j t|i T|i|i|i n|i|i|r]; cbn [run] in *; cbn [contract agreeing] in Hc, Ha.
    - destruct Hc as [Hi Hal]. rewrite (default_ok _ _ _ Hi). eexists. split; [done|]. apply inv_insert; [done|done|by apply sound_empty].
    - destruct Hc as [Hi Hal]. destruct (value_ok i al T false w Hi Hal) as (m & Hm & Hb). eapply becomes_inv; [exact Hb|].
      intros en. apply inv_insert; [done|done|by apply built_sound].
    - destruct Hc as [Hi Hal]. destruct (value_ok i (e_def_alloc E) T true w Hi Hal) as (m & Hm & Hb). eapply becomes_inv; [exact Hb|].
      intros en. apply inv_insert; [done|done|by apply built_sound].
    - destruct Hc as [Hi (o & Hj & Hal)]. destruct (copy_ctor_ok i j w o Hw Hi Hj Hal) as (m & v' & H1 & H2 & H3). eapply becomes_inv; [exact H3|].
      intros en. apply inv_insert; [done|done|]. apply copy_sound; [exact (proj2 (Hw j o Hj))|done|done].
    - destruct Hc as [Hi (o & Hj & _)]. destruct (Hw j o Hj) as [Halo Hso].
      destruct (move_into_new i j (a_alloc o) w o Hw Hi Hj Halo) as (m & o' & v' & H1 & H2 & H3 & H4 & H5 & H6 & H7); [left; apply same_refl|].
      assert (Hr : becomes w (<[j := o']> (<[i := Any (a_alloc o) m v']> (w_any w))) (move_ctor E i j w)).
      { unfold move_ctor. rewrite (bind_ok _ _ _ tt w); [|unfold fresh; by rewrite Hi]. rewrite (bind_ok _ _ _ _ _ (get_ok _ _ _ Hj)). exact H7. }
      eapply becomes_inv; [exact Hr|]. intros en. apply inv_insert2; try done; [|by rewrite H3].
      eapply taken_sound; [exact H6|exact H1|exact (proj2 Hso)|]. left. apply same_refl.
    - destruct Hc as (Hi & (o & Hj & _) & Hd). destruct Ha as (o0 & Hj0 & Ha). rewrite Hj in Hj0. injection Hj0 as <-. destruct (Hw j o Hj) as [Halo Hso].
      destruct (move_into_new i j (e_def_alloc E) w o Hw Hi Hj Hd) as (m & o' & v' & H1 & H2 & H3 & H4 & H5 & H6 & H7).
      { destruct Ha as [Ha|[_ Ha]]; [by left|by right]. }
      assert (Hr : becomes w (<[j := o']> (<[i := Any (e_def_alloc E) m v']> (w_any w))) (trans_move_ctor E i j w)).
      { unfold trans_move_ctor. rewrite (bind_ok _ _ _ tt w); [|unfold fresh; by rewrite Hi]. rewrite (bind_ok _ _ _ _ _ (get_ok _ _ _ Hj)). exact H7. }
      eapply becomes_inv; [exact Hr|]. intros en. apply inv_insert2; try done; [|by rewrite H3].
      eapply taken_sound; [exact H6|exact H1|exact (proj2 Hso)|]. destruct Ha as [Ha|[Ha _]]; [by left|right; intros v Hv; exact (proj1 (Ha v Hv))].
    - destruct Hc as [(a & Hi & _) (o & Hj & _)]. destruct (decide (i = j)) as [->|Hij].
      { exists w. split; [|done]. unfold move_assign. by rewrite Nat.eqb_refl. }
      destruct Ha as [Ha|(a0 & Hi0 & o0 & Hj0 & Ha)]; [done|]. rewrite Hi in Hi0. injection Hi0 as <-. rewrite Hj in Hj0. injection Hj0 as <-.
      destruct (move_assign_inv i j w a o Hij Hw Hi Hj Ha) as (a' & o' & K1 & K2 & K3 & K4 & K5 & K6). eapply becomes_inv; [exact K6|].
      intros en. apply inv_insert2; try done. rewrite K4. exact (proj1 (Hw j o Hj)).
    - destruct Hc as (Ht & (a & Hi & _) & o & Hj & Hal). destruct Ha as (a0 & Hi0 & o0 & Hj0 & Ha).
      rewrite Hi in Hi0. injection Hi0 as <-. rewrite Hj in Hj0. injection Hj0 as <-. exact (copy_assign_inv i j t w a o Hw Ht Hi Hj Hal Ha).
    - destruct Hc as (Ht & (a & Hi & _) & o & Hj & _). apply (swap_inv i j t w a o Hw Ht Hi Hj).
      destruct Ha as [Ha|(a0 & Hi0 & o0 & Hj0 & Ha)]; [by left|]. rewrite Hi in Hi0. injection Hi0 as <-. rewrite Hj in Hj0. injection Hj0 as <-. by right.
    - destruct Hc as (a & Hi & _). destruct (emplace_ok i T w a Hw Hi) as (m & Hm & Hb). eapply becomes_inv; [exact Hb|].
      intros en. apply inv_insert; [done|exact (proj1 (Hw i a Hi))|by apply built_sound].
    - destruct Hc as (a & Hi & _). eapply becomes_inv; [exact (reset_ok i w a Hw Hi)|]. intros en. apply inv_insert; [done|exact (proj1 (Hw i a Hi))|by apply sound_empty].
    - destruct Hc as (a & Hi & _). destruct (Hw i a Hi) as (Hal & Hm & _). eapply becomes_inv; [exact (destroy_value_ok i w a Hw Hi)|].
      intros en. apply inv_insert; [done|exact Hal|by apply sound_empty].
    - destruct Hc as (a & Hi & _). destruct (Hw i a Hi) as (Hal & Hm & _). destruct (destroy_value_ok i w a Hw Hi) as [en He].
      unfold replace_with_bytes. rewrite (bind_ok _ _ _ _ _ He). erewrite bind_ok; [|apply get_ok, lookup_insert]. cbn [a_mem a_alloc].
      destruct (n <=? _).
      + eexists. split; [done|]. apply inv_insert; [done|exact Hal|by apply sound_empty].
      + rewrite (bind_ok _ _ _ tt (World (<[i := Any (a_alloc a) (a_mem a) None]> (w_any w)) (w_dead w) en)); [|by apply use_ok].
        destruct (deallocate_memory_ok i (World (<[i := Any (a_alloc a) (a_mem a) None]> (w_any w)) (w_dead w) en) (Any (a_alloc a) (a_mem a) None)) as [en' He'];
          [apply lookup_insert|exact Hal|exact Hm|].
        rewrite (bind_ok _ _ _ _ _ He'). erewrite set_mem_ok; [|apply lookup_insert]. cbn. rewrite !insert_insert. eexists. split; [done|].
        apply inv_insert; [done|exact Hal|]. apply sound_empty. intros k f [= <- <-]. apply same_refl.
    - destruct Hc as (a & Hi & _). eapply becomes_inv; [exact (dtor_ok i w a Hw Hi)|]. intros en k c Hk. cbn in Hk.
      apply lookup_delete_Some in Hk as [_ Hk]. exact (Hw k c Hk).
    - destruct Hc as (a & Hi & _). exists w. split; [|done]. unfold touch. rewrite (bind_ok _ _ _ _ _ (get_ok _ _ _ Hi)).
      destruct (a_val a) as [v|] eqn:Ev; [|done]. apply use_value_ok. intros r Hr. exact (inv_res _ _ _ _ _ Hw Hi Ev Hr).
    - eexists. split; [done|]. intros k c Hk. cbn in Hk. destruct (Hw k c Hk) as [Hal Hs]. split; [|done]. destruct Hal as [?|Hal]; [by left|].
      right. cbn. apply not_elem_of_union. split; [|done]. apply not_elem_of_singleton. exact (Hc k c Hk).
  Qed.

  Lemma exec_inv l w : inv w -> meets E (fun w o => contract E w o /\ agreeing E w o) l w -> exists w', exec E l w = Ok tt w' /\ inv w'.
  Proof.
    revert w. induction l as [|o l IH]; intros w Hw Hm; [by exists w|]. destruct Hm as [[Hc Ha] Hm].
    destruct (run_inv o w Hw Hc Ha) as (w1 & H1 & Hw1). cbn [exec]. rewrite (bind_ok _ _ _ _ _ H1). exact (IH w1 Hw1 (Hm w1 H1)).
  Qed.
  Lemma inv_start : inv start.
  Proof. intros i a Hi. exfalso. revert Hi. cbn. by rewrite lookup_empty. Qed.

  Lemma programs_agree l : meets E (fun w o => contract E w o /\ agreeing E w o) l start ->
    exists w, exec E l start = Ok tt w /\ agree E w /\ supplied E w.
  Proof.
    intros Hm. destruct (exec_inv l start inv_start Hm) as (w & H1 & Hw). exists w. split; [exact H1|]. split.
    - intros i a v r Hi Hv Hr. destruct (Hw i a Hi) as (_ & _ & Hs). exact (Hs v r Hv Hr).
    - intros i a v r Hi Hv Hr. exact (inv_res _ _ _ _ _ Hw Hi Hv Hr).
  Qed.
End Proofs.

(** ** Single operations, in any state *)

Lemma bind_inv {A B} (m : M A) (f : A -> M B) w u w' : bind m f w = Ok u w' -> exists x w1, m w = Ok x w1 /\ f x w1 = Ok u w'.
Proof. unfold bind. destruct (m w) as [x w1|b]; [|done]. by exists x, w1. Qed.
Lemma get_inv i w a w' : get i w = Ok a w' -> w_any w !! i = Some a /\ w' = w.
Proof. unfold get. destruct (w_any w !! i); [|done]. by intros [= -> ->]. Qed.
Lemma fresh_inv i w u w' : fresh i w = Ok u w' -> w_any w !! i = None /\ w' = w.
Proof. unfold fresh. destruct (w_any w !! i); [done|]. by intros [= _ ->]. Qed.
Lemma set_val_inv i v w u w' : set_val i v w = Ok u w' ->
  exists a, w_any w !! i = Some a /\ w_any w' = <[i := Any (a_alloc a) (a_mem a) v]> (w_any w) /\ w_dead w' = w_dead w.
Proof. intros H. apply bind_inv in H as (a & w1 & H1 & H2). apply get_inv in H1 as [H1 ->]. injection H2 as _ <-. by exists a. Qed.

(** what an action leaves alone: the any j as a whole, the allocator of any i *)
Definition keeps (j : nat) {A} (m : M A) : Prop := forall w x w', m w = Ok x w' -> w_any w' !! j = w_any w !! j.
Definition keeps_alloc (i : nat) {A} (m : M A) : Prop := forall w x w', m w = Ok x w' -> alloc_of w' i = alloc_of w i.
Lemma keeps_bind j {A B} (m : M A) (f : A -> M B) : keeps j m -> (forall x, keeps j (f x)) -> keeps j (bind m f).
Proof. intros Hm Hf w u w' H. apply bind_inv in H as (x & w1 & H1 & H2). by rewrite (Hf x _ _ _ H2), (Hm _ _ _ H1). Qed.
Lemma keeps_alloc_bind j {A B} (m : M A) (f : A -> M B) : keeps_alloc j m -> (forall x, keeps_alloc j (f x)) -> keeps_alloc j (bind m f).
Proof. intros Hm Hf w u w' H. apply bind_inv in H as (x & w1 & H1 & H2). by rewrite (Hf x _ _ _ H2), (Hm _ _ _ H1). Qed.
Lemma keeps_to_alloc j {A} (m : M A) : keeps j m -> keeps_alloc j m.
Proof. intros H w u w' Hr. unfold alloc_of. by rewrite (H _ _ _ Hr). Qed.
Lemma keeps_ret j {A} (x : A) : keeps j (ret x). Proof. by intros w u w' [= _ <-]. Qed.
Lemma keeps_ub j {A} b : keeps j (@ub A b). Proof. by intros w u w' H. Qed.
Lemma keeps_get j i : keeps j (get i). Proof. intros w u w' H. by apply get_inv in H as [_ ->]. Qed.
Lemma keeps_fresh j i : keeps j (fresh i). Proof. intros w u w' H. by apply fresh_inv in H as [_ ->]. Qed.
Lemma keeps_use E j al : keeps j (use E al). Proof. intros w u w' H. unfold use in H. destruct (alive E w al); [|done]. by injection H as _ <-. Qed.
Lemma keeps_use_value E j v : keeps j (use_value E v). Proof. unfold use_value. destruct (v_res v); [apply keeps_use|apply keeps_ret]. Qed.
Lemma keeps_end j v : keeps j (end_of v). Proof. by intros w u w' [= _ <-]. Qed.
Lemma keeps_put j i a : i <> j -> keeps j (put i a). Proof. intros Hij w u w' [= _ <-]. cbn. by rewrite lookup_insert_ne. Qed.
Lemma keeps_drop j i : i <> j -> keeps j (drop i). Proof. intros Hij w u w' [= _ <-]. cbn. by rewrite lookup_delete_ne. Qed.
Lemma keeps_set_val j i v : i <> j -> keeps j (set_val i v). Proof. intros Hij. apply keeps_bind; [apply keeps_get|]. intros a. by apply keeps_put. Qed.
Lemma keeps_set_mem j i v : i <> j -> keeps j (set_mem i v). Proof. intros Hij. apply keeps_bind; [apply keeps_get|]. intros a. by apply keeps_put. Qed.
Lemma keeps_set_alloc j i v : i <> j -> keeps j (set_alloc i v). Proof. intros Hij. apply keeps_bind; [apply keeps_get|]. intros a. by apply keeps_put. Qed.
Lemma keeps_alloc_set_val i v : keeps_alloc i (set_val i v).
Proof. intros w u w' H. apply set_val_inv in H as (a & Ha & H & _). unfold alloc_of. by rewrite H, lookup_insert, Ha. Qed.
Lemma keeps_alloc_set_mem i v : keeps_alloc i (set_mem i v).
Proof. intros w u w' H. apply bind_inv in H as (a & w1 & H1 & H2). apply get_inv in H1 as [H1 ->]. injection H2 as _ <-. unfold alloc_of. cbn. by rewrite lookup_insert, H1. Qed.

Create HintDb keeps.
#[export] Hint Resolve keeps_bind keeps_ret keeps_ub keeps_get keeps_fresh keeps_use keeps_use_value keeps_end keeps_put keeps_drop keeps_set_val
  keeps_set_mem keeps_set_alloc : keeps.

Section Single.
  Context (E : env).
  Lemma keeps_destroy j i : i <> j -> keeps j (destroy_value E i).
  Proof. intros Hij. unfold destroy_value. apply keeps_bind; [auto with keeps|]. intros a. destruct (a_val a); auto 10 with keeps. Qed.
  Lemma keeps_dealloc j i : i <> j -> keeps j (deallocate_memory E i).
  Proof.
    intros Hij. unfold deallocate_memory. apply keeps_bind; [auto with keeps|]. intros a. destruct (a_mem a) as [[n f]|]; [|auto with keeps].
    apply keeps_bind; [|auto with keeps]. unfold deallocate. apply keeps_bind; [auto with keeps|]. intros _. destruct (alloc_eqb _ _ _); auto with keeps.
  Qed.
  Lemma keeps_reset j i : i <> j -> keeps j (reset E i).
  Proof. intros Hij. apply keeps_bind; [by apply keeps_destroy|]. intros _. by apply keeps_dealloc. Qed.
  Lemma keeps_allocate j i n : i <> j -> keeps j (allocate E i n).
  Proof. intros Hij. unfold allocate. auto 10 with keeps. Qed.
  Lemma alloc_destroy i : keeps_alloc i (destroy_value E i).
  Proof.
    unfold destroy_value. apply keeps_alloc_bind; [apply keeps_to_alloc, keeps_get|]. intros a. destruct (a_val a) as [v|]; [|apply keeps_to_alloc, keeps_ret].
    apply keeps_alloc_bind; [apply keeps_to_alloc, keeps_use_value|]. intros _. apply keeps_alloc_bind; [apply keeps_to_alloc, keeps_end|]. intros _. apply keeps_alloc_set_val.
  Qed.
  Lemma alloc_dealloc i : keeps_alloc i (deallocate_memory E i).
  Proof.
    unfold deallocate_memory. apply keeps_alloc_bind; [apply keeps_to_alloc, keeps_get|]. intros a. destruct (a_mem a) as [[n f]|]; [|apply keeps_to_alloc, keeps_ret].
    apply keeps_alloc_bind; [|intros _; apply keeps_alloc_set_mem]. apply keeps_to_alloc. unfold deallocate. apply keeps_bind; [auto with keeps|]. intros _.
    destruct (alloc_eqb _ _ _); auto with keeps.
  Qed.
  Lemma alloc_reset i : keeps_alloc i (reset E i).
  Proof. apply keeps_alloc_bind; [apply alloc_destroy|]. intros _. apply alloc_dealloc. Qed.

  (** values built in place *)
  Definition holds_built (T i : nat) (w : world) : Prop := exists a, w_any w !! i = Some a /\ a_val a = Some (built E T (a_alloc a)).
  Lemma construct_value_post i T w u w' : construct_value E i T w = Ok u w' -> holds_built T i w'.
  Proof.
    intros H. apply bind_inv in H as (a & w1 & H1 & H2). apply get_inv in H1 as [H1 ->]. apply bind_inv in H2 as (x & w2 & H2 & H3).
    assert (Hk : w_any w2 !! i = w_any w !! i). { revert H2. destruct (e_aware E T); intros H2; [exact (keeps_use _ _ _ _ _ _ H2)|exact (keeps_ret _ _ _ _ _ H2)]. }
    apply set_val_inv in H3 as (a2 & H3 & H4 & _). rewrite Hk, H1 in H3. injection H3 as <-. exists (Any (a_alloc a) (a_mem a) (Some (built E T (a_alloc a)))).
    by rewrite H4, lookup_insert.
  Qed.
  Lemma emplace_in_empty_post i T force w u w' : emplace_in_empty E i T force w = Ok u w' -> holds_built T i w'.
  Proof.
    unfold emplace_in_empty. destruct (_ && _); intros H; [exact (construct_value_post _ _ _ _ _ H)|].
    apply bind_inv in H as (? & ? & _ & H). exact (construct_value_post _ _ _ _ _ H).
  Qed.
  Lemma emplace_post i T w u w' : emplace E i T w = Ok u w' -> holds_built T i w'.
  Proof.
    intros H. apply bind_inv in H as (? & ? & _ & H). apply bind_inv in H as (a & ? & _ & H). destruct (a_mem a) as [[n f]|].
    - destruct (n <? _); [|exact (construct_value_post _ _ _ _ _ H)]. apply bind_inv in H as (? & ? & _ & H). exact (emplace_in_empty_post _ _ _ _ _ _ H).
    - exact (emplace_in_empty_post _ _ _ _ _ _ H).
  Qed.
  Lemma built_in_place o i T w w' : builds o i T -> run E o w = Ok tt w' ->
    exists v, value_of w' i = Some v /\ v_ty v = T /\ (e_aware E T = true -> v_res v = alloc_of w' i) /\ (e_aware E T = false -> v_res v = None).
  Proof.
    intros Hb H. assert (Hh : holds_built T i w').
    { destruct Hb as [[al ->]|[-> | ->]]; cbn [run] in H.
      - apply bind_inv in H as (? & ? & _ & H). exact (emplace_in_empty_post _ _ _ _ _ _ H).
      - apply bind_inv in H as (? & ? & _ & H). exact (emplace_in_empty_post _ _ _ _ _ _ H).
      - exact (emplace_post _ _ _ _ _ H). }
    destruct Hh as (a & Ha & Hv). exists (built E T (a_alloc a)). unfold value_of, alloc_of. rewrite Ha. split; [done|]. split; [done|].
    unfold built. cbn. by destruct (e_aware E T).
  Qed.

  (** moves *)
  Lemma set_both i j v w u w' : i <> j -> (set_val i v ;;; set_val j None) w = Ok u w' -> value_of w' i = v /\ alloc_of w' i = alloc_of w i.
  Proof.
    intros Hij H. apply bind_inv in H as (? & w1 & H1 & H2). pose proof (keeps_set_val i j None ltac:(done) _ _ _ H2) as Hk.
    apply set_val_inv in H1 as (a & Ha & H1 & _). unfold value_of, alloc_of. by rewrite Hk, H1, lookup_insert, Ha.
  Qed.
  Lemma move_value_from_post reuse i j w u w' v : i <> j -> value_of w j = Some v -> move_value_from E reuse i j w = Ok u w' ->
    exists v', value_of w' i = Some v' /\ moved v v' /\ alloc_of w' i = alloc_of w i.
  Proof.
    intros Hij Hv H. apply bind_inv in H as (o & w1 & H1 & H). apply get_inv in H1 as [Hj ->]. unfold value_of in Hv. rewrite Hj in Hv. rewrite Hv in H.
    destruct (_ || _).
    - apply bind_inv in H as (? & w1 & H1 & H). apply bind_inv in H as (? & w2 & H2 & H).
      destruct (set_both i j (Some v) w2 u w' Hij H) as [Hr Ha]. exists v. split; [exact Hr|]. split; [done|]. rewrite Ha.
      rewrite (keeps_to_alloc _ _ (keeps_set_mem i j None ltac:(done)) _ _ _ H2). exact (keeps_alloc_set_mem _ _ _ _ _ H1).
    - destruct (a_mem o) as [[n f]|].
      + apply bind_inv in H as (? & w1 & H1 & H). apply bind_inv in H as (? & w2 & H2 & H). apply bind_inv in H as (? & w3 & H3 & H).
        destruct (set_both i j _ w3 u w' Hij H) as [Hr Ha]. eexists. split; [exact Hr|]. split; [done|]. rewrite Ha.
        rewrite (keeps_to_alloc i _ (keeps_end _ _) _ _ _ H3), (keeps_to_alloc i _ (keeps_use_value _ _ _) _ _ _ H2).
        apply bind_inv in H1 as (b & w4 & H1 & H4). apply get_inv in H1 as [_ ->]. apply bind_inv in H4 as (? & w5 & H4 & H5).
        rewrite (keeps_alloc_set_mem _ _ _ _ _ H5). exact (keeps_to_alloc i _ (keeps_use _ _ _) _ _ _ H4).
      + apply bind_inv in H as (? & w2 & H2 & H). apply bind_inv in H as (? & w3 & H3 & H).
        destruct (set_both i j _ w3 u w' Hij H) as [Hr Ha]. eexists. split; [exact Hr|]. split; [done|]. rewrite Ha.
        by rewrite (keeps_to_alloc i _ (keeps_end _ _) _ _ _ H3), (keeps_to_alloc i _ (keeps_use_value _ _ _) _ _ _ H2).
  Qed.
  Lemma keeps_value j {A} (m : M A) w x w' : keeps j m -> m w = Ok x w' -> value_of w' j = value_of w j.
  Proof. intros Hk H. unfold value_of. by rewrite (Hk _ _ _ H). Qed.
  Lemma move_assign_post i j w u w' v : i <> j -> value_of w j = Some v -> move_assign E i j w = Ok u w' ->
    exists v', value_of w' i = Some v' /\ moved v v' /\ (e_always_eq E = false -> e_pocma E = false -> alloc_of w' i = alloc_of w i).
  Proof.
    intros Hij Hv H. unfold move_assign in H. rewrite (proj2 (Nat.eqb_neq i j) Hij) in H.
    destruct (e_always_eq E).
    { apply bind_inv in H as (? & w1 & H1 & H). rewrite <- (keeps_value j _ _ _ _ (keeps_reset j i Hij) H1) in Hv.
      destruct (move_value_from_post _ _ _ _ _ _ _ Hij Hv H) as (v' & ? & ? & ?). by exists v'. }
    destruct (e_pocma E).
    { apply bind_inv in H as (? & w1 & H1 & H). rewrite <- (keeps_value j _ _ _ _ (keeps_reset j i Hij) H1) in Hv.
      apply bind_inv in H as (a & w2 & H2 & H). apply get_inv in H2 as [_ ->]. apply bind_inv in H as (o & w2 & H2 & H). apply get_inv in H2 as [_ ->].
      apply bind_inv in H as (? & w3 & H3 & H).
      assert (Hk : value_of w3 j = value_of w1 j).
      { revert H3. destruct (alloc_eqb _ _ _); intros H3; [by injection H3 as _ <-|exact (keeps_value j _ _ _ _ (keeps_set_alloc j i _ Hij) H3)]. }
      rewrite <- Hk in Hv. destruct (move_value_from_post _ _ _ _ _ _ _ Hij Hv H) as (v' & ? & ? & ?). by exists v'. }
    apply bind_inv in H as (? & w1 & H1 & H). pose proof (alloc_destroy i _ _ _ H1) as Hal. rewrite <- (keeps_value j _ _ _ _ (keeps_destroy j i Hij) H1) in Hv.
    apply bind_inv in H as (a & w2 & H2 & H). apply get_inv in H2 as [_ ->]. apply bind_inv in H as (o & w2 & H2 & H). apply get_inv in H2 as [Hj ->].
    assert (Hdm : forall reuse, (deallocate_memory E i ;;; move_value_from E reuse i j) w1 = Ok u w' ->
      exists v', value_of w' i = Some v' /\ moved v v' /\ (false = false -> false = false -> alloc_of w' i = alloc_of w i)).
    { intros reuse Hd. apply bind_inv in Hd as (? & w3 & H3 & Hd). pose proof (alloc_dealloc i _ _ _ H3) as Hal3.
      rewrite <- (keeps_value j _ _ _ _ (keeps_dealloc j i Hij) H3) in Hv.
      destruct (move_value_from_post _ _ _ _ _ _ _ Hij Hv Hd) as (v' & ? & ? & Ha). exists v'. split; [done|]. split; [done|]. intros _ _. by rewrite Ha, Hal3. }
    destruct (alloc_eqb _ _ _).
    { apply bind_inv in H as (? & w3 & H3 & H). pose proof (alloc_reset i _ _ _ H3) as Hal3. rewrite <- (keeps_value j _ _ _ _ (keeps_reset j i Hij) H3) in Hv.
      destruct (move_value_from_post _ _ _ _ _ _ _ Hij Hv H) as (v' & ? & ? & Ha). exists v'. split; [done|]. split; [done|]. intros _ _. by rewrite Ha, Hal3. }
    pose proof Hv as Hv0. unfold value_of in Hv0. rewrite Hj in Hv0. rewrite Hv0 in H.
    destruct (a_mem o) as [[m f]|]; [|exact (Hdm _ H)]. destruct (a_mem a) as [[n g]|]; [|exact (Hdm _ H)]. destruct (m <=? n); [|exact (Hdm _ H)].
    apply bind_inv in H as (? & w2 & H2 & H). apply bind_inv in H as (? & w3 & H3 & H). destruct (set_both i j _ w3 u w' Hij H) as [Hr Ha].
    eexists. split; [exact Hr|]. split; [done|]. intros _ _. rewrite Ha.
    by rewrite (keeps_to_alloc i _ (keeps_end _ _) _ _ _ H3), (keeps_to_alloc i _ (keeps_use_value _ _ _) _ _ _ H2).
  Qed.
  Lemma moves_keep o i j w w' v : moves o i j -> i <> j -> value_of w j = Some v -> run E o w = Ok tt w' ->
    exists v', value_of w' i = Some v' /\ v_ty v' = v_ty v /\ v_res v' = v_res v.
  Proof.
    assert (Hnew : forall al, i <> j -> value_of w j = Some v -> (fresh i ;;; let! o := get j in put i (Any (al o) None None) ;;; move_value_from E true i j) w = Ok tt w' ->
      exists v', value_of w' i = Some v' /\ v_ty v' = v_ty v /\ v_res v' = v_res v).
    { intros al Hij Hv H. apply bind_inv in H as (? & w1 & H1 & H). apply fresh_inv in H1 as [_ ->]. apply bind_inv in H as (o0 & w1 & H1 & H). apply get_inv in H1 as [_ ->].
      apply bind_inv in H as (? & w1 & H1 & H). rewrite <- (keeps_value j _ _ _ _ (keeps_put j i _ Hij) H1) in Hv.
      destruct (move_value_from_post _ _ _ _ _ _ _ Hij Hv H) as (v' & ? & [? ?] & _). by exists v'. }
    intros [-> |[-> | ->]] Hij Hv H; cbn [run] in H.
    - exact (Hnew a_alloc Hij Hv H).
    - exact (Hnew (fun _ => e_def_alloc E) Hij Hv H).
    - destruct (move_assign_post _ _ _ _ _ _ Hij Hv H) as (v' & ? & [? ?] & _). by exists v'.
  Qed.
  (** so the target keeps its allocator and gets a value that uses another *)
  Lemma move_assign_disagrees i j w w' v a r : i <> j -> e_always_eq E = false -> e_pocma E = false ->
    alloc_of w i = Some a -> value_of w j = Some v -> v_res v = Some r -> run E (OMoveAssign i j) w = Ok tt w' ->
    exists v', alloc_of w' i = Some a /\ value_of w' i = Some v' /\ v_res v' = Some r.
  Proof.
    intros Hij H1 H2 Ha Hv Hr H. destruct (move_assign_post _ _ _ _ _ _ Hij Hv H) as (v' & H3 & [_ H4] & H5). exists v'.
    by rewrite (H5 H1 H2), H4.
  Qed.

  (** copies *)
  Lemma copy_into_post i v w u w' : copy_into E i v w = Ok u w' -> exists v', value_of w' i = Some v' /\ v_ty v' = v_ty v /\ v_res v' = e_socc E <$> v_res v.
  Proof.
    intros H. apply bind_inv in H as (a & w1 & _ & H). apply bind_inv in H as (? & w2 & _ & H). apply bind_inv in H as (? & w3 & _ & H).
    assert (Hset : forall y w u w', set_val i (Some y) w = Ok u w' -> value_of w' i = Some y).
    { intros y w0 u0 w0' H0. apply set_val_inv in H0 as (b & _ & H0 & _). unfold value_of. by rewrite H0, lookup_insert. }
    destruct (v_res v) as [r|].
    - apply bind_inv in H as (? & w4 & _ & H). eexists. split; [exact (Hset _ _ _ _ H)|]. done.
    - eexists. split; [exact (Hset _ _ _ _ H)|]. done.
  Qed.
  Lemma copy_ctor_post i j w u w' v : value_of w j = Some v -> copy_ctor E i j w = Ok u w' ->
    exists v', value_of w' i = Some v' /\ v_ty v' = v_ty v /\ v_res v' = e_socc E <$> v_res v.
  Proof.
    intros Hv H. apply bind_inv in H as (? & w1 & H1 & H). apply fresh_inv in H1 as [_ ->]. apply bind_inv in H as (o & w1 & H1 & H). apply get_inv in H1 as [Hj ->].
    unfold value_of in Hv. rewrite Hj in Hv. rewrite Hv in H. apply bind_inv in H as (? & w1 & _ & H). exact (copy_into_post _ _ _ _ _ H).
  Qed.
  Lemma copies_select o i j w w' v : copies o i j -> value_of w j = Some v -> run E o w = Ok tt w' ->
    exists v', value_of w' i = Some v' /\ v_ty v' = v_ty v /\ v_res v' = e_socc E <$> v_res v.
  Proof.
    intros [-> |(t & -> & Hti)] Hv H; cbn [run] in H; [exact (copy_ctor_post _ _ _ _ _ _ Hv H)|].
    apply bind_inv in H as (? & w1 & H1 & H). destruct (copy_ctor_post _ _ _ _ _ _ Hv H1) as (v1 & Hv1 & Ht1 & Hr1).
    apply bind_inv in H as (? & w2 & H2 & H).
    assert (Hk : value_of w2 t = value_of w1 t).
    { assert (Hk : keeps t (if negb (e_always_eq E) && e_pocca E then
         let! a := get i in let! o := get j in
         if alloc_eqb E (a_alloc a) (a_alloc o) then ret tt else reset E i ;;; set_alloc i (a_alloc o)
       else ret tt)).
      { destruct (_ && _); [|apply keeps_ret]. apply keeps_bind; [apply keeps_get|]. intros a. apply keeps_bind; [apply keeps_get|]. intros b.
        destruct (alloc_eqb _ _ _); [apply keeps_ret|]. apply keeps_bind; [by apply keeps_reset|]. intros _. by apply keeps_set_alloc. }
      exact (keeps_value t _ _ _ _ Hk H2). }
    rewrite <- Hk in Hv1. apply bind_inv in H as (? & w3 & H3 & H). destruct (move_assign_post i t _ _ _ _ ltac:(done) Hv1 H3) as (v' & Hv' & [Ht' Hr'] & _).
    exists v'. split; [|by rewrite Ht', Hr', Ht1, Hr1]. rewrite <- Hv'. apply bind_inv in H as (? & w4 & H4 & H).
    rewrite (keeps_value i _ _ _ _ (keeps_drop i t Hti) H). exact (keeps_value i _ _ _ _ (keeps_reset i t Hti) H4).
  Qed.
End Single.
