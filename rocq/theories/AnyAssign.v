(** Specifications of move/copy assignment and swap. *)
From stdpp Require Import gmap list.
From Verif Require Import TypeListModel TypeListSpec TypeListProofs AnyModel AnyInv AnySteps AnyOps AnyMove AnyLife.

(** may the target take over the source's memory? *)
Definition compat (E : env) (a o : any) : bool :=
  e_always_eq E || e_pocma E || alloc_eqb E (a_alloc a) (a_alloc o).

(** the value of [o] can be relocated into memory [a] already has *)
Definition reusable (a o : any) : Prop :=
  exists b n m, a_vp a = PHeap b /\ a_un a = USize n /\ a_un o = USize m /\ m <= n.

(** the target's allocator after a move assignment *)
Definition alloc_after_move (E : env) (a o : any) : nat :=
  if negb (e_always_eq E) && e_pocma E && negb (alloc_eqb E (a_alloc a) (a_alloc o)) then a_alloc o else a_alloc a.

(** changing the allocator of an any without memory *)
Lemma set_alloc_spec E w i a al : Inv E w -> w_any w !! i = Some a -> a_vt a = None -> a_vp a = PData i ->
  let w' := set_any w (<[i := Any None (PData i) (a_un a) al (a_ms a)]> (w_any w)) in
  set_alloc i al w = Ok tt w' /\ Inv E w' /\ Eff {[i]} w w'.
Proof.
  intros HI Ha Hv Hp w'. pose proof (inv_ok _ _ HI _ _ Ha) as [Hd Hok]. rewrite Hp, Hv in Hok. destruct Hok as [_ Hu].
  split. { rewrite (set_alloc_ok _ _ _ _ Ha). by rewrite Hv, Hp. }
  destruct (inv_upd1 E w w' i (Any None (PData i) (a_un a) al (a_ms a))) as [I V]; try done.
  - intros b x Hb. cbn in *. pose proof (inv_fresh _ _ HI _ _ Hb). split; [done|]. right. split; [done|].
    split; [|done]. rewrite (own1_same E i w b a HI Ha). congruence.
  - split; [done|]. by eapply eff_upd1.
Qed.

Definition assigned (E : env) (w w' : world) (i j : nat) (a o : any) : Prop :=
  Inv E w' /\ Eff {[i; j]} w w' /\ content w' i = content w j /\ content w' j = Some None /\
  exists a' o', w_any w' !! i = Some a' /\ w_any w' !! j = Some o' /\
    a_alloc a' = alloc_after_move E a o /\ a_ms a' = a_ms a /\ a_alloc o' = a_alloc o /\ a_ms o' = a_ms o /\
    (compat E a o = true -> Quiet w w' /\
       (forall b, a_vp o = PHeap b -> a_vt o <> None -> a_vp a' = PHeap b /\ a_un a' = a_un o)) /\
    (a_vp o = PData j -> a_vt o <> None -> a_vp a' = PData i /\ Quiet w w').

(** reset the target, then take over the source's memory or relocate from its buffer *)
Lemma take_over_spec E w i j a o al :
  env_wf E -> Inv E w -> i <> j -> w_any w !! i = Some a -> a_vt a = None -> a_vp a = PData i ->
  w_any w !! j = Some o -> a_ms a = a_ms o -> has_move E (a_ms o) = true ->
  alloc_eqb E (a_alloc a) (a_alloc o) = true -> al = a_alloc a ->
  wp (move_value_from E true i j)
     (fun _ w' => Inv E w' /\ Eff {[i; j]} w w' /\ content w' i = content w j /\ content w' j = Some None /\ Quiet w w' /\
        exists a' o', w_any w' !! i = Some a' /\ w_any w' !! j = Some o' /\
          a_alloc a' = al /\ a_ms a' = a_ms a /\ a_alloc o' = a_alloc o /\ a_ms o' = a_ms o /\
          (forall b, a_vp o = PHeap b -> a_vt o <> None -> a_vp a' = PHeap b /\ a_un a' = a_un o) /\
          (a_vp o = PData j -> a_vp a' = PData i))
     (fun _ => False) False w.
Proof.
  intros Hwf HI Hij Ha Hv Hp Ho Hms Hm Hal ->.
  eapply wp_mono; [apply (move_value_from_spec E w i j a o true); try done| |done|done].
  - rewrite Hms. apply contiguous_refl.
  - by left.
  - intros [] w' ((I & F & C & C' & a' & o' & Ha' & Ho' & Hl & Hms' & Hl' & Hmso & Hvo & _) & HQ & Hst & Hbuf).
    do 5 (split; [done|]). exists a', o'. do 6 (split; [done|]). split; [|by apply Hbuf]. intros b Hb Hv'. by apply Hst.
Qed.

Lemma move_assign_spec E w i j a o :
  env_wf E -> Inv E w -> i <> j -> w_any w !! i = Some a -> w_any w !! j = Some o ->
  a_ms a = a_ms o -> has_move_assign E (a_ms o) = true ->
  (compat E a o = false -> e_soos E = 0 -> a_vt o = None \/ reusable a o) ->
  wp (move_assign E i j)
     (fun _ w' => assigned E w w' i j a o)
     (fun w' => compat E a o = false /\ Inv E w' /\ Eff {[i]} w w' /\ content w' i = Some None /\
        exists a', w_any w' !! i = Some a' /\ a_vp a' = PData i /\ a_alloc a' = a_alloc a /\ a_ms a' = a_ms a)
     (compat E a o = false /\ exists T x, content w j = Some (Some (T, x)) /\ ty_ntmove (e_ty E T) = false) w.
Proof.
  intros Hwf HI Hij Ha Ho Hms Hmva Hsafe. pose proof (has_move_assign_has _ _ Hmva) as Hm. unfold move_assign. apply wp_noexcept.
  destruct (Nat.eqb_spec i j) as [|_]; [done|].
  (* the common path *)
  assert (Htake : forall w1 a1 al, Inv E w1 -> Eff {[i]} w w1 -> Quiet w w1 -> w_any w1 !! i = Some a1 ->
    a_vt a1 = None -> a_vp a1 = PData i -> a_ms a1 = a_ms a -> alloc_eqb E (a_alloc a1) (a_alloc o) = true ->
    a_alloc a1 = al -> al = alloc_after_move E a o ->
    forall (X : world -> Prop) (t : Prop), wp (move_value_from E true i j) (fun _ w' => assigned E w w' i j a o) X t w1).
  { intros w1 a1 al I1 F1 Q1 Ha1 Hv1 Hp1 Hms1 Hal1 Hl1 Hla X t.
    assert (Ho1 : w_any w1 !! j = Some o) by (eapply view_lookup; [done|set_solver|done]).
    eapply wp_mono; [apply (take_over_spec E w1 i j a1 o al); try done; congruence| |intros ? []|intros []].
    intros [] w' (I & F & C & C' & HQ & a' & o' & Ha' & Ho' & Hl & Hms' & Hl' & Hmso & Hst & Hbuf).
    assert (Hcf : content w1 j = content w j) by (apply (content_frame {[i]}); [done|set_solver]).
    split; [done|]. split. { eapply eff_trans; [|exact F]. eapply eff_mono; [|exact F1]. set_solver. }
    split; [congruence|]. split; [done|]. exists a', o'. do 2 (split; [done|]). split; [congruence|]. split; [congruence|].
    split; [done|]. split; [done|]. split.
    - intros _. split; [by eapply quiet_trans|]. done.
    - intros Hb _. split; [by apply Hbuf|]. by eapply quiet_trans. }
  destruct (e_always_eq E) eqn:Hae.
  { destruct (reset_spec E w i a HI Ha) as (w1 & a1 & H1 & I1 & F1 & Q1 & Ha1 & Hv1 & Hp1 & Hl1 & Hm1).
    eapply wp_bind_ok; [done|]. eapply (Htake w1 a1 (a_alloc a)); try done.
    - unfold alloc_eqb. by rewrite Hae.
    - unfold alloc_after_move. by rewrite Hae. }
  destruct (e_pocma E) eqn:Hpm.
  { destruct (reset_spec E w i a HI Ha) as (w1 & a1 & H1 & I1 & F1 & Q1 & Ha1 & Hv1 & Hp1 & Hl1 & Hm1).
    assert (Ho1 : w_any w1 !! j = Some o) by (eapply view_lookup; [done|set_solver|done]).
    eapply wp_bind_ok; [done|]. do 2 (eapply wp_bind_ok; [by apply get_any_ok|]).
    rewrite Hl1. destruct (alloc_eqb E (a_alloc a) (a_alloc o)) eqn:Heq; cbn [negb].
    - eapply wp_bind_ok; [done|]. eapply (Htake w1 a1 (a_alloc a)); try done.
      + by rewrite Hl1.
      + unfold alloc_after_move. by rewrite Heq, andb_false_r.
    - destruct (set_alloc_spec E w1 i a1 (a_alloc o) I1 Ha1 Hv1 Hp1) as (Hsa & I2 & F2).
      eapply wp_bind_ok; [exact Hsa|].
      eapply (Htake _ (Any None (PData i) (a_un a1) (a_alloc o) (a_ms a1)) (a_alloc o)); try done.
      + by eapply eff_trans.
      + cbn. by rewrite lookup_insert.
      + apply alloc_eqb_refl.
      + unfold alloc_after_move. by rewrite Hae, Hpm, Heq. }
  (* no propagation *)
  destruct (destroy_value_spec E w i a HI Ha) as (w1 & a1 & H1 & I1 & F1 & Q1 & Ha1 & Hv1 & Hp1 & Hl1 & Hm1 & Hu1).
  assert (Ho1 : w_any w1 !! j = Some o) by (eapply view_lookup; [done|set_solver|done]).
  eapply wp_bind_ok; [done|]. do 2 (eapply wp_bind_ok; [by apply get_any_ok|]). rewrite Hl1.
  destruct (alloc_eqb E (a_alloc a) (a_alloc o)) eqn:Heq; cbn [negb].
  { destruct (reset_spec E w1 i a1 I1 Ha1) as (w2 & a2 & H2 & I2 & F2 & Q2 & Ha2 & Hv2 & Hp2 & Hl2 & Hm2).
    eapply wp_bind_ok; [done|]. eapply (Htake w2 a2 (a_alloc a)); try done.
    - by eapply eff_trans.
    - by eapply quiet_trans.
    - congruence.
    - by rewrite Hl2, Hl1.
    - congruence.
    - unfold alloc_after_move. by rewrite Hpm, andb_false_r. }
  assert (Hcompat : compat E a o = false) by (unfold compat; by rewrite Hae, Hpm, Heq).
  assert (Hla : alloc_after_move E a o = a_alloc a) by (unfold alloc_after_move; by rewrite Hae, Hpm).
  assert (Hcj : content w1 j = content w j) by (apply (content_frame {[i]}); [done|set_solver]).
  assert (Hmovable : movable_alloc E = false) by (unfold movable_alloc; by rewrite Hae, Hpm).
  apply has_move_assign_method in Hmva; [|done]. rewrite Hmovable.
  set (X := fun w' => compat E a o = false /\ Inv E w' /\ Eff {[i]} w w' /\ content w' i = Some None /\
        exists a', w_any w' !! i = Some a' /\ a_vp a' = PData i /\ a_alloc a' = a_alloc a /\ a_ms a' = a_ms a).
  set (t := compat E a o = false /\ exists T x, content w j = Some (Some (T, x)) /\ ty_ntmove (e_ty E T) = false).
  (* into an empty target without memory *)
  assert (Hcopy : (e_soos E = 0 -> a_vt o = None \/ a_vp o = PData j) -> forall w2 a2, Inv E w2 -> Eff {[i]} w w2 -> Quiet w w2 -> w_any w2 !! i = Some a2 ->
    a_vt a2 = None -> a_vp a2 = PData i -> a_ms a2 = a_ms a -> a_alloc a2 = a_alloc a ->
    wp (move_value_from E false i j) (fun _ w' => assigned E w w' i j a o) X t w2).
  { intros Hnz w2 a2 I2 F2 Q2 Ha2 Hv2 Hp2 Hm2 Hl2.
    assert (Ho2 : w_any w2 !! j = Some o) by (eapply view_lookup; [done|set_solver|done]).
    assert (Hcf : content w2 j = content w j) by (apply (content_frame {[i]}); [done|set_solver]).
    assert (Hct : contiguous (a_ms a2) (a_ms o)). { rewrite Hm2, Hms. apply contiguous_refl. }
    assert (Hmv : forall w', moved E w2 w' i j a2 o -> Inv E w' /\ Eff {[i;j]} w w' /\ content w' i = content w j /\ content w' j = Some None).
    { intros w' (I & F & C & C' & _). split; [done|]. split; [|split; [congruence|done]].
      eapply eff_trans; [|exact F]. eapply eff_mono; [|exact F2]. set_solver. }
    destruct (decide (a_vp o = PData j \/ a_vt o = None)) as [Hsimple|Hheap].
    - eapply wp_mono; [apply (move_value_from_spec E w2 i j a2 o false); try done| |intros ? []|intros []].
      + tauto.
      + intros b Hb Hv. destruct Hsimple; [congruence|done].
      + intros [] w' (Hmoved & HQ & Hst & Hbuf). destruct (Hmv w' Hmoved) as (I & F & C & C').
        destruct Hmoved as (_ & _ & _ & _ & a' & o' & Ha' & Ho' & Hl & Hms' & Hl' & Hmso & Hvo & _).
        do 4 (split; [done|]). exists a', o'. do 2 (split; [done|]). split; [congruence|]. split; [congruence|].
        split; [done|]. split; [done|]. split.
        * rewrite Hcompat. done.
        * intros Hb Hv. split; [by apply Hbuf|]. by eapply quiet_trans.
    - destruct (a_vt o) as [v|] eqn:Hov; [|exfalso; apply Hheap; by right].
      destruct (vp_cases _ _ _ _ I2 Ho2) as [[Hpo _]|(b & Hpo & _)]; [exfalso; apply Hheap; by left|].
      assert (Hz : e_soos E <> 0). { intros Hz. destruct (Hnz Hz); [done|]. apply Hheap. by left. }
      destruct (any_value _ _ _ _ _ I2 Ho2 Hov) as (T & x & id & He & Hobj & Hcont & Halg).
      destruct (any_block _ _ _ _ _ I2 Ho2 Hpo) as (bal & n & bo & Hb & _ & Hu).
      eapply wp_mono; [by apply (move_value_copy_spec E w2 i j a2 o v b n T)| | |].
      + intros [] w' (Hmoved & Hall & _). destruct (Hmv w' Hmoved) as (I & F & C & C').
        destruct Hmoved as (_ & _ & _ & _ & a' & o' & Ha' & Ho' & Hl & Hms' & Hl' & Hmso & Hvo & _).
        do 4 (split; [done|]). exists a', o'. do 2 (split; [done|]). split; [congruence|]. split; [congruence|].
        split; [done|]. split; [done|]. split; [by rewrite Hcompat|]. congruence.
      + intros w' [_ ->]. split; [done|]. split; [by apply inv_tick|].
        split; [eapply eff_trans; [exact F2|apply eff_tick]|]. split; [by eapply content_empty|]. by exists a2.
      + intros Hnt. split; [done|]. exists T, x. rewrite <- Hcf. done. }
  (* is the target's own memory big enough? *)
  assert (Hdealloc : (e_soos E = 0 -> a_vt o = None \/ a_vp o = PData j) -> wp ((if mem_allocated i a1 then deallocate_memory E i else retM tt) ;;; move_value_from E false i j)
            (fun _ w' => assigned E w w' i j a o) X t w1).
  { intros Hnz. apply wp_bind. destruct (vp_cases _ _ _ _ I1 Ha1) as [[Hp Hma]|(b & Hp & Hma)]; rewrite Hma.
    - apply wp_ret. by apply (Hcopy Hnz w1 a1).
    - destruct (deallocate_memory_spec _ _ _ _ _ I1 Ha1 Hv1 Hp) as (w2 & H2 & I2 & F2 & Q2 & Hany2 & _).
      eapply wp_ok; [exact H2|]. eapply (Hcopy Hnz w2 (Any None (PData i) (a_un a1) (a_alloc a1) (a_ms a1))); try done.
      + by eapply eff_trans.
      + by eapply quiet_trans.
      + by rewrite Hany2, lookup_insert. }
  destruct (has_val o && mem_allocated j o && mem_allocated i a1) eqn:Hcond.
  2:{ eapply wp_bind_ok; [done|]. apply Hdealloc. intros Hz. destruct (Hsafe Hcompat Hz) as [?|(b & n & m & Hpa & Hn & Hmo & _)]; [by left|].
      destruct (a_vt o) eqn:Hov; [right|by left]. unfold has_val in Hcond. rewrite Hov in Hcond. cbn in Hcond.
      destruct (vp_cases _ _ _ _ I1 Ha1) as [[Hp' _]|(b' & Hp' & Hma)]; [congruence|]. rewrite Hma, andb_true_r in Hcond.
      destruct (vp_cases _ _ _ _ I1 Ho1) as [[Hp'' _]|(b'' & _ & Hmo')]; [done|congruence]. }
  apply andb_prop in Hcond as [Hcond Hmi]. apply andb_prop in Hcond as [Hho Hmj].
  destruct (vp_cases _ _ _ _ I1 Ha1) as [[_ ?]|(b & Hpa & _)]; [congruence|].
  destruct (vp_cases _ _ _ _ I1 Ho1) as [[_ ?]|(b' & Hpo & _)]; [congruence|].
  unfold has_val in Hho. destruct (a_vt o) as [v|] eqn:Hov; [|done].
  destruct (any_block _ _ _ _ _ I1 Ha1 Hpa) as (al1 & n & bo & Hb & _ & Hun).
  destruct (any_block _ _ _ _ _ I1 Ho1 Hpo) as (al2 & m & bo' & Hb' & _ & Hum).
  apply wp_bind. eapply wp_bind_ok; [by eapply get_size_ok|]. eapply wp_bind_ok; [by eapply get_size_ok|]. apply wp_ret.
  destruct (Nat.leb_spec m n) as [Hle|Hlt].
  2:{ apply Hdealloc. intros Hz. destruct (Hsafe Hcompat Hz) as [?|(b1 & n1 & m1 & Hpa1 & Hn1 & Hmo1 & Hle)]; [done|].
      rewrite (Hu1 b1 Hpa1) in Hun. rewrite Hun in Hn1. rewrite Hum in Hmo1. injection Hn1 as ->. injection Hmo1 as ->. lia. }
 
  destruct (any_value _ _ _ _ _ I1 Ho1 Hov) as (T & x & id & He & Hobj & Hcont & Halg).
  eapply wp_bind_ok; [by eapply get_move_fn_ok|].
  assert (Hroom : room E i T a1).
  { split; [done|]. rewrite Hpa. exists n. split; [done|]. pose proof (inv_ok _ _ I1 _ _ Ho1) as [_ Hoko].
    unfold block_of in Hoko. rewrite Hpo, Hov in Hoko.
    destruct Hoko as (al & m' & bo'' & Hbb & _ & Hu' & T' & x' & id' & _ & -> & Hsz & _).
    rewrite Hpo in Hobj. cbn in Hobj. rewrite Hbb in Hobj. injection Hobj as -> _ _.
    rewrite Hum in Hu'. injection Hu' as <-. lia. }
  apply wp_bind. eapply wp_mono; [apply (relocate_transfer E w1 i j a1 o v v T x id); try done| |intros ? []|].
  - by rewrite Hm1, Hms.
  - intros [] w2 (a2 & o2 & Ha2 & Ho2 & Hv2 & Hp2 & Hl2 & Hm2 & Hu2 & Hvo2 & Hpo2 & Hlo2 & Hmo2 & Huo2 & Hall & Hs2 & Hn2 & Htk & Hfin).
    eapply wp_bind_ok; [by apply get_any_ok|]. eapply wp_bind_ok; [by apply set_vt_ok|].
    eapply wp_ok; [apply (set_vt_ok _ _ _ a2); cbn; by rewrite lookup_insert_ne|].
    match goal with |- assigned _ _ ?x _ _ _ _ => set (w' := x) end.
    assert (Hany' : w_any w' = <[i:=Any (Some v) (a_vp a2) (a_un a2) (a_alloc a2) (a_ms a2)]>
      (<[j:=Any None (a_vp o2) (a_un o2) (a_alloc o2) (a_ms o2)]> (w_any w2))).
    { unfold w'. cbn. by rewrite Hvo2, Hov. }
    destruct (Hfin w' Hany') as (I2 & F2 & C2 & C2'); try done.
    split; [done|]. split. { eapply eff_trans; [|exact F2]. eapply eff_mono; [|exact F1]. set_solver. }
    split; [congruence|]. split; [done|]. rewrite Hany', lookup_insert, lookup_insert_ne, lookup_insert by done.
    eexists _, _. do 2 (split; [done|]). cbn. split; [congruence|]. do 3 (split; [congruence|]).
    split; [by rewrite Hcompat|]. congruence.
  - intros Hnt. split; [done|]. exists T, x. rewrite <- Hcj. done.
Qed.

Lemma has_move_of_copy b ms : In (MCopy b) ms -> has_move_ms ms = true.
Proof.
  intros Hin. unfold has_move_ms. destruct (some_copy_method ms) eqn:Hs; [done|]. exfalso.
  induction ms as [|m tl IH]; [done|]. cbn in Hs. destruct Hin as [-> |Hin]; [done|].
  destruct m; try done; by apply IH.
Qed.

(** the target's allocator when the temporary is moved in, and whether its memory can be taken *)
Definition alloc_pocca (E : env) (a o : any) : nat :=
  if negb (e_always_eq E) && e_pocca E && negb (alloc_eqb E (a_alloc a) (a_alloc o)) then a_alloc o else a_alloc a.
Definition copy_compat (E : env) (a o : any) : bool :=
  e_always_eq E || e_pocma E || alloc_eqb E (alloc_pocca E a o) (e_socc E (a_alloc o)).
Definition alloc_after_copy (E : env) (a o : any) : nat :=
  if negb (e_always_eq E) && e_pocma E && negb (alloc_eqb E (alloc_pocca E a o) (e_socc E (a_alloc o)))
  then e_socc E (a_alloc o) else alloc_pocca E a o.

Lemma eff_drop w w' i t : Eff {[i; t]} w w' -> w_any w !! t = None -> w_any w' !! t = None -> Eff {[i]} w w'.
Proof.
  intros [V R N] H1 H2. split; [|done|done]. intros k Hk. destruct (decide (k = t)) as [->|Hne].
  - unfold view. by rewrite H1, H2.
  - apply V. set_solver.
Qed.

Lemma copy_assign_spec E w i j t a o :
  env_wf E -> Inv E w -> w_any w !! i = Some a -> w_any w !! j = Some o -> w_any w !! t = None ->
  a_ms a = a_ms o -> In (MCopy true) (a_ms o) ->
  (copy_compat E a o = false -> e_soos E = 0 -> a_vt o = None) ->
  wp (copy_assign E i j t)
     (fun _ w' => Inv E w' /\ Eff {[i]} w w' /\ content w' i = content w j /\ w_any w' !! t = None /\
        exists a', w_any w' !! i = Some a' /\ a_alloc a' = alloc_after_copy E a o /\ a_ms a' = a_ms a)
     (fun w' => Inv E w' /\ Eff {[i]} w w' /\ w_any w' !! t = None /\
        (same_mem w w' \/
         (copy_compat E a o = false /\ content w' i = Some None /\
          exists a', w_any w' !! i = Some a' /\ a_alloc a' = alloc_pocca E a o /\ a_ms a' = a_ms a)))
     (copy_compat E a o = false /\ exists T x, content w j = Some (Some (T, x)) /\ ty_ntmove (e_ty E T) = false) w.
Proof.
  intros Hwf HI Ha Ho Ht Hms Hcp Hsafe. unfold copy_assign. eapply wp_bind_ok; [by apply get_any_ok|].
  assert (Hti : t <> i) by congruence. assert (Htj : t <> j) by congruence.
  pose proof (inv_ok _ _ HI _ _ Ho) as [Hd _]. pose proof (has_move_of_copy _ _ Hcp) as Hm.
  apply wp_bind.
  eapply wp_mono; [apply (copy_ctor_spec E w t j o (a_ms o)); try done; apply contiguous_refl| |
    |intros []].
  2:{ intros w' (_ & _ & Hsm). split; [by eapply same_mem_inv|]. split; [by apply same_mem_eff|].
      split; [|by left]. by destruct Hsm as [-> _]. }
  intros [] w1 (I1 & F1 & C1 & at1 & Hat & Hlt & Hmt & Hwhere).
  assert (Ha1 : w_any w1 !! i = Some a) by (eapply view_lookup; [done|set_solver|done]).
  assert (Ho1 : w_any w1 !! j = Some o) by (eapply view_lookup; [done|set_solver|done]).
  apply wp_bind.
  (* propagation of the allocator *)
  assert (Hprop : exists w2 a2,
     (if negb (e_always_eq E) && e_pocca E then
          let! a := get_any i in
          let! o := get_any j in
          if negb (alloc_eqb E (a_alloc a) (a_alloc o))
          then reset E i ;;; set_alloc i (a_alloc o)
          else retM tt
        else retM tt) w1 = Ok tt w2 /\ Inv E w2 /\ Eff {[i]} w1 w2 /\ w_any w2 !! i = Some a2 /\
        a_alloc a2 = alloc_pocca E a o /\ a_ms a2 = a_ms a).
  { unfold alloc_pocca. destruct (negb (e_always_eq E) && e_pocca E) eqn:Hpc; cbn [andb].
    2:{ exists w1, a. split; [done|]. split; [done|]. split; [apply eff_refl|]. done. }
    rewrite (bind_get_any _ _ _ _ Ha1), (bind_get_any _ _ _ _ Ho1).
    destruct (alloc_eqb E (a_alloc a) (a_alloc o)) eqn:Heq; cbn [negb].
    - exists w1, a. split; [done|]. split; [done|]. split; [apply eff_refl|]. done.
    - destruct (reset_spec E w1 i a I1 Ha1) as (w2 & a2 & H2 & I2 & F2 & Q2 & Ha2 & Hv2 & Hp2 & Hl2 & Hm2).
      destruct (set_alloc_spec E w2 i a2 (a_alloc o) I2 Ha2 Hv2 Hp2) as (Hsa & I3 & F3).
      eexists _, _. split; [by rewrite (bind_ok _ _ _ _ _ H2)|]. split; [done|]. split; [by eapply eff_trans|].
      cbn. rewrite lookup_insert. split; [done|]. done. }
  destruct Hprop as (w2 & a2 & H2 & I2 & F2 & Ha2 & Hl2 & Hm2).
  apply wp_onexn. eapply wp_bind_ok; [exact H2|].
  assert (Hat2 : w_any w2 !! t = Some at1) by (eapply view_lookup; [done|set_solver|done]).
  assert (Hct : content w2 t = content w j).
  { transitivity (content w1 t); [|done]. apply (content_frame {[i]}); [done|set_solver]. }
  assert (Hcomp : compat E a2 at1 = copy_compat E a o).
  { unfold compat, copy_compat. by rewrite Hl2, Hlt. }
  assert (Hem : a_vt o = None -> a_vt at1 = None).
  { intros Hv. rewrite (content_empty w j o Ho Hv) in Hwhere. by destruct Hwhere. }
  assert (Hout : forall w3, Eff {[i; t]} w2 w3 -> Eff {[i; t]} w w3).
  { intros w3 F3. eapply eff_trans; [eapply eff_mono; [|exact F1]; set_solver|].
    eapply eff_trans; [eapply eff_mono; [|exact F2]; set_solver|]. done. }
  eapply wp_mono; [apply (move_assign_spec E w2 i t a2 at1); try done| | |].
  - congruence.
  - apply has_move_assign_of. congruence.
  - rewrite Hcomp. intros Hc Hz. left. apply Hem. by apply Hsafe.
  - intros [] w3 (I3 & F3 & C3 & C3' & a3 & t3 & Ha3 & Ht3 & Hl3 & Hm3 & _).
    destruct (dtor_spec E w3 t t3 I3 Ht3) as (w4 & H4 & I4 & F4 & _ & Ht4).
    eapply wp_ok; [exact H4|]. split; [done|]. split.
    { eapply eff_drop; [|exact Ht|exact Ht4]. apply Hout. eapply eff_trans; [exact F3|]. eapply eff_mono; [|exact F4]. set_solver. }
    split. { rewrite (content_frame {[t]} w3 w4 i F4) by set_solver. congruence. }
    split; [done|]. exists a3. split; [eapply view_lookup; [done|set_solver|done]|].
    split; [|congruence]. rewrite Hl3. unfold alloc_after_move, alloc_after_copy. by rewrite Hl2, Hlt.
  - intros w3 (Hc3 & I3 & F3 & C3 & a3 & Ha3 & Hp3 & Hl3 & Hm3).
    assert (Ht3 : w_any w3 !! t = Some at1) by (eapply view_lookup; [done|set_solver|done]).
    destruct (dtor_spec E w3 t at1 I3 Ht3) as (w4 & H4 & I4 & F4 & _ & Ht4).
    eapply wp_ok; [exact H4|]. split; [done|]. split.
    { eapply eff_drop; [|exact Ht|exact Ht4]. apply Hout. eapply eff_trans; [eapply eff_mono; [|exact F3]; set_solver|].
      eapply eff_mono; [|exact F4]. set_solver. }
    split; [done|]. right. split; [congruence|].
    split. { rewrite (content_frame {[t]} w3 w4 i F4) by set_solver. done. }
    exists a3. split; [eapply view_lookup; [done|set_solver|done]|]. split; congruence.
  - intros (Hc & T & x & HTx & Hnt). split; [congruence|]. exists T, x. split; [congruence|done].
Qed.

(** ** invoke *)
Lemma invoke_spec E w i a n arg T x :
  Inv E w -> w_any w !! i = Some a -> In (MUser n) (a_ms a) -> content w i = Some (Some (T, x)) ->
  wp (invoke E i n arg)
     (fun r w' => snd (e_meth E T n x arg) = Some r /\ Inv E w' /\ Eff {[i]} w w' /\ Quiet w w' /\
        content w' i = Some (Some (T, fst (e_meth E T n x arg))) /\
        exists a', w_any w' !! i = Some a' /\ a_vt a' = a_vt a /\ a_vp a' = a_vp a /\ a_alloc a' = a_alloc a /\ a_ms a' = a_ms a)
     (fun w' => snd (e_meth E T n x arg) = None /\ Inv E w' /\ Eff {[i]} w w' /\ Quiet w w' /\
        content w' i = Some (Some (T, fst (e_meth E T n x arg))) /\
        exists a', w_any w' !! i = Some a' /\ a_vt a' = a_vt a /\ a_vp a' = a_vp a /\ a_alloc a' = a_alloc a /\ a_ms a' = a_ms a)
     False w.
Proof.
  intros HI Ha Hin Hcont. unfold invoke.
  destruct (a_vt a) as [v|] eqn:Hv; [|by rewrite (content_empty w i a Ha Hv) in Hcont].
  destruct (any_value _ _ _ _ _ HI Ha Hv) as (T' & x' & id & He & Hobj & Hcont' & Halg).
  rewrite Hcont in Hcont'. injection Hcont' as <- <-.
  eapply wp_bind_ok; [by eapply any_slot_ok|]. eapply wp_bind_ok; [by apply get_any_ok|].
  eapply wp_bind_ok; [by eapply read_as_ok|]. cbn [o_val o_id].
  set (x' := fst (e_meth E T n x arg)). set (r := snd (e_meth E T n x arg)).
  eapply wp_bind_ok; [apply write_place_ok; by eapply obj_at_exists|].
  set (w' := write_w w (a_vp a) (Some (Obj T x' id))).
  assert (Hpost : Inv E w' /\ Eff {[i]} w w' /\ Quiet w w' /\ content w' i = Some (Some (T, x')) /\
     exists a', w_any w' !! i = Some a' /\ a_vt a' = Some v /\ a_vp a' = a_vp a /\ a_alloc a' = a_alloc a /\ a_ms a' = a_ms a).
  { assert (HQ : Quiet w w').
    { unfold w'. split; [by rewrite write_w_tick|]. apply allocs_log. by rewrite write_w_log. }
    assert (Hs : w_sref w' = w_sref w) by (unfold w'; by rewrite write_w_sref).
    assert (Hn : w_next w' = w_next w) by (unfold w'; by rewrite write_w_next).
    pose proof (inv_ok _ _ HI _ _ Ha) as [Hd Hok]. unfold block_of in Hok. rewrite Hv in Hok.
    pose proof (inv_home _ _ HI _ _ Ha) as Hho. unfold home_ok in Hho. rewrite Hv in Hho.
    destruct (a_vp a) as [k|b] eqn:Hp.
    - destruct Hok as [-> (T' & y & id' & He' & Hu & Hf)]. cbn in Hobj. rewrite Ha, Hu in Hobj. injection Hobj as -> -> ->.
      assert (Hany : w_any w' = <[i := Any (Some v) (PData i) (UObj (Obj T x' id)) (a_alloc a) (a_ms a)]> (w_any w)).
      { unfold w'. cbn. by rewrite Ha, Hv, Hp. }
      assert (Hh : w_heap w' = w_heap w) by (unfold w'; by rewrite write_w_heap).
      clearbody w'.
      destruct (inv_upd1 E w w' i (Any (Some v) (PData i) (UObj (Obj T x' id)) (a_alloc a) (a_ms a))) as [I V]; try done.
      + lia.
      + split; [done|]. cbn. split; [done|]. by exists T, x', id.
      + unfold home_ok. cbn. unfold vt_alive in *. destruct (vp_home v); [|done]. by rewrite Hs.
      + intros b _ _. by rewrite Hh.
      + rewrite Hh. intros b y Hb. pose proof (inv_fresh _ _ HI _ _ Hb). split; [lia|]. right. split; [done|]. split; [|done].
        rewrite (own1_same E i w b a HI Ha). congruence.
      + split; [done|]. split; [eapply eff_upd1; try done; lia|]. split; [done|].
        unfold content, view. rewrite Hany, lookup_insert. split; [done|]. by eexists.
    - destruct Hok as (al & m & bo & Hb & Hae & Hu & T' & y & id' & He' & -> & Hsz & _). cbn in Hobj. rewrite Hb in Hobj.
      injection Hobj as -> -> ->.
      assert (Hany : w_any w' = <[i := a]> (w_any w)).
      { unfold w'. rewrite write_w_any. by rewrite insert_id. }
      assert (Hh : w_heap w' = <[b := Block al m (Some (Obj T x' id))]> (w_heap w)). { unfold w'. cbn. by rewrite Hb. }
      clearbody w'.
      destruct (inv_upd1 E w w' i a) as [I V]; try done.
      + lia.
      + split; [done|]. rewrite Hp, Hv. exists al, m, (Some (Obj T x' id)). unfold block_of. rewrite Hp, Hh, lookup_insert.
        repeat split; try done. by exists T, x', id.
      + unfold home_ok. rewrite Hv. unfold vt_alive in *. destruct (vp_home v); [|done]. by rewrite Hs.
      + intros b' _ Hno. rewrite Hh, lookup_insert_ne; [done|]. intros ->. apply Hno. by exists a.
      + intros b' Hb'. left. by exists a.
      + rewrite Hh. intros b' y. destruct (decide (b' = b)) as [->|Hne].
        * intros _. split; [|by left]. apply (inv_fresh _ _ HI) in Hb. lia.
        * rewrite lookup_insert_ne by done. intros Hy. pose proof (inv_fresh _ _ HI _ _ Hy). split; [lia|]. right.
          split; [done|]. split; [|done]. rewrite (own1_same E i w b' a HI Ha). congruence.
      + split; [done|]. split; [eapply eff_upd1; try done; lia|]. split; [done|].
        unfold content, view. rewrite Hany, lookup_insert. split; [|by exists a].
        unfold content_of, block_of. rewrite Hp, Hv, Hh, lookup_insert. done. }
  clearbody w'. destruct Hpost as (P1 & P2 & P3 & P4 & P5).
  destruct r as [y|] eqn:Hr; [apply wp_ret|eapply wp_exn; [done|]]; done.
Qed.

(** ** swap *)
Lemma alloc_eqb_sym E x y : alloc_eqb E x y = alloc_eqb E y x.
Proof. unfold alloc_eqb. by rewrite Nat.eqb_sym. Qed.

Lemma swap_spec E w i j t a o :
  env_wf E -> Inv E w -> i <> j -> w_any w !! i = Some a -> w_any w !! j = Some o -> w_any w !! t = None ->
  a_ms a = a_ms o -> has_move_assign E (a_ms o) = true ->
  (compat E a o = true \/ e_soos E <> 0) ->
  wp (swap_any E i j t)
     (fun _ w' => Inv E w' /\ Eff {[i; j]} w w' /\ content w' i = content w j /\ content w' j = content w i /\
        w_any w' !! t = None /\ (compat E a o = true -> Quiet w w'))
     (fun w' => compat E a o = false /\ Inv E w' /\ Eff {[i; j]} w w' /\ w_any w' !! t = None)
     (compat E a o = false) w.
Proof.
  intros Hwf HI Hij Ha Ho Ht Hms Hm Hsafe. unfold swap_any.
  assert (Hti : t <> i) by congruence. assert (Htj : t <> j) by congruence.
  apply wp_bind.
  eapply wp_mono; [apply (move_ctor_spec E w t i a); try done; apply has_move_assign_has; congruence| |intros ? []|intros []].
  intros [] w1 (I1 & F1 & C1 & C1' & Q1 & t1 & a1 & Ht1 & Ha1 & Hlt1 & Hmt1 & Hl1 & Hm1 & _).
  assert (Ho1 : w_any w1 !! j = Some o) by (eapply view_lookup; [done|set_solver|done]).
  assert (Hcj1 : content w1 j = content w j) by (apply (content_frame {[t; i]}); [done|set_solver]).
  assert (Hc1 : compat E a1 o = compat E a o) by (unfold compat; by rewrite Hl1).
  apply wp_bind. apply wp_onexn. apply wp_bind.
  assert (Hgone : forall w2 tt2, Inv E w2 -> w_any w2 !! t = Some tt2 -> Eff {[t; i; j]} w w2 ->
    exists w3, dtor E t w2 = Ok tt w3 /\ Inv E w3 /\ Eff {[i; j]} w w3 /\ w_any w3 !! t = None /\ Eff {[t]} w2 w3 /\ Quiet w2 w3).
  { intros w2 tt2 I2 Ht2 F2. destruct (dtor_spec E w2 t tt2 I2 Ht2) as (w3 & H3 & I3 & F3 & Q3 & Ht3).
    exists w3. split; [done|]. split; [done|]. split; [|done].
    assert (F : Eff {[t; i; j]} w w3). { eapply eff_trans; [exact F2|]. eapply eff_mono; [|exact F3]. set_solver. }
    destruct F as [V R N]. split; [|done|done]. intros k Hk. destruct (decide (k = t)) as [->|Hne].
    - unfold view. by rewrite Ht, Ht3.
    - apply V. set_solver. }
  eapply wp_mono; [apply (move_assign_spec E w1 i j a1 o); try done; [congruence|]| | |].
  - rewrite Hc1. intros Hc Hz. destruct Hsafe; [congruence|done].
  - intros [] w2 (I2 & F2 & C2 & C2' & a2 & o2 & Ha2 & Ho2 & Hl2 & Hm2 & Hlo2 & Hmo2 & Hq2 & _).
    assert (Ht2 : w_any w2 !! t = Some t1) by (eapply view_lookup; [done|set_solver|done]).
    assert (Hct2 : content w2 t = content w1 t) by (apply (content_frame {[i; j]}); [done|set_solver]).
    assert (Hc2 : compat E o2 t1 = compat E a o).
    { unfold compat. rewrite Hlo2, Hlt1. by rewrite alloc_eqb_sym. }
    assert (F02 : Eff {[t; i; j]} w w2).
    { eapply eff_trans; [eapply eff_mono; [|exact F1]; set_solver|]. eapply eff_mono; [|exact F2]. set_solver. }
    eapply wp_mono; [apply (move_assign_spec E w2 j t o2 t1); try done; [congruence|rewrite Hmt1, Hms; done|]| | |].
    + rewrite Hc2. intros Hc Hz. destruct Hsafe; [congruence|done].
    + intros [] w3 (I3 & F3 & C3 & C3' & o3 & t3 & Ho3 & Ht3 & _ & _ & _ & _ & Hq3 & _).
      destruct (Hgone w3 t3 I3 Ht3) as (w4 & H4 & I4 & F4 & Ht4 & F34 & Q34).
      { eapply eff_trans; [exact F02|]. eapply eff_mono; [|exact F3]. set_solver. }
      eapply wp_ok; [exact H4|]. split; [done|]. split; [done|]. split; [|split; [|split; [done|]]].
      * rewrite (content_frame {[t]} w3 w4 i F34), (content_frame {[j; t]} w2 w3 i F3) by set_solver. congruence.
      * rewrite (content_frame {[t]} w3 w4 j F34) by set_solver. congruence.
      * intros Hc. eapply quiet_trans; [exact Q1|]. eapply quiet_trans; [apply Hq2; congruence|].
        eapply quiet_trans; [apply Hq3; congruence|]. done.
    + intros w3 (Hc3 & I3 & F3 & _).
      assert (Ht3 : w_any w3 !! t = Some t1) by (eapply view_lookup; [done|set_solver|done]).
      destruct (Hgone w3 t1 I3 Ht3) as (w4 & H4 & I4 & F4 & Ht4 & _).
      { eapply eff_trans; [exact F02|]. eapply eff_mono; [|exact F3]. set_solver. }
      eapply wp_ok; [exact H4|]. split; [congruence|]. done.
    + intros [Hc _]. congruence.
  - intros w2 (Hc & I2 & F2 & _).
    assert (Ht2 : w_any w2 !! t = Some t1) by (eapply view_lookup; [done|set_solver|done]).
    destruct (Hgone w2 t1 I2 Ht2) as (w4 & H4 & I4 & F4 & Ht4 & _).
    { eapply eff_trans; [eapply eff_mono; [|exact F1]; set_solver|]. eapply eff_mono; [|exact F2]. set_solver. }
    eapply wp_ok; [exact H4|]. split; [congruence|]. done.
  - intros [Hc _]. congruence.
Qed.

Lemma swap_self_spec E w i t a :
  env_wf E -> Inv E w -> w_any w !! i = Some a -> w_any w !! t = None -> has_move_assign E (a_ms a) = true ->
  wp (swap_any E i i t)
     (fun _ w' => Inv E w' /\ Eff {[i]} w w' /\ content w' i = content w i /\ w_any w' !! t = None /\ Quiet w w')
     (fun _ => False) False w.
Proof.
  intros Hwf HI Ha Ht Hm. unfold swap_any. assert (Hti : t <> i) by congruence.
  apply wp_bind. eapply wp_mono; [apply (move_ctor_spec E w t i a); try done; by apply has_move_assign_has| |intros ? []|intros []].
  intros [] w1 (I1 & F1 & C1 & C1' & Q1 & t1 & a1 & Ht1 & Ha1 & Hlt1 & Hmt1 & Hl1 & Hm1 & _).
  apply wp_bind, wp_onexn, wp_bind.
  eapply wp_ok with (a := tt) (w' := w1).
  { unfold move_assign. apply noexcept_ok. by rewrite Nat.eqb_refl. }
  assert (Hc : compat E a1 t1 = true).
  { unfold compat. rewrite Hl1, Hlt1, alloc_eqb_refl. by rewrite orb_true_r. }
  eapply wp_mono; [apply (move_assign_spec E w1 i t a1 t1); try done; congruence| | |].
  - intros [] w2 (I2 & F2 & C2 & C2' & a2 & t2 & Ha2 & Ht2 & _ & _ & _ & _ & Hq2 & _).
    destruct (dtor_spec E w2 t t2 I2 Ht2) as (w3 & H3 & I3 & F3 & Q3 & Ht3).
    eapply wp_ok; [exact H3|]. split; [done|]. split.
    { eapply eff_drop; [|exact Ht|exact Ht3]. eapply eff_trans; [eapply eff_mono; [|exact F1]; set_solver|].
      eapply eff_trans; [exact F2|]. eapply eff_mono; [|exact F3]. set_solver. }
    split. { rewrite (content_frame {[t]} w2 w3 i F3) by set_solver. congruence. }
    split; [done|]. eapply quiet_trans; [exact Q1|]. eapply quiet_trans; [by apply Hq2|]. done.
  - intros w2 [? _]. congruence.
  - intros [? _]. congruence.
Qed.

Lemma move_assign_self E w i : move_assign E i i w = Ok tt w.
Proof. unfold move_assign. apply noexcept_ok. by rewrite Nat.eqb_refl. Qed.
