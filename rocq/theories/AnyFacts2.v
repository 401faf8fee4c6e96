(** More facts over reachable states: placement, addresses, dispatch, references. *)
From stdpp Require Import gmap list.
From Verif Require Import TypeListModel TypeListSpec TypeListProofs AnyModel AnyInv AnySteps AnyOps AnyMove
  AnyLife AnyAssign AnyRefs AnyHistory AnyLogSpec AnyLog AnyExec AnyFacts.

Lemma content_vt w i a T x : w_any w !! i = Some a -> content w i = Some (Some (T, x)) -> exists v, a_vt a = Some v.
Proof. intros Ha. unfold content, view. rewrite Ha. unfold content_of. destruct (a_vt a); [by eexists|done]. Qed.
Lemma address_content E w i p : Inv E w -> address w i = Some p -> exists T x, content w i = Some (Some (T, x)).
Proof.
  intros HI. unfold address, content, view. destruct (w_any w !! i) as [a|] eqn:Ha; [|done]. unfold content_of, block_of.
  pose proof (inv_ok _ _ HI _ _ Ha) as [_ Hok]. unfold block_of in Hok. destruct (a_vt a); [|done]. intros _.
  destruct (a_vp a) as [k|b].
  - destruct Hok as (_ & T & x & id & _ & -> & _). by exists T, x.
  - destruct Hok as (al & n & bo & -> & _ & _ & T & x & id & _ & -> & _). by exists T, x.
Qed.

Lemma move_assign_keeps_address E w w' i j b : env_wf E -> reachable E w -> pre E w (OMoveAssign i j) ->
  e_always_eq E = true \/ e_pocma E = true ->
  run E (OMoveAssign i j) w = Ok tt w' ->
  address w j = Some (PHeap b) -> address w' i = Some (PHeap b).
Proof.
  intros Hwf Hr Hp Hal Hrun Had. pose proof (reachable_inv _ _ Hwf Hr) as HI.
  destruct Hp as (a & Ha & o & Ho & Hms & Hm). cbn in Hrun. destruct (decide (i = j)) as [->|Hij].
  { rewrite move_assign_self in Hrun. injection Hrun as <-. done. }
  assert (compat E a o = true) as Hc. { unfold compat. destruct Hal as [->| ->]; [done|]. by rewrite orb_true_r. }
  pose proof (move_assign_spec E w i j a o Hwf HI Hij Ha Ho Hms Hm) as H. unfold wp in H. rewrite Hrun in H.
  destruct H as (_ & _ & Hcc & _ & a' & o' & Ha' & _ & _ & _ & _ & _ & Hpt & _); [congruence|].
  destruct (address_content _ _ _ _ HI Had) as (T & x & Hx). rewrite Hx in Hcc. destruct (content_vt _ _ _ _ _ Ha' Hcc) as [v' Hv'].
  unfold address in *. rewrite Ho in Had. destruct (a_vt o) as [v|] eqn:Hv; [|done]. injection Had as Hpa.
  destruct (Hpt Hc) as [_ Hpt']. destruct (Hpt' b Hpa) as [Hp' _]; [done|]. by rewrite Ha', Hv', Hp'.
Qed.

Lemma no_buffer_stable E w i p : env_wf E -> reachable E w -> e_soos E = 0 -> address w i = Some p -> exists b, p = PHeap b.
Proof.
  intros Hwf Hr Hz Had. pose proof (reachable_inv _ _ Hwf Hr) as HI. unfold address in Had. destruct (w_any w !! i) as [a|] eqn:Ha; [|done].
  pose proof (inv_ok _ _ HI _ _ Ha) as [_ Hok]. unfold block_of in Hok. destruct (a_vt a); [|done]. injection Had as <-.
  destruct (a_vp a) as [k|b]; [|by exists b]. destruct Hok as (_ & T & x & id & _ & _ & Hf). unfold fits in Hf.
  apply andb_prop in Hf as [_ Hf]. apply Nat.leb_le in Hf. pose proof (wf_size _ Hwf T). lia.
Qed.

Lemma buffer_fits E w i k T x : env_wf E -> reachable E w -> address w i = Some (PData k) -> content w i = Some (Some (T, x)) ->
  k = i /\ ty_ntmove (e_ty E T) = true /\ ty_size (e_ty E T) <= e_soos E /\ ty_align (e_ty E T) <= max_align.
Proof.
  intros Hwf Hr Had Hc. pose proof (reachable_inv _ _ Hwf Hr) as HI. unfold address, content, view in *. destruct (w_any w !! i) as [a|] eqn:Ha; [|done].
  pose proof (inv_ok _ _ HI _ _ Ha) as [_ Hok]. unfold block_of, content_of in *. destruct (a_vt a); [|done]. injection Had as Hp. rewrite Hp in *.
  destruct Hok as (-> & T' & x' & id & _ & Hu & Hf). rewrite Hu in Hc. cbn in Hc. injection Hc as -> ->. unfold fits in Hf.
  apply andb_prop in Hf as [Hf H3]. apply andb_prop in Hf as [H1 H2]. apply Nat.leb_le in H1, H3. done.
Qed.

Lemma copy_placement E w w' i j ms T x : env_wf E -> reachable E w -> pre E w (OCopy i j ms) -> run E (OCopy i j ms) w = Ok tt w' ->
  content w j = Some (Some (T, x)) ->
  if fits E T then address w' i = Some (PData i) /\ allocs w' = allocs w
  else (exists b, address w' i = Some (PHeap b)) /\ allocs w' = S (allocs w).
Proof.
  intros Hwf Hr (Hi & Hd & a & Ha & Hct & Hcp) Hrun Hx. pose proof (reachable_inv _ _ Hwf Hr) as HI.
  pose proof (copy_ctor_spec E w i j a ms Hwf HI Hi Ha Hd Hct Hcp) as H. unfold wp in H. cbn in Hrun. rewrite Hrun in H.
  destruct H as (I & F & Hco & a' & Ha' & _ & _ & Hpl). rewrite Hx in Hpl, Hco.
  destruct (content_vt _ _ _ _ _ Ha' Hco) as [v Hv]. unfold address. rewrite Ha', Hv.
  destruct (fits E T); [by destruct Hpl as [-> ?]|]. destruct Hpl as ([b ->] & _ & ?). eauto.
Qed.
Lemma copy_no_throw E w i j ms T x : env_wf E -> reachable E w -> pre E w (OCopy i j ms) ->
  content w j = Some (Some (T, x)) -> fits E T = true -> ty_tcopy (e_ty E T) || ty_ntcopy (e_ty E T) = true ->
  exists w', run E (OCopy i j ms) w = Ok tt w'.
Proof.
  intros Hwf Hr (Hi & Hd & a & Ha & Hct & Hcp) Hx Hf Hn. pose proof (reachable_inv _ _ Hwf Hr) as HI. cbn.
  pose proof (copy_ctor_spec E w i j a ms Hwf HI Hi Ha Hd Hct Hcp) as H. unfold wp in H. destruct (copy_ctor E i j ms w) as [[] w'|w'| |]; try done.
  - eauto.
  - destruct H as (H & _). specialize (H T x Hx). rewrite Hf, Hn in H. done.
Qed.

(** moves of a value kept in the buffer never allocate, whatever the allocators *)
Lemma move_assign_small E w w' i j k : env_wf E -> reachable E w -> pre E w (OMoveAssign i j) -> alloc_safe E w (OMoveAssign i j) -> i <> j ->
  address w j = Some (PData k) -> outcome E (OMoveAssign i j) w w' ->
  run E (OMoveAssign i j) w = Ok tt w' -> allocs w' = allocs w /\ address w' i = Some (PData i).
Proof.
  intros Hwf Hr (a & Ha & o & Ho & Hms & Hm) Hs Hij Had _ Hrun. pose proof (reachable_inv _ _ Hwf Hr) as HI. cbn in Hrun.
  destruct Hs as (a1 & Ha1 & o1 & Ho1 & Hs). rewrite Ha in Ha1. rewrite Ho in Ho1. injection Ha1 as <-. injection Ho1 as <-.
  pose proof (move_assign_spec E w i j a o Hwf HI Hij Ha Ho Hms Hm) as H. unfold wp in H. rewrite Hrun in H.
  destruct H as (_ & _ & Hcc & _ & a' & o' & Ha' & _ & _ & _ & _ & _ & _ & Hpt).
  { intros Hc Hz. destruct Hs as [?|[?|[?|[?|?]]]]; [done|by left|congruence|done|by right]. }
  destruct (address_content _ _ _ _ HI Had) as (T & x & Hx). rewrite Hx in Hcc. destruct (content_vt _ _ _ _ _ Ha' Hcc) as [v' Hv'].
  unfold address in *. rewrite Ho in Had. destruct (a_vt o) as [v|] eqn:Hv; [|done]. injection Had as Hpa.
  pose proof (inv_ok _ _ HI _ _ Ho) as [_ Hok]. rewrite Hpa in Hok. destruct Hok as [-> _].
  destruct (Hpt Hpa) as [Hp' [_ Hq]]; [done|]. by rewrite Ha', Hv', Hp'.
Qed.

(** dispatch: every entry of the interface is the implementation for the contained type *)
Lemma vt_entries_read ms v T m w : vt_alive w v -> vt_entries ms v T -> In m ms -> vt_read ms v m w = Ok T w.
Proof. intros. by apply vt_read_ok. Qed.
Lemma dispatch E w i a T x m : env_wf E -> reachable E w -> w_any w !! i = Some a -> content w i = Some (Some (T, x)) ->
  In m (a_ms a) -> any_slot i m w = Ok T w.
Proof.
  intros Hwf Hr Ha Hc Hm. pose proof (reachable_inv _ _ Hwf Hr) as HI. unfold any_slot. rewrite (bind_get_any _ _ _ _ Ha).
  pose proof (inv_ok _ _ HI _ _ Ha) as [_ Hok]. pose proof (inv_home _ _ HI _ _ Ha) as Hh. unfold home_ok in Hh.
  unfold content, view in Hc. rewrite Ha in Hc. injection Hc as Hc. unfold content_of, block_of in *.
  destruct (a_vt a) as [v|]; [|done]. destruct (a_vp a) as [k|b].
  - destruct Hok as (_ & T' & x' & id & He & Hu & _). rewrite Hu in Hc. cbn in Hc. injection Hc as -> ->. by apply vt_read_ok.
  - destruct Hok as (al & n & bo & Hb & _ & _ & T' & x' & id & He & -> & _). rewrite Hb in Hc. cbn in Hc. injection Hc as -> ->. by apply vt_read_ok.
Qed.
Lemma invoke_fact E w i a T x n y : env_wf E -> reachable E w -> w_any w !! i = Some a -> In (MUser n) (a_ms a) ->
  content w i = Some (Some (T, x)) ->
  match invoke E i n y w with
  | Ok r w' => snd (e_meth E T n x y) = Some r /\ content w' i = Some (Some (T, fst (e_meth E T n x y))) /\ address w' i = address w i
  | Exn w' => snd (e_meth E T n x y) = None /\ content w' i = Some (Some (T, fst (e_meth E T n x y))) /\ address w' i = address w i
  | _ => False
  end.
Proof.
  intros Hwf Hr Ha Hm Hc. pose proof (reachable_inv _ _ Hwf Hr) as HI.
  pose proof (invoke_spec E w i a n y T x HI Ha Hm Hc) as H. unfold wp in H. destruct (invoke E i n y w) as [r w'|w'| |]; try done.
  - destruct H as (Hs & _ & _ & _ & Hc' & a' & Ha' & Hv & Hp & _). split; [done|]. split; [done|]. unfold address. by rewrite Ha, Ha', Hv, Hp.
  - destruct H as (Hs & _ & _ & _ & Hc' & a' & Ha' & Hv & Hp & _). split; [done|]. split; [done|]. unfold address. by rewrite Ha, Ha', Hv, Hp.
Qed.

Lemma new_any_ms E w w' i j ms : env_wf E -> reachable E w ->
  (run E (OCopy i j ms) w = Ok tt w' /\ pre E w (OCopy i j ms)) \/
  (run E (OTransMove i j ms) w = Ok tt w' /\ pre E w (OTransMove i j ms) /\ alloc_safe E w (OTransMove i j ms)) ->
  exists a', w_any w' !! i = Some a' /\ a_ms a' = ms.
Proof.
  intros Hwf Hr. pose proof (reachable_inv _ _ Hwf Hr) as HI. intros [(Hrun & Hi & Hd & a & Ha & Hct & Hcp)|(Hrun & (Hi & Hd & a & Ha & Hct & Hm) & (a1 & Ha1 & Hs))]; cbn in Hrun.
  - pose proof (copy_ctor_spec E w i j a ms Hwf HI Hi Ha Hd Hct Hcp) as H. unfold wp in H. rewrite Hrun in H.
    destruct H as (I & F & Hco & a' & Ha' & _ & Hms & _). by exists a'.
  - rewrite Ha in Ha1. injection Ha1 as <-. pose proof (trans_move_ctor_spec E w i j a ms Hwf HI Hi Ha Hd Hct Hm) as H. unfold wp in H. rewrite Hrun in H.
    destruct H as (_ & _ & _ & _ & _ & a' & o' & Ha' & _ & _ & Hms & _).
    + intros b Hb Hv. destruct Hs as [?|[?|?]]; [done|congruence|done].
    + by exists a'.
Qed.

(** conversions to a smaller interface *)
Lemma convert_copy E w w' i j ms T x m : env_wf E -> reachable E w -> pre E w (OCopy i j ms) -> run E (OCopy i j ms) w = Ok tt w' ->
  content w j = Some (Some (T, x)) -> In m ms ->
  content w' i = Some (Some (T, x)) /\ content w' j = Some (Some (T, x)) /\ any_slot i m w' = Ok T w'.
Proof.
  intros Hwf Hr Hp Hrun Hx Hm. destruct (copy_equal E w w' i j ms Hwf Hr Hp Hrun) as (H1 & H2 & _).
  rewrite Hx in H1, H2. split; [done|]. split; [done|].
  destruct (new_any_ms E w w' i j ms Hwf Hr) as (a' & Ha' & Hms); [by left|].
  eapply (dispatch E w' i a' T x m); [done| |done|done|by rewrite Hms].
  eapply (reachable_outcome E w (OCopy i j ms)); [done..|by left].
Qed.
Lemma convert_move E w w' i j ms T x m : env_wf E -> reachable E w -> pre E w (OTransMove i j ms) -> alloc_safe E w (OTransMove i j ms) ->
  run E (OTransMove i j ms) w = Ok tt w' -> content w j = Some (Some (T, x)) -> In m ms ->
  content w' i = Some (Some (T, x)) /\ is_empty w' j /\ any_slot i m w' = Ok T w'.
Proof.
  intros Hwf Hr Hp Hs Hrun Hx Hm. destruct (trans_move_fact E w w' i j ms Hwf Hr Hp Hs (or_introl Hrun)) as (_ & H1 & H2).
  rewrite Hx in H1. split; [done|]. split; [done|].
  destruct (new_any_ms E w w' i j ms Hwf Hr) as (a' & Ha' & Hms); [by right|].
  eapply (dispatch E w' i a' T x m); [done| |done|done|by rewrite Hms].
  eapply (reachable_outcome E w (OTransMove i j ms)); [done..|by left].
Qed.

(** the value a reference denotes *)
Definition ref_val (w : world) (x : refsrc) : option (nat * nat) :=
  match x with
  | RAny j _ => match content w j with Some c => c | None => None end
  | RSref r => match w_sref w !! r with
               | Some s => match obj_at w (sr_ptr s) with Some o => Some (o_ty o, o_val o) | None => None end
               | None => None end
  end.
Lemma materialize_fact E w i al x : env_wf E -> reachable E w -> pre E w (OMaterialize i al x) ->
  match run E (OMaterialize i al x) w with
  | Ok _ w' => exists c, ref_val w x = Some c /\ content w' i = Some (Some c)
  | Exn w' => w_any w' = w_any w /\ w_heap w' = w_heap w
  | _ => False
  end.
Proof.
  intros Hwf Hr (Hi & Hst & ms & T & Hden & Hd & Hcp & Hal & Hno). pose proof (reachable_inv _ _ Hwf Hr) as HI.
  assert (exists r v, make_ref x w = Ok r w /\ ref_good w r T v /\ pr_ms r = ms /\ ref_val w x = Some (T, v)) as (r & v & Hrr & Hg & Hms & Hv).
  { destruct x as [j ms'|r]; cbn in Hden.
    - destruct Hden as (-> & (b & Hb & Hct) & v & Hc').
      destruct (make_ref_any E w j b ms T v HI Hb Hc' Hct) as (r & Hrr & Hg & Hms & _). exists r, v. cbn. by rewrite Hc'.
    - destruct Hden as (s & v & id & Hsr & Hm & Ht & Hobj). exists (PRef (VPtr (Some r) (sr_tab s) 0) (sr_ptr s) (sr_ms s)), v.
      unfold make_ref, ref_val. rewrite Hsr, Hobj. split; [done|]. split; [|done]. split; [|split]; cbn.
      + unfold vt_alive. cbn. by eexists.
      + rewrite Hm. intros k m Hk. cbn. rewrite Ht, nth_error_map, Hk. done.
      + by exists id. }
  rewrite <- Hms in Hd, Hcp. cbn [run].
  pose proof (materialize_spec E w i al x r T v Hwf HI Hst Hi Hrr Hg Hd Hcp Hal Hno) as H. unfold wp in H.
  destruct (materialize E i al x w) as [u w'|w'| |]; try done.
  - destruct H as (_ & _ & H & _). by exists (T, v).
  - destruct H as (_ & ? & ? & _). done.
Qed.

(** every contained object is aligned *)
Lemma aligned E w i T x : env_wf E -> reachable E w -> content w i = Some (Some (T, x)) -> ty_align (e_ty E T) <= max_align.
Proof.
  intros Hwf Hr Hc. pose proof (reachable_inv _ _ Hwf Hr) as HI. unfold content, view in Hc. destruct (w_any w !! i) as [a|] eqn:Ha; [|done].
  injection Hc as Hc. pose proof (inv_ok _ _ HI _ _ Ha) as [_ Hok]. unfold content_of, block_of in *.
  destruct (a_vt a) as [v|]; [|done]. destruct (a_vp a) as [k|b].
  - destruct Hok as (_ & T' & x' & id & _ & Hu & Hf). rewrite Hu in Hc. cbn in Hc. injection Hc as -> ->.
    unfold fits in Hf. apply andb_prop in Hf as [Hf _]. apply andb_prop in Hf as [Hf _]. by apply Nat.leb_le.
  - destruct Hok as (al & n & bo & Hb & _ & _ & T' & x' & id & _ & -> & _ & Hal). rewrite Hb in Hc. cbn in Hc. by injection Hc as -> ->.
Qed.
