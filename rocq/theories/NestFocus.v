(** Anys at places: reading and replacing them (for C96). *)
From stdpp Require Import gmap list sets.
From Verif Require Import NestModel NestSpec NestProofs.

(** below an any: [] is the any itself *)
Definition get_sub (a : any) (r : list nat) : M any :=
  match r with [] => retM a | _ => let! o := value a in match o with Obj _ _ cs => get_in cs r end end.
Definition put_sub (a : any) (r : list nat) (x : any) : M any :=
  match r with
  | [] => retM x
  | _ => let! o := value a in match o with Obj T v cs => let! cs' := put_in cs r x in set_value a (Obj T v cs') end
  end.
Lemma get_in_cons l k r w : get_in l (k :: r) w = match l !! k with Some a => get_sub a r w | None => UB UbNoAny end.
Proof. cbn. destruct (l !! k) as [a|]; [|done]. by destruct r. Qed.
Lemma put_in_cons l k r x w : put_in l (k :: r) x w =
  match l !! k with Some a => match put_sub a r x w with Ok a' w' => Ok (<[k := a']> l) w' | Exn w' => Exn w' | UB u => UB u | OutOfFuel => OutOfFuel end
  | None => UB UbNoAny end.
Proof.
  cbn. destruct (l !! k) as [a|]; [|done]. destruct r as [|j r]; [done|]. cbn [put_sub]. unfold bindM, retM.
  destruct (value a w) as [[T v cs] w1| | |]; try done. destruct (put_in cs (j :: r) x w1) as [cs' w2| | |]; try done.
Qed.
Definition tsub (t : option tree) (r : list nat) : option (option tree) :=
  match r with [] => Some t | _ => match t with Some (Node _ _ cs) => tget cs r | None => None end end.
Definition tput_sub (t : option tree) (r : list nat) (x : option tree) : option tree :=
  match r with [] => x | _ => match t with Some (Node T v cs) => Some (Node T v (tput cs r x)) | None => None end end.
Lemma tget_cons l k r : tget l (k :: r) = match l !! k with Some t => tsub t r | None => None end.
Proof. cbn. destruct (l !! k) as [t|]; [|done]. by destruct r. Qed.
Lemma tput_cons l k r x t u : l !! k = Some t -> tsub t r = Some u -> tput l (k :: r) x = <[k := tput_sub t r x]> l.
Proof. intros Hk Hu. cbn. destruct r as [|j r]; [done|]. rewrite Hk. destruct t as [[T v cs]|]; [|done]. done. Qed.

(** only the blocks [R] are written, none is freed or added *)
Definition only (R : gset nat) (w w' : world) : Prop :=
  w_vars w' = w_vars w /\ w_next w' = w_next w /\ w_tick w' = w_tick w /\ dom (w_heap w') = dom (w_heap w) /\
  forall b, b ∉ R -> w_heap w' !! b = w_heap w !! b.
Lemma only_refl R w : only R w w. Proof. by repeat split. Qed.
Lemma only_trans R S w w' w'' : only R w w' -> only S w' w'' -> only (R ∪ S) w w''.
Proof.
  intros (A1 & A2 & A3 & A4 & A5) (B1 & B2 & B3 & B4 & B5). repeat split; try congruence.
  intros b Hb. rewrite B5 by set_solver. apply A5. set_solver.
Qed.
Lemma only_mono R S w w' : only R w w' -> R ⊆ S -> only S w w'.
Proof. intros (A1 & A2 & A3 & A4 & A5) H. repeat split; try done. intros b Hb. apply A5. set_solver. Qed.
Lemma only_agree R S w w' : only R w w' -> R ## S -> agree S (w_heap w) (w_heap w').
Proof. intros (_ & _ & _ & _ & H) Hd b Hb. symmetry. apply H. set_solver. Qed.
Lemma agree_trans S h h' h'' : agree S h h' -> agree S h' h'' -> agree S h h''.
Proof. intros H1 H2 b Hb. by rewrite H1, H2. Qed.
Lemma agree_mono R S h h' : agree R h h' -> S ⊆ R -> agree S h h'.
Proof. intros H Hs b Hb. apply H. set_solver. Qed.

(** facts about sets of blocks *)
Ltac sets := repeat match goal with
  | H : ?P |- _ => lazymatch P with
    | _ ## _ => fail | _ ⊆ _ => fail | _ ∈ _ => fail | _ ∉ _ => fail | @eq (gset nat) _ _ => fail | _ => clear H end end; set_solver.

Section Env.
  Context (E : env).
  Notation shows := (shows E). Notation all_show := (all_show E).

  Lemma all_show_split h l ts B k t : all_show h l ts B -> ts !! k = Some t ->
    exists a A R, l !! k = Some a /\ shows h a t A /\ A ## R /\ B = A ∪ R /\
      forall h' a' t' A', agree R h h' -> shows h' a' t' A' -> A' ## R -> all_show h' (<[k := a']> l) (<[k := t']> ts) (A' ∪ R).
  Proof.
    intros H. revert k. induction H as [|a u A l ts C Hs Hl IH Hd]; intros k Hk; [done|]. destruct k as [|k]; cbn in *.
    - injection Hk as ->. exists a, A, C. repeat split; try done. intros h' a' t' A' Ha Hs' Hd'. constructor; [done| |done].
      by eapply all_show_frame.
    - destruct (IH k Hk) as (b & B1 & R & Hb & Hsb & Hdb & -> & Hc). exists b, B1, (A ∪ R). repeat split; try done; try sets.
      intros h' a' t' A' Ha Hs' Hd'. replace (A' ∪ (A ∪ R)) with (A ∪ (A' ∪ R)) by sets. constructor.
      + eapply shows_frame; [done|]. eapply agree_mono; [done|sets].
      + apply Hc; [eapply agree_mono; [done|sets]|done|sets].
      + sets.
  Qed.

  (** where the value of an any is, and the block it needs *)
  Definition slot (h : gmap nat block) (a : any) (T : nat) (R : gset nat) : Prop :=
    (exists o, a = Any (Some T) PBuf o /\ fits E T = true /\ R = ∅) \/
    (exists b n o, a = Any (Some T) (PHeap b n) None /\ h !! b = Some (Block n o) /\ e_size E T <= n /\ R = {[b]}).
  Lemma slot_agree h h' a T R : slot h a T R -> agree R h h' -> slot h' a T R.
  Proof.
    intros [(o & -> & Hf & ->)|(b & n & o & -> & Hb & Hn & ->)] Ha; [left; by exists o|]. right. exists b, n, o. rewrite <- (Ha b) by sets. done.
  Qed.
  Lemma set_slot w a T R v cs : slot (w_heap w) a T R ->
    exists a' w', set_value a (Obj T v cs) w = Ok a' w' /\ only R w w' /\ slot (w_heap w') a' T R /\
      (forall w'', agree R (w_heap w') (w_heap w'') -> value a' w'' = Ok (Obj T v cs) w'') /\
      (forall h'' ts C, agree R (w_heap w') h'' -> all_show h'' cs ts C -> C ## R -> shows h'' a' (Some (Node T v ts)) (C ∪ R)).
  Proof.
    intros [(o & -> & Hf & ->)|(b & n & o & -> & Hb & Hn & ->)]; cbn [set_value].
    - eexists _, w. split; [done|]. split; [apply only_refl|]. split; [left; by eexists|]. split.
      + intros w'' _. unfold value. by rewrite Nat.eqb_refl.
      + intros h'' ts C _ Hl _. replace (C ∪ ∅) with C by sets. by constructor.
    - unfold bindM, put_block. rewrite Hb. cbn. eexists _, _. split; [done|]. split.
      { repeat split; cbn; [|intros c Hc; rewrite lookup_insert_ne; sets]. rewrite dom_insert_L. apply elem_of_dom_2 in Hb. sets. }
      split; [right; exists b, n; eexists; split; [done|]; cbn; by rewrite lookup_insert|]. split.
      + intros w'' Ha. unfold value. rewrite <- (Ha b) by sets. cbn. rewrite lookup_insert. cbn. by rewrite Nat.eqb_refl.
      + intros h'' ts C Ha Hl Hd. replace (C ∪ {[b]}) with ({[b]} ∪ C) by sets. econstructor; [|done|done|sets].
        rewrite <- (Ha b) by sets. cbn. by rewrite lookup_insert.
  Qed.
  Lemma shows_node h a T v ts B : shows h a (Some (Node T v ts)) B ->
    exists cs C R, all_show h cs ts C /\ C ## R /\ B = C ∪ R /\ slot h a T R /\ forall w, agree R h (w_heap w) -> value a w = Ok (Obj T v cs) w.
  Proof.
    intros H. inversion H as [| |T' v' cs ts' B' Hf Hl|T' v' cs ts' B' b n Hb Hn Hl Hnb]; subst.
    - exists cs, B, ∅. split; [done|]. split; [sets|]. split; [sets|]. split; [left; by eexists|].
      intros w _. unfold value. by rewrite Nat.eqb_refl.
    - exists cs, B', {[b]}. split; [done|]. split; [sets|]. split; [sets|]. split; [right; by eexists _, _, _|].
      intros w Ha. unfold value. rewrite <- (Ha b) by sets. rewrite Hb. cbn. by rewrite Nat.eqb_refl.
  Qed.

  Lemma focus_in p : forall h l ts B u, all_show h l ts B -> tget ts p = Some u ->
    exists c C R, C ## R /\ B = C ∪ R /\ shows h c u C /\ (forall w, agree R h (w_heap w) -> get_in l p w = Ok c w) /\
      forall w c' u' C', agree R h (w_heap w) -> shows (w_heap w) c' u' C' -> C' ## R ->
        exists l' w', put_in l p c' w = Ok l' w' /\ only R w w' /\ all_show (w_heap w') l' (tput ts p u') (C' ∪ R) /\
          forall w'', agree R (w_heap w') (w_heap w'') -> get_in l' p w'' = Ok c' w''.
  Proof.
    induction p as [|k r IH]; intros h l ts B u H Hu; [done|]. rewrite tget_cons in Hu. destruct (ts !! k) as [t|] eqn:Hk; [|done].
    destruct (all_show_split _ _ _ _ _ _ H Hk) as (a & A & R & Ha & Hs & Hd & -> & Hc).
    destruct r as [|j r].
    - injection Hu as <-. exists a, A, R. split; [done|]. split; [done|]. split; [done|]. split.
      + intros w _. rewrite get_in_cons, Ha. done.
      + intros w c' u' C' Hag Hs' Hd'. rewrite put_in_cons, Ha. cbn [put_sub retM]. exists (<[k := c']> l), w. split; [done|].
        split; [apply only_refl|]. split; [cbn [tput]; by apply Hc|].
        intros w'' _. rewrite get_in_cons, list_lookup_insert; [done|by eapply lookup_lt_Some].
    - destruct t as [[T v cts]|]; [|done]. cbn [tsub] in Hu.
      destruct (shows_node _ _ _ _ _ _ Hs) as (cs & C & S & Hl & HdS & -> & Hslot & Hv).
      destruct (IH h cs cts C u Hl Hu) as (c & D & Q & HdD & -> & Hsc & Hget & Hput).
      exists c, D, (Q ∪ S ∪ R). split; [sets|]. split; [sets|]. split; [done|]. split.
      + intros w Hag. rewrite get_in_cons, Ha. cbn [get_sub]. unfold bindM. rewrite Hv by (eapply agree_mono; [done|sets]).
        apply Hget. eapply agree_mono; [done|sets].
      + intros w c' u' C' Hag Hs' Hd'. rewrite put_in_cons, Ha. cbn [put_sub]. unfold bindM. rewrite Hv by (eapply agree_mono; [done|sets]).
        destruct (Hput w c' u' C') as (cs' & w1 & Hp & Ho & Hl1 & Hg1); [eapply agree_mono; [done|sets]|done|sets|]. rewrite Hp.
        assert (agree S h (w_heap w1)) as HagS.
        { eapply agree_trans; [eapply agree_mono; [exact Hag|sets]|]. eapply only_agree; [done|sets]. }
        destruct (set_slot w1 a T S v cs' (slot_agree _ _ _ _ _ Hslot HagS)) as (a' & w2 & Hst & Ho2 & _ & Hv2 & Hs2).
        specialize (Hs2 (w_heap w2) (tput cts (j :: r) u') (C' ∪ Q) (fun b _ => eq_refl)
          (all_show_frame _ _ _ _ _ _ Hl1 (only_agree S (C' ∪ Q) _ _ Ho2 ltac:(sets))) ltac:(sets)).
        rewrite Hst. exists (<[k := a']> l), w2. split; [done|]. split.
        { eapply only_mono; [by eapply only_trans|sets]. }
        split; [|intros w3 Hag3; rewrite get_in_cons, list_lookup_insert by (by eapply lookup_lt_Some); cbn [get_sub]; unfold bindM;
          rewrite Hv2 by (eapply agree_mono; [exact Hag3|sets]); apply Hg1;
          eapply agree_trans; [eapply only_agree; [exact Ho2|sets]|]; eapply agree_mono; [exact Hag3|sets]].
        erewrite tput_cons; [|done|done]. replace (C' ∪ (Q ∪ S ∪ R)) with (C' ∪ Q ∪ S ∪ R) by sets. cbn [tput_sub]. apply Hc; [|done|sets].
        eapply agree_trans; [eapply agree_mono; [exact Hag|sets]|]. eapply only_agree; [by eapply only_trans|sets].
  Qed.

  Lemma shows_nothing h t B : shows h nothing t B -> t = None /\ B = ∅.
  Proof. inversion 1; done. Qed.
  Lemma all_show_split2 h l ts B k t j u : all_show h l ts B -> ts !! k = Some t -> ts !! j = Some u -> k <> j ->
    exists a A c C R, l !! k = Some a /\ l !! j = Some c /\ shows h a t A /\ shows h c u C /\ A ## C /\ A ## R /\ C ## R /\ B = A ∪ C ∪ R /\
      forall h' a' t' A' c' u' C', agree R h h' -> shows h' a' t' A' -> shows h' c' u' C' -> A' ## C' -> A' ## R -> C' ## R ->
        all_show h' (<[j := c']> (<[k := a']> l)) (<[j := u']> (<[k := t']> ts)) (A' ∪ C' ∪ R).
  Proof.
    intros H Hk Hj Hne. destruct (all_show_split _ _ _ _ _ _ H Hk) as (a & A & R & Ha & Hs & Hd & -> & Hc).
    pose proof (Hc h nothing None ∅ (fun b _ => eq_refl) (s_nothing E h) ltac:(sets)) as H0.
    destruct (all_show_split _ _ _ _ j u H0) as (c & C & R' & Hcj & Hsc & Hd' & HR & Hc').
    { by rewrite list_lookup_insert_ne. }
    rewrite list_lookup_insert_ne in Hcj by done. assert (R = C ∪ R') as -> by sets.
    exists a, A, c, C, R'. split; [done|]. split; [done|]. split; [done|]. split; [done|]. split; [sets|]. split; [sets|].
    split; [done|]. split; [sets|]. intros h' a' t' A' c' u' C' Hag Hsa Hscc H1 H2 H3.
    pose proof (Hc' h' c' u' C' Hag Hscc H3) as H4.
    destruct (all_show_split _ _ _ _ k None H4) as (n & N & R2 & Hnk & Hsn & _ & HR2 & Hc2).
    { rewrite list_lookup_insert_ne by done. apply list_lookup_insert. by eapply lookup_lt_Some. }
    rewrite list_lookup_insert_ne in Hnk by done. rewrite list_lookup_insert in Hnk by (by eapply lookup_lt_Some). injection Hnk as <-.
    apply shows_nothing in Hsn as [_ ->]. assert (R2 = C' ∪ R') as -> by sets.
    pose proof (Hc2 h' a' t' A' (fun b _ => eq_refl) Hsa ltac:(sets)) as H5.
    rewrite !(list_insert_commute _ k j), !list_insert_insert in H5 by done. by replace (A' ∪ C' ∪ R') with (A' ∪ (C' ∪ R')) by sets.
  Qed.

  Lemma focus_sub r h a t B u : shows h a t B -> tsub t r = Some u ->
    exists c C R, C ## R /\ B = C ∪ R /\ shows h c u C /\ (forall w, agree R h (w_heap w) -> get_sub a r w = Ok c w) /\
      forall w c' u' C', agree R h (w_heap w) -> shows (w_heap w) c' u' C' -> C' ## R ->
        exists a' w', put_sub a r c' w = Ok a' w' /\ only R w w' /\ shows (w_heap w') a' (tput_sub t r u') (C' ∪ R).
  Proof.
    intros Hs Hu. destruct (focus_in (0 :: r) h [a] [t] B u) as (c & C & R & Hd & HB & Hsc & Hg & Hp).
    { by apply all_show_one. } { by rewrite tget_cons. }
    exists c, C, R. split; [done|]. split; [done|]. split; [done|]. split.
    - intros w Hag. specialize (Hg w Hag). rewrite get_in_cons in Hg. done.
    - intros w c' u' C' Hag Hs' Hd'. destruct (Hp w c' u' C' Hag Hs' Hd') as (l' & w' & Hpi & Ho & Hl & _). rewrite put_in_cons in Hpi. cbn in Hpi.
      destruct (put_sub a r c' w) as [a' w1| | |]; try done. injection Hpi as <- <-. exists a', w1. split; [done|]. split; [done|].
      rewrite (tput_cons [t] 0 r u' t u) in Hl by done. cbn in Hl. inversion Hl as [|? ? B1 ? ? C1 Hs1 Hl1 Hd1]; subst. inversion Hl1; subst.
      by replace (B1 ∪ ∅) with B1 by sets.
  Qed.

  (** two places, neither inside the other; the first is replaced, then the second.  In between memory may change, but not what was there. *)
  Lemma focus_two p : forall q h l ts B t u, all_show h l ts B -> tget ts p = Some t -> tget ts q = Some u -> ~ above p q -> ~ above q p ->
    exists a A c C R, shows h a t A /\ shows h c u C /\ A ## C /\ A ## R /\ C ## R /\ B = A ∪ C ∪ R /\
      (forall w, agree R h (w_heap w) -> get_in l p w = Ok a w) /\ (forall w, agree R h (w_heap w) -> get_in l q w = Ok c w) /\
      forall w a' t' A', agree R h (w_heap w) -> shows (w_heap w) a' t' A' -> A' ## R ->
        exists l1 w1, put_in l p a' w = Ok l1 w1 /\ only R w w1 /\
          forall w1' c' u' C', agree (A' ∪ R) (w_heap w1) (w_heap w1') -> shows (w_heap w1') c' u' C' -> A' ## C' -> C' ## R ->
            exists l2 w2, put_in l1 q c' w1' = Ok l2 w2 /\ only R w1' w2 /\
              all_show (w_heap w2) l2 (tput (tput ts p t') q u') (A' ∪ C' ∪ R).
  Proof.
    induction p as [|k p IH]; intros q h l ts B t u H Hp Hq Hpq Hqp; [done|]. destruct q as [|j q]; [done|].
    rewrite tget_cons in Hp, Hq. destruct (ts !! k) as [tk|] eqn:Hk; [|done]. destruct (ts !! j) as [tj|] eqn:Hj; [|done].
    destruct (decide (k = j)) as [->|Hne].
    - assert (tk = tj) as -> by congruence. clear Hk.
      destruct p as [|k' p]; [destruct Hpq; by exists q|]. destruct q as [|j' q]; [destruct Hqp; by eexists|].
      destruct tj as [[T v cts]|]; [|done]. cbn [tsub] in Hp, Hq.
      destruct (all_show_split _ _ _ _ _ _ H Hj) as (x & X & R0 & Hx & Hsx & Hd & -> & Hc).
      destruct (shows_node _ _ _ _ _ _ Hsx) as (cs & Y & S & Hl & HdS & -> & Hslot & Hv).
      destruct (IH (j' :: q) h cs cts Y t u Hl Hp Hq) as (a & A & c & C & R & Hsa & Hsc & D1 & D2 & D3 & -> & Hgp & Hg & Hput).
      { intros [r Hr]. apply Hpq. exists r. by rewrite Hr. } { intros [r Hr]. apply Hqp. exists r. by rewrite Hr. }
      exists a, A, c, C, (R ∪ S ∪ R0). split; [done|]. split; [done|]. split; [done|]. split; [sets|]. split; [sets|].
      split; [sets|]. split.
      { intros w Hag. rewrite get_in_cons, Hx. cbn [get_sub]. unfold bindM. rewrite Hv by (eapply agree_mono; [done|sets]).
        apply Hgp. eapply agree_mono; [done|sets]. }
      split.
      { intros w Hag. rewrite get_in_cons, Hx. cbn [get_sub]. unfold bindM. rewrite Hv by (eapply agree_mono; [done|sets]).
        apply Hg. eapply agree_mono; [done|sets]. }
      intros w a' t' A' Hag Ha' E1.
      destruct (Hput w a' t' A') as (l1 & w1 & P1 & O1 & Hput2); [eapply agree_mono; [done|sets]|done|sets|].
      assert (agree S h (w_heap w1)) as HagS.
      { eapply agree_trans; [eapply agree_mono; [exact Hag|sets]|]. eapply only_agree; [done|sets]. }
      destruct (set_slot w1 x T S v l1 (slot_agree _ _ _ _ _ Hslot HagS)) as (x1 & w2 & Hst & O2 & Hslot2 & Hv2 & _).
      exists (<[j := x1]> l), w2. split.
      { rewrite put_in_cons, Hx. cbn [put_sub]. unfold bindM. rewrite Hv by (eapply agree_mono; [done|sets]). by rewrite P1, Hst. }
      split; [eapply only_mono; [by eapply only_trans|sets]|]. intros w3 c' u' C' Hag3 Hc' E2 E3.
      destruct (Hput2 w3 c' u' C') as (l2 & w4 & P4 & O4 & Hl4).
      { eapply agree_trans; [eapply only_agree; [exact O2|sets]|]. eapply agree_mono; [done|sets]. } { done. } { done. } { sets. }
      assert (agree S (w_heap w2) (w_heap w4)) as HagS4.
      { eapply agree_trans; [eapply agree_mono; [exact Hag3|sets]|]. eapply only_agree; [done|sets]. }
      destruct (set_slot w4 x1 T S v l2 (slot_agree _ _ _ _ _ Hslot2 HagS4)) as (x2 & w5 & Hst5 & O5 & _ & _ & Hs5).
      specialize (Hs5 (w_heap w5) _ _ (fun b _ => eq_refl) (all_show_frame _ _ _ _ _ _ Hl4 (only_agree S (A' ∪ C' ∪ R) _ _ O5 ltac:(sets))) ltac:(sets)).
      assert (j < length l) as Hlj by (by eapply lookup_lt_Some).
      exists (<[j := x2]> (<[j := x1]> l)), w5. split.
      { rewrite put_in_cons, list_lookup_insert by done. cbn [put_sub]. unfold bindM. rewrite Hv2 by (eapply agree_mono; [done|sets]). by rewrite P4, Hst5. }
      split; [eapply only_mono; [by eapply only_trans|sets]|]. rewrite list_insert_insert.
      assert (j < length ts) as Htj by (by eapply lookup_lt_Some).
      rewrite (tput_cons ts j (k' :: p) t' (Some (Node T v cts)) t) by done.
      replace (tput (<[j := tput_sub (Some (Node T v cts)) (k' :: p) t']> ts) (j :: j' :: q) u') with (<[j := Some (Node T v (tput (tput cts (k' :: p) t') (j' :: q) u'))]> ts).
      2:{ cbn [tput_sub]. cbn [tput]. rewrite list_lookup_insert by done. by rewrite list_insert_insert. }
      replace (A' ∪ C' ∪ (R ∪ S ∪ R0)) with (A' ∪ C' ∪ R ∪ S ∪ R0) by sets. apply Hc; [|done|sets].
      eapply agree_trans; [eapply agree_mono; [exact Hag|sets]|].
      eapply agree_trans; [eapply only_agree; [by eapply only_trans|sets]|].
      eapply agree_trans; [eapply agree_mono; [exact Hag3|sets]|].
      eapply only_agree; [by eapply only_trans|sets].
    - destruct (all_show_split2 _ _ _ _ _ _ _ _ H Hk Hj Hne) as (x & X & y & Y & R0 & Hx & Hy & Hsx & Hsy & D1 & D2 & D3 & -> & Hc).
      destruct (focus_sub p h x tk X t Hsx Hp) as (a & A & R1 & F1 & -> & Hsa & Hga & Hpa).
      destruct (focus_sub q h y tj Y u Hsy Hq) as (c & C & R2 & F2 & -> & Hsc & Hgc & Hpc).
      exists a, A, c, C, (R1 ∪ R2 ∪ R0). split; [done|]. split; [done|]. split; [sets|]. split; [sets|]. split; [sets|]. split; [sets|]. split.
      { intros w Hag. rewrite get_in_cons, Hx. apply Hga. eapply agree_mono; [done|sets]. }
      split.
      { intros w Hag. rewrite get_in_cons, Hy. apply Hgc. eapply agree_mono; [done|sets]. }
      intros w a' t' A' Hag Ha' E1.
      destruct (Hpa w a' t' A') as (x1 & w1 & P1 & O1 & Hx1); [eapply agree_mono; [done|sets]|done|sets|].
      exists (<[k := x1]> l), w1. split; [by rewrite put_in_cons, Hx, P1|]. split; [eapply only_mono; [done|sets]|].
      intros w2 c' u' C' Hag2 Hc' E2 E3.
      destruct (Hpc w2 c' u' C') as (y1 & w3 & P3 & O3 & Hy3); [|done|sets|].
      { eapply agree_trans; [eapply agree_mono; [exact Hag|sets]|]. eapply agree_trans; [eapply only_agree; [exact O1|sets]|]. eapply agree_mono; [done|sets]. }
      exists (<[j := y1]> (<[k := x1]> l)), w3. split; [by rewrite put_in_cons, list_lookup_insert_ne, Hy, P3|]. split; [eapply only_mono; [done|sets]|].
      rewrite (tput_cons ts k p t' tk t) by done. rewrite (tput_cons _ j q u' tj u) by (done || by rewrite list_lookup_insert_ne).
      replace (A' ∪ C' ∪ (R1 ∪ R2 ∪ R0)) with ((A' ∪ R1) ∪ (C' ∪ R2) ∪ R0) by sets. apply Hc; [| |done|sets|sets|sets].
      + eapply agree_trans; [eapply agree_mono; [exact Hag|sets]|]. eapply agree_trans; [eapply only_agree; [exact O1|sets]|].
        eapply agree_trans; [eapply agree_mono; [exact Hag2|sets]|]. eapply only_agree; [done|sets].
      + eapply shows_frame; [done|]. eapply agree_trans; [eapply agree_mono; [exact Hag2|sets]|]. eapply only_agree; [done|sets].
  Qed.
End Env.
