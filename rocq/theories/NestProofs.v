(** Proofs about anys inside values (C96). *)
From stdpp Require Import gmap list sets.
From Verif Require Import NestModel NestSpec.

(** ** Triples *)
Definition wp {A} (m : M A) (w : world) (Q : A -> world -> Prop) (X : world -> Prop) : Prop :=
  match m w with Ok a w' => Q a w' | Exn w' => X w' | _ => False end.
Lemma wp_ret {A} (a : A) w (Q : A -> world -> Prop) X : Q a w -> wp (retM a) w Q X.
Proof. done. Qed.
Lemma wp_bind {A B} (m : M A) (f : A -> M B) w Q X : wp m w (fun a w' => wp (f a) w' Q X) X -> wp (bindM m f) w Q X.
Proof. unfold wp, bindM. by destruct (m w). Qed.
Lemma wp_mono {A} (m : M A) w (Q Q' : A -> world -> Prop) (X X' : world -> Prop) :
  wp m w Q X -> (forall a w', Q a w' -> Q' a w') -> (forall w', X w' -> X' w') -> wp m w Q' X'.
Proof. unfold wp. destruct (m w); auto. Qed.
Lemma wp_on_exn {A} (m : M A) h w Q X : wp m w Q (fun w' => wp h w' (fun _ => X) X) -> wp (on_exn m h) w Q X.
Proof. unfold wp, on_exn. destruct (m w) as [| w'| |]; try done. by destruct (h w'). Qed.

(** ** Trees *)
Fixpoint ht (t : tree) : nat :=
  match t with Node _ _ cs => S (fold_right (fun o m => Nat.max (match o with Some t => ht t | None => 0 end) m) 0 cs) end.
Definition oht (o : option tree) : nat := match o with Some t => ht t | None => 0 end.
Definition lht (l : list (option tree)) : nat := fold_right (fun o m => Nat.max (oht o) m) 0 l.
Lemma ht_node T v cs : ht (Node T v cs) = S (lht cs). Proof. done. Qed.
Lemma lht_cons o l : lht (o :: l) = Nat.max (oht o) (lht l). Proof. done. Qed.
Lemma lht_lookup l k o : l !! k = Some o -> oht o <= lht l.
Proof. revert k. induction l as [|x l IH]; intros [|k] H; try done; rewrite lht_cons; [injection H as ->; lia|]. specialize (IH k H). lia. Qed.

(** ** Frames *)
Definition agree (B : gset nat) (h h' : gmap nat block) : Prop := forall b, b ∈ B -> h !! b = h' !! b.
Scheme shows_mut := Minimality for shows Sort Prop with all_show_mut := Minimality for all_show Sort Prop.
Section Env.
  Context (E : env).
  Notation shows := (shows E). Notation all_show := (all_show E).

  Lemma shows_frame h h' a t B : shows h a t B -> agree B h h' -> shows h' a t B.
  Proof.
    intros H. revert a t B H.
    apply (shows_mut E h (fun a t B => agree B h h' -> shows h' a t B) (fun cs ts B => agree B h h' -> all_show h' cs ts B)).
    - constructor.
    - intros b n Hb Ha. constructor. rewrite <- (Ha b); [done|set_solver].
    - intros T v cs ts B Hf _ IH Ha. constructor; auto.
    - intros T v cs ts B b n Hb Hn _ IH Hnb Ha. econstructor; [|done| |done].
      + rewrite <- (Ha b); [done|set_solver].
      + apply IH. intros c Hc. apply Ha. set_solver.
    - constructor.
    - intros a t B cs ts C _ IH1 _ IH2 Hd Ha. constructor; [apply IH1|apply IH2|done]; intros b Hb; apply Ha; set_solver.
  Qed.
  Lemma all_show_frame h h' cs ts B : all_show h cs ts B -> agree B h h' -> all_show h' cs ts B.
  Proof.
    intros H. induction H as [|a t B cs ts C Hs Hl IH Hd]; intros Ha; [constructor|].
    constructor; [eapply shows_frame; [done|]|apply IH|done]; intros b Hb; apply Ha; set_solver.
  Qed.
  Lemma shows_dom h a t B : shows h a t B -> B ⊆ dom h.
  Proof.
    intros H. revert a t B H. apply (shows_mut E h (fun a t B => B ⊆ dom h) (fun cs ts B => B ⊆ dom h)); try set_solver.
    - intros b n Hb. apply elem_of_dom_2 in Hb. set_solver.
    - intros T v cs ts B b n Hb _ _ IH _. apply elem_of_dom_2 in Hb. set_solver.
  Qed.
  Lemma all_show_dom h cs ts B : all_show h cs ts B -> B ⊆ dom h.
  Proof. intros H. induction H as [|a t B cs ts C Hs _ IH _]; [set_solver|]. apply shows_dom in Hs. set_solver. Qed.
  Lemma all_show_length h cs ts B : all_show h cs ts B -> length cs = length ts.
  Proof. intros H. induction H; cbn; auto. Qed.
  Lemma all_show_app h cs ts B cs' ts' C : all_show h cs ts B -> all_show h cs' ts' C -> B ## C -> all_show h (cs ++ cs') (ts ++ ts') (B ∪ C).
  Proof.
    intros H H' Hd. induction H as [|a t B cs ts D Hs Hl IH Hbd]; cbn.
    - replace (∅ ∪ C) with C by set_solver. done.
    - replace (B ∪ D ∪ C) with (B ∪ (D ∪ C)) by set_solver. constructor; [done|apply IH; set_solver|set_solver].
  Qed.
  Lemma all_show_one h a t B : shows h a t B -> all_show h [a] [t] B.
  Proof. intros H. replace B with (B ∪ ∅) by set_solver. constructor; [done|constructor|set_solver]. Qed.

  (** ** Reading a value *)
  Lemma value_spec w a T v ts B (Q : obj -> world -> Prop) X : shows (w_heap w) a (Some (Node T v ts)) B ->
    (forall cs C, all_show (w_heap w) cs ts C -> C ⊆ B -> Q (Obj T v cs) w) -> wp (value a) w Q X.
  Proof.
    intros H HQ. unfold wp. inversion H as [| |T' v' cs ts' B' Hf Hl|T' v' cs ts' B' b n Hb Hn Hl Hnb]; subst; cbn.
    - rewrite Nat.eqb_refl. by eapply HQ.
    - rewrite Hb. cbn. rewrite Nat.eqb_refl. eapply HQ; [done|set_solver].
  Qed.

  (** ** Destruction *)
  Definition without (w : world) (B : gset nat) : world := set_heap w (filter (fun kv => kv.1 ∉ B) (w_heap w)).
  Lemma without_lookup w B b : w_heap (without w B) !! b = if bool_decide (b ∈ B) then None else w_heap w !! b.
  Proof.
    cbn. case_bool_decide as Hb.
    - apply map_filter_lookup_None. right. intros x _ H. by cbn in H.
    - destruct (w_heap w !! b) as [x|] eqn:Hx; [by apply map_filter_lookup_Some|]. apply map_filter_lookup_None. by left.
  Qed.
  Lemma without_agree w B C : B ## C -> agree C (w_heap w) (w_heap (without w B)).
  Proof. intros Hd b Hb. rewrite without_lookup. rewrite bool_decide_false; [done|set_solver]. Qed.
  Lemma world_eq w w' : w_vars w = w_vars w' -> w_next w = w_next w' -> w_tick w = w_tick w' -> (forall b, w_heap w !! b = w_heap w' !! b) -> w = w'.
  Proof. destruct w, w'; cbn. intros -> -> -> H. f_equal. by apply map_eq. Qed.
  Lemma without_without w B C : without (without w B) C = without w (B ∪ C).
  Proof.
    apply world_eq; try done. intros b. rewrite !without_lookup. repeat case_bool_decide; try done; set_solver.
  Qed.
  Lemma without_empty w : without w ∅ = w.
  Proof. apply world_eq; try done. intros b. rewrite without_lookup. by rewrite bool_decide_false by set_solver. Qed.

  Lemma each_spec (d : any -> M unit) cs ts B w : all_show (w_heap w) cs ts B ->
    (forall a t C w, t ∈ ts -> shows (w_heap w) a t C -> d a w = Ok tt (without w C)) -> each d cs w = Ok tt (without w B).
  Proof.
    revert ts B w. induction cs as [|c cs IH]; intros ts B w H Hd; inversion H as [|a t B1 cs' ts' C1 Hs Hl Hdis]; subst; cbn.
    { by rewrite without_empty. }
    unfold bindM. rewrite (Hd c t B1 w); [|left|done]. rewrite (IH ts' C1).
    - by rewrite without_without.
    - eapply all_show_frame; [done|]. by apply without_agree.
    - intros a t' C w' Ht. apply Hd. by right.
  Qed.
  Lemma destroy_value_spec (d : any -> M unit) a t B w : shows (w_heap w) a t B ->
    (forall T v ts, t = Some (Node T v ts) -> forall a t C w, t ∈ ts -> shows (w_heap w) a t C -> d a w = Ok tt (without w C)) ->
    exists a' w', destroy_value_with d a w = Ok a' w' /\ w_vars w' = w_vars w /\ w_next w' = w_next w /\ w_tick w' = w_tick w /\
      ((a' = nothing /\ w' = without w B) \/ (exists b n, a' = Any None (PHeap b n) None /\ b ∈ B /\
        forall c, w_heap w' !! c = if bool_decide (c = b) then Some (Block n None) else if bool_decide (c ∈ B) then None else w_heap w !! c)).
  Proof.
    intros H Hd. inversion H as [|b n Hb|T v cs ts B' Hf Hl|T v cs ts B' b n Hb Hn Hl Hnb]; subst; cbn.
    - exists nothing, w. repeat split; try done. left. by rewrite without_empty.
    - exists (Any None (PHeap b n) None), w. repeat split; try done. right. exists b, n. split; [done|]. split; [set_solver|].
      intros c. case_bool_decide as Hc; [by subst|]. by rewrite bool_decide_false by set_solver.
    - unfold bindM, value. rewrite Nat.eqb_refl. rewrite (each_spec d cs ts B w Hl); [|by intros; eapply Hd].
      exists nothing, (without w B). repeat split; try done. by left.
    - unfold bindM, value. rewrite Hb. cbn [bk_obj]. rewrite Nat.eqb_refl. rewrite (each_spec d cs ts B' w Hl); [|by intros; eapply Hd].
      unfold put_block. rewrite without_lookup. rewrite bool_decide_false by done. rewrite Hb. cbn.
      exists (Any None (PHeap b n) None). eexists. split; [done|]. repeat split; try done. right. exists b, n. split; [done|]. split; [set_solver|].
      intros c. cbn. destruct (decide (c = b)) as [->|Hc].
      + rewrite lookup_insert. by rewrite bool_decide_true.
      + rewrite lookup_insert_ne by done. rewrite (bool_decide_false (c = b)) by done.
        pose proof (without_lookup w B' c) as Hw. cbn in Hw. rewrite Hw.
        destruct (decide (c ∈ B')) as [Hin|Hin]; [rewrite !bool_decide_true; [done|set_solver|done]|rewrite !bool_decide_false; [done|set_solver|done]].
  Qed.
  Lemma destroy_any_spec n : forall a t B w, shows (w_heap w) a t B -> oht t < n -> destroy_any n a w = Ok tt (without w B).
  Proof.
    induction n as [|n IH]; intros a t B w H Hn; [lia|]. cbn [destroy_any].
    destruct (destroy_value_spec (destroy_any n) a t B w H) as (a' & w' & Hdv & Hv & Hx & Ht & Hc).
    { intros T v ts -> b u C w1 Hu Hs. eapply IH; [done|]. apply elem_of_list_lookup in Hu as [k Hk]. apply lht_lookup in Hk. cbn [oht] in Hn. rewrite ht_node in Hn. lia. }
    unfold bindM. rewrite Hdv. destruct Hc as [[-> ->]|(b & m & -> & Hb & Hh)]; cbn; [done|].
    unfold bindM, deallocate. rewrite Hh, bool_decide_true by done. cbn. rewrite Nat.eqb_refl. f_equal.
    apply world_eq; try done. intros c. rewrite without_lookup. cbn. destruct (decide (c = b)) as [->|Hc].
    - rewrite lookup_delete. by rewrite bool_decide_true.
    - rewrite lookup_delete_ne by done. rewrite Hh. by rewrite (bool_decide_false (c = b)) by done.
  Qed.

  (** ** Copies *)
  Definition fresh (w : world) : Prop := forall b, b ∈ dom (w_heap w) -> b < w_next w.
  (** more memory, otherwise as before *)
  Definition grown (w w' : world) (B : gset nat) : Prop :=
    w_vars w' = w_vars w /\ B ## dom (w_heap w) /\ dom (w_heap w') = dom (w_heap w) ∪ B /\
    (forall b, b ∈ dom (w_heap w) -> w_heap w' !! b = w_heap w !! b) /\ fresh w' /\ w_next w <= w_next w'.
  Definition unchanged (w w' : world) : Prop := w_vars w' = w_vars w /\ w_heap w' = w_heap w /\ w_next w <= w_next w'.
  Lemma unchanged_fresh w w' : unchanged w w' -> fresh w -> fresh w'.
  Proof. intros (_ & Hh & Hn) Hf b Hb. rewrite Hh in Hb. specialize (Hf b Hb). lia. Qed.
  Lemma unchanged_trans w w' w'' : unchanged w w' -> unchanged w' w'' -> unchanged w w''.
  Proof. intros (H1 & H2 & H3) (H4 & H5 & H6). repeat split; [congruence|congruence|lia]. Qed.
  Lemma grown_same w : fresh w -> grown w w ∅.
  Proof. intros Hf. repeat split; try done; set_solver. Qed.
  Lemma grown_agree w w' B C : grown w w' B -> C ⊆ dom (w_heap w) -> agree C (w_heap w) (w_heap w').
  Proof. intros (_ & _ & _ & H & _) Hc b Hb. symmetry. apply H. by apply Hc. Qed.
  Lemma grown_trans w w' w'' B C : grown w w' B -> grown w' w'' C -> grown w w'' (B ∪ C).
  Proof.
    intros (V1 & D1 & U1 & A1 & F1 & N1) (V2 & D2 & U2 & A2 & F2 & N2). repeat split; [congruence|set_solver|set_solver| |done|lia].
    intros b Hb. rewrite A2 by set_solver. by apply A1.
  Qed.
  Lemma unchanged_grown w w' w'' B : unchanged w w' -> grown w' w'' B -> grown w w'' B.
  Proof. intros (V1 & H1 & N1) (V2 & D2 & U2 & A2 & F2 & N2). rewrite H1 in *. repeat split; [congruence|done|done|done|done|lia]. Qed.
  (** destroying what was added *)
  Lemma shrink w w' w'' B : grown w w' B -> unchanged w' w'' -> unchanged w (without w'' B).
  Proof.
    intros (V1 & D1 & U1 & A1 & F1 & N1) (V2 & H2 & N2). repeat split; cbn; [congruence| |lia].
    apply map_eq. intros b. pose proof (without_lookup w'' B b) as Hw. cbn in Hw. rewrite Hw, H2. case_bool_decide as Hb.
    - symmetry. apply not_elem_of_dom. set_solver.
    - destruct (decide (b ∈ dom (w_heap w))) as [Hd|Hd]; [by apply A1|]. transitivity (@None block); [|symmetry]; apply not_elem_of_dom; set_solver.
  Qed.

  Lemma may_throw_spec w (Q : unit -> world -> Prop) (X : world -> Prop) : (forall w', unchanged w w' -> Q tt w') -> (forall w', unchanged w w' -> X w') -> wp (may_throw E) w Q X.
  Proof. intros HQ HX. unfold wp, may_throw. destruct (e_throws E (w_tick w)); [apply HX|apply HQ]; repeat split; cbn; lia. Qed.
  Lemma allocate_spec n w (Q : nat -> world -> Prop) (X : world -> Prop) : fresh w ->
    (forall b w', grown w w' {[b]} -> w_heap w' !! b = Some (Block n None) -> Q b w') -> (forall w', unchanged w w' -> X w') -> wp (allocate E n) w Q X.
  Proof.
    intros Hf HQ HX. unfold allocate. apply wp_bind, may_throw_spec; [|done]. intros w1 (V1 & H1 & N1). unfold wp. apply HQ; cbn.
    - assert (w_next w1 ∉ dom (w_heap w)) as Hn by (intros Hin; specialize (Hf _ Hin); lia).
      repeat split; cbn; rewrite ?H1; [done|set_solver|rewrite dom_insert_L; set_solver| | |lia].
      + intros b Hb. rewrite lookup_insert_ne; [done|set_solver].
      + intros b Hb. cbn in *. rewrite dom_insert_L in Hb. assert (b = w_next w1 \/ b ∈ dom (w_heap w)) as [->|Hb'] by set_solver; [lia|].
        specialize (Hf _ Hb'). lia.
    - by rewrite lookup_insert.
  Qed.
  Lemma put_new w w1 w2 b n C o (Q : unit -> world -> Prop) X : grown w w1 {[b]} -> w_heap w1 !! b = Some (Block n None) -> grown w1 w2 C ->
    (forall w3, grown w w3 ({[b]} ∪ C) -> w_heap w3 !! b = Some (Block n (Some o)) -> agree C (w_heap w2) (w_heap w3) -> Q tt w3) -> wp (put_block b (Some o)) w2 Q X.
  Proof.
    intros H1 Hb H2 HQ. assert (b ∈ dom (w_heap w1)) as Hd by (by apply elem_of_dom_2 in Hb).
    pose proof (grown_trans _ _ _ _ _ H1 H2) as (V & D & U & A & F & N). destruct H2 as (_ & D2 & U2 & A2 & _).
    assert (w_heap w2 !! b = Some (Block n None)) as Hb2 by (by rewrite A2).
    unfold wp, put_block. rewrite Hb2. cbn. apply HQ.
    - repeat split; cbn; [done|done| | | |lia].
      + rewrite dom_insert_L, U. set_solver.
      + intros c Hc. rewrite lookup_insert_ne; [by apply A|]. set_solver.
      + intros c Hc. cbn in *. rewrite dom_insert_L in Hc. apply F. apply elem_of_dom_2 in Hb2. set_solver.
    - cbn. by rewrite lookup_insert.
    - intros c Hc. cbn. rewrite lookup_insert_ne; [done|]. set_solver.
  Qed.
  Lemma free_new w w1 w2 b n (X : world -> Prop) : grown w w1 {[b]} -> w_heap w1 !! b = Some (Block n None) -> unchanged w1 w2 ->
    (forall w3, unchanged w w3 -> X w3) -> wp (deallocate b n) w2 (fun _ => X) X.
  Proof.
    intros H1 Hb H2 HX. pose proof (shrink _ _ _ _ H1 H2) as Hs. destruct H2 as (V2 & Hh & N2).
    unfold wp, deallocate. rewrite Hh, Hb. rewrite Nat.eqb_refl. apply HX. destruct Hs as (V & Hw & N). repeat split; [done| |done].
    cbn. rewrite <- Hw. cbn. apply map_eq. intros c. pose proof (without_lookup w2 {[b]} c) as Hl. cbn in Hl. rewrite Hl, Hh.
    destruct (decide (c = b)) as [->|Hc]; [by rewrite lookup_delete, bool_decide_true by set_solver|].
    by rewrite lookup_delete_ne, bool_decide_false by set_solver.
  Qed.
  (** what was made is destroyed when what follows throws *)
  Lemma destroy_new n w w1 w2 a t B (X : world -> Prop) : grown w w1 B -> shows (w_heap w1) a t B -> oht t < n -> unchanged w1 w2 ->
    (forall w3, unchanged w w3 -> X w3) -> wp (destroy_any n a) w2 (fun _ => X) X.
  Proof.
    intros H1 Hs Hn H2 HX. unfold wp. erewrite destroy_any_spec; [| |done].
    - apply HX. by eapply shrink.
    - destruct H2 as (_ & Hh & _). by rewrite Hh.
  Qed.

  Definition copies (w : world) (t : option tree) (a' : any) (w' : world) : Prop := exists B, shows (w_heap w') a' t B /\ grown w w' B.
  Lemma copy_each_spec (c : any -> M any) n cs ts B w : all_show (w_heap w) cs ts B -> fresh w -> lht ts < n ->
    (forall a t C w, t ∈ ts -> shows (w_heap w) a t C -> fresh w -> wp (c a) w (copies w t) (unchanged w)) ->
    wp (copy_each c (destroy_any n) cs) w (fun cs' w' => exists C, all_show (w_heap w') cs' ts C /\ grown w w' C) (unchanged w).
  Proof.
    revert ts B w. induction cs as [|x cs IH]; intros ts B w H Hf Hn Hc; inversion H as [|a t B1 cs' ts' C1 Hs Hl Hdis]; subst; cbn [copy_each].
    { apply wp_ret. exists ∅. split; [constructor|by apply grown_same]. }
    rewrite lht_cons in Hn. apply wp_bind. eapply wp_mono; [eapply Hc; [left|done|done]| |done].
    intros y w1 (B2 & Hy & Hg). apply wp_bind, wp_on_exn. assert (fresh w1) as Hf1 by apply Hg.
    eapply wp_mono; [apply (IH ts' C1 w1)| |].
    - eapply all_show_frame; [done|]. eapply grown_agree; [done|]. by eapply all_show_dom.
    - done.
    - lia.
    - intros a t' C w' Ht. apply Hc. by right.
    - intros ys w2 (C2 & Hys & Hg2). apply wp_ret. exists (B2 ∪ C2). split; [|by eapply grown_trans].
      constructor; [|done|].
      + eapply shows_frame; [done|]. eapply grown_agree; [done|]. by eapply shows_dom.
      + destruct Hg2 as (_ & D2 & _). apply shows_dom in Hy. set_solver.
    - intros w2 Hu. eapply destroy_new; [done|done|lia|done|done].
  Qed.
  Lemma copy_any_spec n : forall a t B w, shows (w_heap w) a t B -> fresh w -> oht t < n -> wp (copy_any E n a) w (copies w t) (unchanged w).
  Proof.
    induction n as [|n IH]; intros a t B w H Hf Hn; [lia|]. cbn [copy_any].
    destruct t as [[T v ts]|].
    2:{ inversion H; subst; apply wp_ret; exists ∅; (split; [constructor|by apply grown_same]). }
    assert (exists p buf, a = Any (Some T) p buf) as (p & buf & ->) by (inversion H; subst; eauto).
    apply wp_bind. eapply value_spec; [done|]. intros cs C Hcs HC. cbn [oht] in Hn. rewrite ht_node in Hn.
    assert (forall w, all_show (w_heap w) cs ts C -> fresh w ->
      wp (copy_each (copy_any E n) (destroy_any n) cs) w (fun cs' w' => exists C, all_show (w_heap w') cs' ts C /\ grown w w' C) (unchanged w)) as Hce.
    { intros w1 Hs1 Hf1. eapply copy_each_spec; [done|done|lia|]. intros b u D w2 Hu Hs2 Hf2. eapply IH; [done|done|].
      apply elem_of_list_lookup in Hu as [k Hk]. apply lht_lookup in Hk. lia. }
    destruct (fits E T) eqn:Hfit.
    - apply wp_bind, wp_bind, may_throw_spec; [|done]. intros w1 Hu1. apply wp_bind.
      eapply wp_mono; [apply Hce; [destruct Hu1 as (_ & -> & _); done|by eapply unchanged_fresh]| |].
      + intros cs' w2 (D & Hs2 & Hg2). apply wp_ret, wp_ret. exists D. split; [by constructor|by eapply unchanged_grown].
      + intros w2 Hu2. by eapply unchanged_trans.
    - apply wp_bind, allocate_spec; [done| |done]. intros b w1 Hg1 Hb. assert (fresh w1) as Hf1 by apply Hg1.
      apply wp_bind, wp_on_exn, wp_bind, may_throw_spec; [|by intros w2 Hu2; eapply free_new].
      intros w2 Hu2. assert (all_show (w_heap w2) cs ts C) as Hcs2.
      { destruct Hu2 as (_ & -> & _). eapply all_show_frame; [done|]. eapply grown_agree; [done|]. by eapply all_show_dom. }
      apply wp_bind. eapply wp_mono; [apply Hce; [done|by eapply unchanged_fresh]| |].
      + intros cs' w3 (D & Hs3 & Hg3). apply wp_ret. apply wp_bind.
        eapply (put_new w w1 w3); [done|done|by eapply unchanged_grown|]. intros w4 Hg4 Hb4 Ha4. apply wp_ret.
        exists ({[b]} ∪ D). split; [|done]. econstructor; [done|lia|by eapply all_show_frame|].
        destruct Hg3 as (_ & D3 & _). destruct Hu2 as (_ & Hh2 & _). rewrite Hh2 in D3. apply elem_of_dom_2 in Hb. set_solver.
      + intros w3 Hu3. eapply free_new; [done|done| |done]. by eapply unchanged_trans.
  Qed.
End Env.
