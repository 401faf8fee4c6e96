(** Proof that expressions on data_parallel_vectors do what they do on std::vectors. *)
From Coq Require Import ZArith.
From stdpp Require Import gmap list.
From Verif Require Import AnyModel DpvModel DpvIterModel DpvSpec DpvProofs DpvLawProofs DpvExprModel DpvExprSpec DpvExprProofs.

(** ** Comparisons of rows *)
Lemma t_cmp_fields cmp a : forall j b, length a = length b -> cmp_fields cmp j a b false (Some Eq) = t_cmp cmp j a b.
Proof.
  induction a as [|x a IH]; intros j [|y b] Hl; cbn in *; try done; try lia. destruct (cmp j x y) as [[]|] eqn:E; cbn.
  - rewrite bool_decide_eq_true_2 by done. apply IH. lia.
  - rewrite bool_decide_eq_false_2 by done. by rewrite cmp_found.
  - rewrite bool_decide_eq_false_2 by done. by rewrite cmp_found.
  - rewrite bool_decide_eq_false_2 by done. by rewrite cmp_found.
Qed.
Lemma t_cmp_ok cmp a b : length a = length b -> compare_by_fields cmp a b = t_cmp cmp 0 a b.
Proof. apply t_cmp_fields. Qed.
Lemma t_cmp_eq cmp eqf : (forall j x y, cmp j x y = Some Eq <-> eqf j x y = true) -> forall a j b, length a = length b -> bool_decide (t_cmp cmp j a b = Some Eq) = t_eq eqf j a b.
Proof.
  intros Hc. induction a as [|x a IH]; intros j [|y b] Hl; cbn in *; try done. rewrite <- IH by lia. destruct (eqf j x y) eqn:E; cbn.
  - apply Hc in E. by rewrite E.
  - destruct (cmp j x y) as [[]|] eqn:E'; try done. apply Hc in E'. congruence.
Qed.
Lemma t_eq_ok cmp eqf a b : (forall j x y, cmp j x y = Some Eq <-> eqf j x y = true) -> length a = length b -> proxy_eq cmp a b = t_eq eqf 0 a b.
Proof. intros Hc Hl. unfold proxy_eq. rewrite t_cmp_ok by done. by apply t_cmp_eq. Qed.

Section Sim.
  Context (N : nat) (HN : 0 < N) (mf : nat -> nat) (ndebug : bool) (cmp : nat -> nat -> nat -> option comparison) (eqf : nat -> nat -> nat -> bool).
  Context (Heq : forall j x y, cmp j x y = Some Eq <-> eqf j x y = true).
  Notation dev := (dev N mf ndebug cmp).
  Notation vev := (vev N mf cmp eqf).
  Notation vecs := (gmap nat (list row)).
  Definition bounded (m : vecs) : Prop := forall x v, m !! x = Some v -> (Z.of_nat (length v) < 2 ^ 63)%Z.
  Definition sizes_eq (m m' : vecs) : Prop := forall x, length <$> m' !! x = length <$> m !! x.
  Definition good (a : xval) (m : vecs) : Prop :=
    match a with
    | XIter x i => exists v, m !! x = Some v /\ (0 <= i <= Z.of_nat (length v))%Z
    | XRef x i => is_Some (elem x i m)
    | XField x i j => is_Some (elem x i m) /\ j < N
    | _ => True
    end.
  Lemma elem_rowm x i m : elem x i m = rowm m x i. Proof. done. Qed.
  Lemma store_setrow x i r m : store x i r m = setrow x i r m. Proof. done. Qed.
  Lemma sizes_refl m : sizes_eq m m. Proof. done. Qed.
  Lemma sizes_trans m m1 m2 : sizes_eq m m1 -> sizes_eq m1 m2 -> sizes_eq m m2.
  Proof. intros H1 H2 x. by rewrite H2, H1. Qed.
  Lemma sizes_store x i r m : sizes_eq m (store x i r m).
  Proof. intros z. unfold store. destruct (decide (z = x)) as [->|?]; [|by rewrite lookup_alter_ne]. rewrite lookup_alter. destruct (m !! x); cbn; [|done]. by rewrite insert_length. Qed.
  Lemma sizes_elem m m' x i : sizes_eq m m' -> is_Some (elem x i m) -> is_Some (elem x i m').
  Proof.
    intros H [r Hr]. specialize (H x). unfold elem in *. destruct (m !! x) as [v|]; [|done]. destruct (m' !! x) as [v'|]; [|done]. cbn in H. injection H as H.
    apply lookup_lt_is_Some. rewrite H. by eapply lookup_lt_Some.
  Qed.
  Lemma sizes_good m m' a : sizes_eq m m' -> good a m -> good a m'.
  Proof.
    intros H Hg. destruct a; cbn in *; try done.
    - destruct Hg as (v & Hv & Hi). specialize (H x). rewrite Hv in H. destruct (m' !! x) as [v'|]; [|done]. cbn in H. injection H as H. exists v'. split; [done|]. by rewrite H.
    - by eapply sizes_elem.
    - destruct Hg. split; [by eapply sizes_elem|done].
  Qed.
  Lemma sizes_bounded m m' : sizes_eq m m' -> bounded m -> bounded m'.
  Proof. intros H Hb x v' Hx. specialize (H x). rewrite Hx in H. destruct (m !! x) as [v|] eqn:E; [|done]. cbn in H. injection H as H. rewrite H. by apply (Hb x). Qed.

  Lemma look_size w m x v : sim N w m -> m !! x = Some v -> look x d_size w = Some (length v).
  Proof. intros Hs Hx. destruct (sim_some N w m x v Hs Hx) as (c & Hc & Hh). unfold look. by rewrite Hc, (size_ok N HN c v None Hh). Qed.
  Lemma look_empty w m x v : sim N w m -> m !! x = Some v -> look x d_empty w = Some (bool_decide (v = [])).
  Proof. intros Hs Hx. destruct (sim_some N w m x v Hs Hx) as (c & Hc & Hh). unfold look. by rewrite Hc, (empty_ok N HN c v None Hh). Qed.
  Lemma look_begin w m x v : sim N w m -> m !! x = Some v -> look x it_begin w = Some (Iter 0).
  Proof. intros Hs Hx. destruct (sim_some N w m x v Hs Hx) as (c & Hc & Hh). unfold look. by rewrite Hc. Qed.
  Lemma look_end w m x v : sim N w m -> m !! x = Some v -> look x it_end w = Some (Iter (Z.of_nat (length v))).
  Proof. intros Hs Hx. destruct (sim_some N w m x v Hs Hx) as (c & Hc & Hh). unfold look, it_end, dbind. by rewrite Hc, (size_ok N HN c v None Hh). Qed.
  Lemma x_ref_ok w m x i : sim N w m -> is_Some (elem x (Z.to_nat i) m) -> x_ref x (Iter i) w = Some (XRef x (Z.to_nat i), w).
  Proof.
    intros Hs [r Hr]. unfold elem in Hr. destruct (m !! x) as [v|] eqn:E; [|done]. destruct (sim_some N w m x v Hs E) as (c & Hc & Hh). unfold x_ref, look. rewrite Hc. cbn [idx].
    by rewrite (ref_ok N HN c v _ None Hh (lookup_lt_Some _ _ _ Hr)).
  Qed.
  Lemma x_row_ok w m x i r : sim N w m -> elem x i m = Some r -> x_row x i w = Some r.
  Proof.
    intros Hs Hr. unfold elem in Hr. destruct (m !! x) as [v|] eqn:E; [|done]. destruct (sim_some N w m x v Hs E) as (c & Hc & Hh). unfold x_row, look. by rewrite Hc, (read_ok N HN c v i r Hh Hr).
  Qed.
  Lemma set_ok' w m x i r : sim N w m -> is_Some (elem x i m) -> is_row N r -> exists w', member x (d_set i r) nores w None = WOk w' None None /\ sim N w' (store x i r m).
  Proof.
    intros Hs [q Hq] Hr. unfold elem in Hq. destruct (m !! x) as [v|] eqn:E; [|done]. unfold store. rewrite (alter_as_insert _ x v m E).
    apply (member_ok N w m x v _ nores tt); [done..|]. intros c Hc. apply set_ok; [done..|]. by eapply lookup_lt_Some.
  Qed.
  Lemma copy_ok' w m x i y j b : sim N w m -> is_Some (elem x i m) -> elem y j m = Some b -> exists w', copy_cells x i y j (seq 0 N) w None = WOk w' None None /\ sim N w' (store x i b m).
  Proof. intros Hs [a Ha] Hb. apply (copy_cells_ok N HN x i y j m a b Ha Hb N 0 w); [done|]. by rewrite mix_0, setrow_id. Qed.
  Lemma swap_ok' w m x i y j a b : sim N w m -> elem x i m = Some a -> elem y j m = Some b -> exists w', swap_cells x i y j (seq 0 N) w None = WOk w' None None /\ sim N w' (store y j a (store x i b m)).
  Proof.
    intros Hs Ha Hb. apply (swap_cells_ok N HN mf mf x i y j m a b (sim_row N _ _ _ _ _ Hs Ha) (sim_row N _ _ _ _ _ Hs Hb) Ha Hb N 0 w); [done|]. rewrite !mix_0. rewrite (setrow_id x i) by done. by rewrite setrow_id.
  Qed.
  Lemma take_ok w m x i r : sim N w m -> elem x i m = Some r -> exists c c', w !! x = Some c /\ d_take mf i c None = DOk r c' None /\ sim N (<[x := c']> w) (store x i (map mf r) m).
  Proof.
    intros Hs Hr. pose proof (sim_row N _ _ _ _ _ Hs Hr) as Hrow. unfold elem in Hr. destruct (m !! x) as [v|] eqn:E; [|done]. destruct (sim_some N w m x v Hs E) as (c & Hc & Hh).
    exists c. unfold d_take, dbind. rewrite (read_ok N HN c v i r Hh Hr).
    destruct (each_ok N (fun j col => match col !! i with Some v => Some (<[i:=mf v]> col) | None => None end) c v (<[i := map mf r]> v) Hh) as (c' & He & Hh').
    - apply Forall_insert; [by destruct Hh|]. unfold is_row. by rewrite map_length.
    - intros j Hj. unfold column at 1. rewrite list_lookup_fmap, Hr. cbn. f_equal. rewrite column_insert. f_equal.
      rewrite (nth_lookup_Some (map mf r) j 0 (mf (nth j r 0))); [done|]. rewrite list_lookup_fmap, (row_field N r j Hrow Hj). done.
    - rewrite He. exists c'. split; [done|]. split; [done|]. unfold store. rewrite (alter_as_insert _ x v m E). by apply sim_insert.
  Qed.
  Lemma v1_inv m k w a w' : v1 m k w = Some (a, w') -> exists b w1, m w = Some (b, w1) /\ k b w1 = Some (a, w').
  Proof. unfold v1. destruct (m w) as [[b w1]|]; [eauto|done]. Qed.
  Lemma v2_inv m n k w a w' : v2 m n k w = Some (a, w') -> exists b w1 c w2, m w = Some (b, w1) /\ n w1 = Some (c, w2) /\ k b c w2 = Some (a, w').
  Proof. unfold v2. intros H. apply v1_inv in H as (b & w1 & H1 & H). apply v1_inv in H as (c & w2 & H2 & H). eauto 8. Qed.
  Lemma vref_inv x i m a m' : vref x i m = Some (a, m') -> m' = m /\ a = XRef x (Z.to_nat i) /\ (0 <= i)%Z /\ is_Some (elem x (Z.to_nat i) m).
  Proof. unfold vref. destruct (0 <=? i)%Z eqn:E; [|done]. destruct (elem _ _ _) eqn:E'; [|done]. intros [= <- <-]. apply Z.leb_le in E. repeat split; [done|]. by eexists. Qed.
  Lemma viter_inv x i m a m' : viter x i m = Some (a, m') -> m' = m /\ a = XIter x i /\ good a m.
  Proof. unfold viter. destruct (m !! x) as [v|] eqn:E; [|done]. destruct (_ && _) eqn:E'; [|done]. intros [= <- <-]. apply andb_prop in E' as [H1 H2]. apply Z.leb_le in H1, H2. split; [done|]. split; [done|]. cbn. eauto. Qed.
  Lemma good_small x i m : bounded m -> good (XIter x i) m -> (0 <= i < 2 ^ 63)%Z.
  Proof. intros Hb (v & Hv & Hi). specialize (Hb x v Hv). lia. Qed.
  Lemma elem_small x i m : bounded m -> is_Some (elem x (Z.to_nat i) m) -> (0 <= i)%Z -> (0 <= i < 2 ^ 63)%Z.
  Proof. intros Hb [r Hr] Hi. unfold elem in Hr. destruct (m !! x) as [v|] eqn:E; [|done]. specialize (Hb x v E). apply lookup_lt_Some in Hr. lia. Qed.
  Lemma to_u_id z : (0 <= z < 2 ^ 63)%Z -> to_u z = z.
  Proof. intros H. apply to_u_small. unfold is_u64. lia. Qed.

  Definition claim (e : expr) : Prop := forall t w m a m', sim N w m -> bounded m -> ndebug || forward_only e = true -> dty N e = Some t -> vev e m = Some (a, m') ->
    exists w', dev e w = Some (a, w') /\ sim N w' m' /\ sizes_eq m m' /\ good a m'.
  Lemma one_ok e (k : xval -> xM) (k' : xval -> vM) t : claim e -> ndebug || forward_only e = true -> dty N e = Some t ->
    (forall b w m a m', sim N w m -> bounded m -> good b m -> k' b m = Some (a, m') -> exists w', k b w = Some (a, w') /\ sim N w' m' /\ sizes_eq m m' /\ good a m') ->
    forall w m a m', sim N w m -> bounded m -> v1 (vev e) k' m = Some (a, m') -> exists w', ev1 (dev e) k w = Some (a, w') /\ sim N w' m' /\ sizes_eq m m' /\ good a m'.
  Proof.
    intros He Hf Ht Hk w m a m' Hs Hb H. apply v1_inv in H as (b & m1 & H1 & H2). destruct (He t w m b m1 Hs Hb Hf Ht H1) as (w1 & D1 & S1 & Z1 & G1).
    destruct (Hk b w1 m1 a m' S1 (sizes_bounded _ _ Z1 Hb) G1 H2) as (w2 & D2 & S2 & Z2 & G2). exists w2. unfold ev1. rewrite D1. split; [done|]. split; [done|]. split; [by eapply sizes_trans|done].
  Qed.
  Lemma two_ok e1 e2 (k : xval -> xval -> xM) (k' : xval -> xval -> vM) t1 t2 : claim e1 -> claim e2 -> ndebug || (forward_only e1 && forward_only e2) = true -> dty N e1 = Some t1 -> dty N e2 = Some t2 ->
    (forall b c w m a m', sim N w m -> bounded m -> good b m -> good c m -> k' b c m = Some (a, m') -> exists w', k b c w = Some (a, w') /\ sim N w' m' /\ sizes_eq m m' /\ good a m') ->
    forall w m a m', sim N w m -> bounded m -> v2 (vev e1) (vev e2) k' m = Some (a, m') -> exists w', ev2 (dev e1) (dev e2) k w = Some (a, w') /\ sim N w' m' /\ sizes_eq m m' /\ good a m'.
  Proof.
    intros He1 He2 Hf Ht1 Ht2 Hk w m a m' Hs Hb H. assert (Hf1 : ndebug || forward_only e1 = true /\ ndebug || forward_only e2 = true) by (destruct ndebug; [done|]; cbn in *; by apply andb_prop in Hf). destruct Hf1 as [Hf1 Hf2].
    apply v2_inv in H as (b & m1 & c & m2 & H1 & H2 & H3). destruct (He1 t1 w m b m1 Hs Hb Hf1 Ht1 H1) as (w1 & D1 & S1 & Z1 & G1). pose proof (sizes_bounded _ _ Z1 Hb) as Hb1.
    destruct (He2 t2 w1 m1 c m2 S1 Hb1 Hf2 Ht2 H2) as (w2 & D2 & S2 & Z2 & G2).
    destruct (Hk b c w2 m2 a m' S2 (sizes_bounded _ _ Z2 Hb1) (sizes_good _ _ _ Z2 G1) G2 H3) as (w3 & D3 & S3 & Z3 & G3). exists w3. unfold ev2, ev1. rewrite D1, D2. split; [done|]. split; [done|].
    split; [|done]. eapply sizes_trans; [done|]. by eapply sizes_trans.
  Qed.

  Ltac fin := split; [first [done | reflexivity]|]; split; [done|]; split; [first [done | apply sizes_refl]|try done].
  Ltac single e := destruct (dty N e) as [t0|] eqn:ET; [|discriminate]; match goal with IH : claim e, H : _ = Some _ |- _ => revert H end;
    match goal with Hs : sim N ?w ?m, Hb : bounded ?m |- _ => revert Hs Hb; revert w m; match goal with |- context [v1 _ _ _ = Some (?a, ?m')] => revert a m' end end.
  Theorem simulates e : claim e.
  Proof.
    induction e; intros t w m a m' Hs Hb Hf Ht H; cbn [dty DpvExprSpec.vev DpvExprModel.dev forward_only] in *.
    1: { injection H as <- <-. exists w. fin. }
    1: { destruct (dty N e) as [t0|] eqn:E; [|done]. by apply (IHe t0 w m a m'). }
    all: try (lazymatch goal with e : expr |- _ => destruct (dty N e) as [t0|] eqn:ET; [|discriminate]; refine (one_ok e _ _ t0 IHe _ ET _ w m a m' Hs Hb H);
      [first [exact Hf | destruct ndebug; [done|]; cbn in Hf; by apply andb_prop in Hf as [Hf _]]|]; clear w m a m' Hs Hb H; intros b w m a m' Hs Hb Hg H; destruct b; try done end).
    all: try (destruct (dty N e1) as [t1|] eqn:ET1; [|discriminate]; destruct (dty N e2) as [t2|] eqn:ET2; [|split_dty Ht]; refine (two_ok e1 e2 _ _ t1 t2 IHe1 IHe2 Hf ET1 ET2 _ w m a m' Hs Hb H);
      clear w m a m' Hs Hb H; intros b c w m a m' Hs Hb Hg Hg' H).
    - destruct (m !! x) as [v|] eqn:E; [|done]. injection H as <- <-. rewrite (look_size w m x v Hs E). exists w. fin.
    - apply viter_inv in H as (-> & -> & G). destruct G as (v & E & G). rewrite (look_begin w m x v Hs E). exists w. fin. cbn. eauto.
    - destruct (m !! x) as [v|] eqn:E; [|done]. apply viter_inv in H as (-> & -> & G). rewrite (look_end w m x v Hs E). exists w. fin.
    - apply viter_inv in H as (-> & -> & G). destruct G as (v & E & G). rewrite (look_begin w m x v Hs E). exists w. fin. cbn. eauto.
    - destruct (m !! x) as [v|] eqn:E; [|done]. apply viter_inv in H as (-> & -> & G). rewrite (look_end w m x v Hs E). exists w. fin.
    - apply vref_inv in H as (-> & -> & _ & G). rewrite (x_ref_ok w m x 0 Hs G). pose proof G as [r Hr]. unfold elem in Hr. destruct (m !! x) as [v|] eqn:E; [|done]. rewrite (look_empty w m x v Hs E). destruct v; [done|].
      rewrite bool_decide_eq_false_2 by done. exists w. fin.
    - destruct (m !! x) as [v|] eqn:E; [|done]. apply vref_inv in H as (-> & -> & Hi & G). rewrite (look_empty w m x v Hs E), (look_end w m x v Hs E). destruct v as [|r v]; [done|]. rewrite bool_decide_eq_false_2 by done.
      pose proof (Hb x _ E) as Hlen. unfold it_dec, asserting. cbn [idx]. replace (negb (Z.of_nat (length (r :: v)) =? 0)%Z) with true by (symmetry; cbn; done). rewrite orb_true_r.
      rewrite to_u_id by lia. rewrite (x_ref_ok w m x _ Hs G). exists w. fin.
    - apply vref_inv in H as (-> & -> & Hi & G). pose proof (elem_small x (Z.of_nat n) m Hb G Hi) as Hn. unfold it_add. cbn [idx].
      assert (Hu : to_s (Z.of_nat n) = Z.of_nat n). { unfold to_s. rewrite to_u_id by done. rewrite (proj2 (Z.ltb_lt _ _)) by lia. done. }
      rewrite Hu, Z.add_0_l, to_u_id by done. rewrite (x_ref_ok w m x _ Hs G). exists w. fin.
    - apply viter_inv in H as (-> & -> & G). destruct Hg as (v & E & Hi). pose proof (good_small _ _ _ Hb G) as Hn. destruct G as (v' & E' & G). rewrite E in E'. injection E' as <-.
      unfold size_of. rewrite (look_size w m x v Hs E). cbn. unfold it_inc, asserting. cbn [idx]. rewrite (proj2 (Z.eqb_neq _ _)) by lia. cbn. rewrite orb_true_r, to_u_id by done. exists w. fin. cbn. eauto.
    - apply viter_inv in H as (-> & -> & G). pose proof (good_small _ _ _ Hb G) as Hn. unfold it_dec, asserting. cbn [idx]. rewrite (proj2 (Z.eqb_neq _ _)) by lia. cbn. rewrite orb_true_r, to_u_id by done. exists w. fin.
    - apply viter_inv in H as (-> & -> & G). pose proof (good_small _ _ _ Hb G) as Hn. cbn. rewrite to_u_id by done. exists w. fin.
    - apply viter_inv in H as (-> & -> & G). pose proof (good_small _ _ _ Hb G) as Hn. pose proof (good_small _ _ _ Hb Hg) as Hn'. unfold it_sub, asserting. cbn [idx].
      assert (Hc : ndebug || (to_u n <=? i)%Z = true). { destruct ndebug; [done|]. cbn in *. apply andb_prop in Hf as [_ Hf]. apply Z.leb_le in Hf. rewrite to_u_id by lia. apply Z.leb_le. lia. }
      rewrite Hc. cbn [idx]. rewrite to_u_id by done. exists w. fin.
    - destruct b; try done. destruct c; try done. destruct (x =? x0); [|done]. injection H as <- <-. rewrite it_diff_small by (cbn; by eapply good_small). exists w. fin.
    - destruct b; try done. destruct c; try done. unfold same_owner. destruct (x =? x0); [|done]. injection H as <- <-. rewrite orb_true_r. exists w. fin.
    - destruct b; try done. destruct c; try done. unfold same_owner. destruct (x =? x0); [|done]. injection H as <- <-. rewrite orb_true_r. exists w. fin.
    - apply vref_inv in H as (-> & -> & Hi & G). rewrite (x_ref_ok w m x _ Hs G). exists w. fin.
    - apply vref_inv in H as (-> & -> & Hi & G). pose proof (elem_small x _ m Hb G Hi) as Hn. unfold it_add. cbn [idx]. rewrite to_u_id by done. rewrite (x_ref_ok w m x _ Hs G). exists w. fin.
    - injection H as <- <-. exists w. fin. split; [done|]. destruct t0; try done. destruct (j <? N) eqn:Ej; [|done]. by apply Nat.ltb_lt.
    - destruct Hg as [_ Hj]. destruct (elem x i m) as [r|] eqn:E; [|done]. rewrite (sim_get_cell N w m x i r j Hs E Hj). pose proof (sim_row N w m x i r Hs E) as Hr. rewrite (row_field N r j Hr Hj) in H. injection H as <- <-. exists w. fin.
    - pose proof Hg as [_ Hj]. destruct (elem x i m) as [r|] eqn:E; [|done]. rewrite (sim_get_cell N w m x i r j Hs E Hj). injection H as <- <-. exists (set_cell x i j v w). split; [done|].
      split; [by apply (sim_set_cell N)|]. split; [apply sizes_store|]. eapply sizes_good; [apply sizes_store|done].
    - destruct (elem x i m) as [r|] eqn:E; [|done]. injection H as <- <-. rewrite (x_row_ok w m x i r Hs E). exists w. fin.
    - injection H as <- <-. assert (Hr : is_row N r). { destruct t0; try done. destruct c; try done. destruct (row_ok N r) eqn:Er; [|done]. by apply Nat.eqb_eq in Er. }
      destruct (set_ok' w m x i r Hs Hg Hr) as (w' & He & Hs'). rewrite He. exists w'. cbn. split; [done|]. split; [done|]. split; [apply sizes_store|]. eapply sizes_elem; [apply sizes_store|done].
    - destruct b; try done. destruct c; try done. destruct (elem x0 i0 m) as [r|] eqn:E; [|done]. injection H as <- <-. destruct t1; try done. destruct c; try done. destruct t2; try done.
      assert (Hr : is_row N r) by (by eapply sim_row). destruct c.
      + rewrite (x_row_ok w m x0 i0 r Hs E). destruct (set_ok' w m x i r Hs Hg Hr) as (w' & He & Hs'). rewrite He. exists w'. cbn. split; [done|]. split; [done|]. split; [apply sizes_store|]. eapply sizes_elem; [apply sizes_store|done].
      + destruct (copy_ok' w m x i x0 i0 r Hs Hg E) as (w' & He & Hs'). rewrite He. exists w'. cbn. split; [done|]. split; [done|]. split; [apply sizes_store|]. eapply sizes_elem; [apply sizes_store|done].
    - destruct b; try done. destruct c; try done. destruct (elem x i m) as [p|] eqn:E; [|done]. destruct (elem x0 i0 m) as [q|] eqn:E'; [|done]. injection H as <- <-.
      destruct (swap_ok' w m x i x0 i0 p q Hs E E') as (w' & He & Hs'). rewrite He. exists w'. cbn. split; [done|]. split; [done|]. split; [|done]. eapply sizes_trans; apply sizes_store.
    - destruct (vref x i m) as [[]|] eqn:Ev; [|done]. apply vref_inv in Ev as (_ & _ & Hi & [r Hr]). rewrite Hr in H. injection H as <- <-. rewrite (dty_vty N e t0 ET). destruct t0; try done. destruct c.
      + unfold ev1. rewrite (x_ref_ok w m x i Hs) by (by eexists). rewrite (x_row_ok w m x _ r Hs Hr). exists w. fin.
      + destruct (take_ok w m x _ r Hs Hr) as (c & c' & Hc & He & Hs'). rewrite Hc, He. eexists. split; [done|]. split; [done|]. split; [apply sizes_store|done].
    - destruct b; try done. destruct c; try done. destruct (elem x (Z.to_nat i) m) as [p|] eqn:E; [|done]. destruct (elem x0 (Z.to_nat i0) m) as [q|] eqn:E'; [|done]. injection H as <- <-.
      destruct (swap_ok' w m x _ x0 _ p q Hs E E') as (w' & He & Hs'). rewrite He. exists w'. cbn. split; [done|]. split; [done|]. split; [|done]. eapply sizes_trans; apply sizes_store.
    - destruct (elem x i m) as [q|] eqn:E; [|done]. injection H as <- <-. rewrite (x_row_ok w m x i q Hs E). pose proof (sim_row N w m x i q Hs E) as Hq.
      assert (Hr : is_row N r). { destruct t0; try done. destruct (row_ok N r) eqn:Er; [|done]. by apply Nat.eqb_eq in Er. } rewrite (t_eq_ok cmp eqf) by (done || (unfold is_row in *; lia)). exists w. fin.
    - destruct (elem x i m) as [q|] eqn:E; [|done]. injection H as <- <-. rewrite (x_row_ok w m x i q Hs E). pose proof (sim_row N w m x i q Hs E) as Hq.
      assert (Hr : is_row N r). { destruct t0; try done. destruct (row_ok N r) eqn:Er; [|done]. by apply Nat.eqb_eq in Er. } rewrite t_cmp_ok by (unfold is_row in *; lia). exists w. fin.
    - destruct b; try done. destruct c; try done. destruct (elem x i m) as [p|] eqn:E; [|done]. destruct (elem x0 i0 m) as [q|] eqn:E'; [|done]. injection H as <- <-.
      rewrite (x_row_ok w m x i p Hs E), (x_row_ok w m x0 i0 q Hs E'). pose proof (sim_row N w m x i p Hs E) as Hp. pose proof (sim_row N w m x0 i0 q Hs E') as Hq. unfold is_row in *.
      assert (proxy_eq cmp p q = t_eq eqf 0 p q) as He1 by (apply t_eq_ok; [done|lia]).
      rewrite He1. exists w. split; [done|]. split; [done|]. split; [apply sizes_refl|done].
    - destruct b; try done. destruct c; try done. destruct (elem x i m) as [p|] eqn:E; [|done]. destruct (elem x0 i0 m) as [q|] eqn:E'; [|done]. injection H as <- <-.
      rewrite (x_row_ok w m x i p Hs E), (x_row_ok w m x0 i0 q Hs E'). pose proof (sim_row N w m x i p Hs E) as Hp. pose proof (sim_row N w m x0 i0 q Hs E') as Hq. unfold is_row in *. rewrite t_cmp_ok by lia. exists w. fin.
    - destruct (dty N e1) as [t1|] eqn:ET1; [|discriminate]. destruct (dty N e2) as [t2|] eqn:ET2; [|discriminate]. refine (two_ok e1 e2 _ _ t1 t2 IHe1 IHe2 Hf ET1 ET2 _ w m a m' Hs Hb H).
      clear w m a m' Hs Hb H. intros b c w m a m' Hs Hb Hg Hg' H. injection H as <- <-. exists w. unfold xret. fin.
  Qed.
End Sim.

Theorem expr_as_vector N dfl mf ndebug cmp eqf l m w e t a m' : 0 < N -> vec_history N dfl l m -> dexec N dfl mf l ∅ = WOk w None None ->
  (forall x v, m !! x = Some v -> (Z.of_nat (length v) < 2 ^ 63)%Z) ->
  (forall j x y, cmp j x y = Some Eq <-> eqf j x y = true) -> ndebug = true \/ forward_only e = true ->
  dty N e = Some t -> vev N mf cmp eqf e m = Some (a, m') ->
  exists w', dev N mf ndebug cmp e w = Some (a, w') /\ (forall x, is_Some (w' !! x) <-> is_Some (m' !! x)) /\
    forall x c v, w' !! x = Some c -> m' !! x = Some v -> same_contents c v /\ same_columns N c v.
Proof.
  intros HN Hh He Hb Heq Hf Ht Hv. destruct (history_ok N HN dfl mf l m Hh) as (w0 & He0 & Hs). rewrite He in He0. injection He0 as <-.
  assert (Hf' : ndebug || forward_only e = true) by (destruct Hf as [-> | ->]; [done|apply orb_true_r]).
  destruct (simulates N HN mf ndebug cmp eqf Heq e t w m a m' Hs Hb Hf' Ht Hv) as (w' & Hd & Hs' & _ & _). exists w'. split; [done|]. split.
  - intros x. specialize (Hs' x). inversion Hs'; split; intros [? ?]; (done || by eexists).
  - intros x c v Hc Hx. destruct (sim_some N w' m' x v Hs' Hx) as (c' & Hc' & Hh'). rewrite Hc in Hc'. injection Hc' as <-. split; [by apply (holds_contents N HN)|by apply (holds_columns N)].
Qed.
