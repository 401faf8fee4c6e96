(** Sets of anys: consequences in the form of the theorems, and concrete sets (C100, C101). *)
From stdpp Require Import gmap list sorting.
From Verif Require Import TypeListModel TypeListSpec TypeListProofs AnyModel AnyInv AnySteps AnyHistory AnyExec AnyFacts AnyExamples PolyModel PolySpec PolyExamples VectorSpec KeyModel KeySpec KeyHistory KeyProofs KeyTreeProofs.

(** ** std::unordered_set *)
Section Hashed.
  Context (E : env) (O : obs) (ms : list method) (cached : bool) (w : world) (s : uset) (S : list value).
  Context (Hwf : env_wf E) (HO : obs_wf O) (HH : hashable O) (HK : key_class ms) (Hs : set_history E O ms cached w s S).
  Theorem hashed_holds : reachable E w /\ NoDup (names s) /\ (forall x, In x (names s) -> has_any w x (fun a => a_ms a = ms)) /\
    hold_values w (names s) S /\ distinct O S.
  Proof.
    pose proof (history_sound E O ms cached Hwf HO HH HK w s S Hs) as HS. split; [apply HS|]. split; [apply HS|]. split; [|split; apply HS].
    intros x Hx. apply in_names in Hx as [c Hx]. destruct (so_nodes _ _ _ _ _ _ HS _ _ Hx) as (v & [? _] & _). done.
  Qed.
  Theorem hashed_contains k v : key ms w k v -> exists b, u_contains O cached s k w = Ok b w /\ (b = true <-> member O S v).
  Proof. apply (contains_step E O ms cached Hwf HO HH HK). by eapply history_sound. Qed.
  Theorem hashed_insert k v x : key ms w k v -> w_any w !! x = None ->
    match u_insert E O ms cached s k x w with
    | Ok (s', b) w' => (b = true <-> ~ member O S v) /\ hold_values w' (names s') (if b then v :: S else S) /\
        (if b then names s' ≡ₚ x :: names s /\ content w' x = Some v else s' = s /\ w' = w) /\ (forall j, j <> x -> view w' j = view w j)
    | Exn w' => ~ member O S v /\ w_any w' !! x = None /\ (forall j, view w' j = view w j)
    | UB _ | Term => False
    end.
  Proof.
    intros Hk Hx. pose proof (history_sound E O ms cached Hwf HO HH HK w s S Hs) as HS.
    pose proof (insert_step E O ms cached Hwf HO HH HK w s S k v x HS Hk Hx) as H.
    destruct (u_insert E O ms cached s k x w) as [[s' b] w'|w'| |]; [|by destruct H as (? & _ & ? & ?)|done..].
    destruct H as (H1 & H2 & H3 & H4 & H5). split; [done|]. split; [apply H2|]. split; [|done]. destruct b; [|by auto].
    destruct H3 as (? & _ & ?). done.
  Qed.
  Theorem hashed_erase k v : key ms w k v ->
    exists s' b w', u_erase E O cached s k w = Ok (s', b) w' /\ (b = true <-> member O S v) /\ (b = false -> s' = s /\ w' = w) /\
      (b = true -> forall S', without O S S' v -> hold_values w' (names s') S') /\
      (b = true -> exists x, names s ≡ₚ x :: names s' /\ w_any w' !! x = None /\ (forall j, j <> x -> view w' j = view w j)).
  Proof.
    intros Hk. pose proof (history_sound E O ms cached Hwf HO HH HK w s S Hs) as HS.
    destruct (erase_step E O ms cached Hwf HO HH HK w s S k v HS Hk) as (s' & b & w' & H1 & H2 & H3 & H4 & x & H5 & H6).
    exists s', b, w'. split; [done|]. split; [done|]. split; [by apply H3|]. split; [intros Hb S' HS'; by apply (H4 Hb S' HS')|].
    intros Hb. destruct (H6 Hb) as (_ & ? & ?). by exists x.
  Qed.
  Theorem hashed_rehash n : 0 < n -> exists s', u_rehash O cached s n w = Ok s' w /\ length s' = n /\ names s' ≡ₚ names s /\ hold_values w (names s') S.
  Proof.
    intros Hn. pose proof (history_sound E O ms cached Hwf HO HH HK w s S Hs) as HS.
    destruct (rehash_step E O ms cached Hwf HK w s S n HS Hn) as (s' & ? & ? & HS' & ?). exists s'. split; [done|]. split; [done|]. split; [done|]. apply HS'.
  Qed.
End Hashed.

(** ** std::set *)
Section Ordered.
  Context (E : env) (O : obs) (ms : list method) (T : nat) (w : world) (t : tree) (L : list nat).
  Context (Hwf : env_wf E) (HO : obs_wf O) (HW : weakly_ordered O T) (HK : ordered_class ms) (Ht : tree_history E O ms T w t L).
  Theorem ordered_holds : reachable E w /\ NoDup (inorder t) /\ hold_in_order ms T w (inorder t) L /\ increasing O T L.
  Proof. pose proof (tree_sound E O ms T Hwf HO HW HK w t L Ht) as HS. split; [apply HS|]. split; [apply HS|]. split; apply HS. Qed.
  Theorem ordered_find k x : key ms w k (Some (T, x)) ->
    exists y, t_find O t k w = Ok y w /\ (y = None <-> ~ has_equivalent O T L x) /\
      (forall j, y = Some j -> In j (inorder t) /\ exists v, key ms w j (Some (T, v)) /\ equivalent O T x v).
  Proof. apply (tree_find E O ms T Hwf HO HW HK). by eapply tree_sound. Qed.
  Theorem ordered_insert k x n : key ms w k (Some (T, x)) -> w_any w !! n = None ->
    match t_insert E O ms t k n w with
    | Ok (t', b) w' => (b = true <-> ~ has_equivalent O T L x) /\ (b = false -> t' = t /\ w' = w) /\
        (b = true -> exists L', placed O T L x L' /\ hold_in_order ms T w' (inorder t') L' /\ increasing O T L' /\
           exists A B, inorder t = A ++ B /\ inorder t' = A ++ n :: B) /\
        (forall j, j <> n -> view w' j = view w j)
    | Exn w' => ~ has_equivalent O T L x /\ w_any w' !! n = None /\ (forall j, view w' j = view w j)
    | UB _ | Term => False
    end.
  Proof.
    intros Hk Hn. pose proof (tree_insert E O ms T Hwf HO HW HK w t L k x n (tree_sound E O ms T Hwf HO HW HK w t L Ht) Hk Hn) as H.
    destruct (t_insert E O ms t k n w) as [[t' b] w'|w'| |]; [|by destruct H as (? & _ & ? & ?)|done..].
    destruct H as (H1 & H2 & H3 & H4). split; [done|]. split; [done|]. split; [|done]. intros Hb. destruct (H3 Hb) as (L' & ? & HS & ?). exists L'.
    split; [done|]. split; [apply HS|]. split; [apply HS|done].
  Qed.
  Theorem ordered_erase k x : key ms w k (Some (T, x)) ->
    exists t' b w', t_erase E O t k w = Ok (t', b) w' /\ (b = true <-> has_equivalent O T L x) /\ (b = false -> t' = t /\ w' = w) /\
      (b = true -> forall L', taken O T L x L' -> hold_in_order ms T w' (inorder t') L') /\
      (b = true -> exists j A B, inorder t = A ++ j :: B /\ inorder t' = A ++ B /\ w_any w' !! j = None /\ (forall i, i <> j -> view w' i = view w i)).
  Proof.
    intros Hk. destruct (tree_erase E O ms T Hwf HO HW HK w t L k x (tree_sound E O ms T Hwf HO HW HK w t L Ht) Hk) as (t' & b & w' & H1 & H2 & H3 & H4 & H5).
    exists t', b, w'. split; [done|]. split; [done|]. split; [done|]. split; [|done]. intros Hb L' HL'. by apply (H4 Hb L' HL').
  Qed.
End Ordered.

(** ** Concrete sets *)
Ltac by_vm := lazymatch goal with |- ?a = ?b => exact (@eq_refl _ b <: a = b) end.
Lemma obs0_hashable : hashable obs0.
Proof.
  split; cbn.
  - intros _ x. apply Nat.eqb_refl.
  - intros _ x y. rewrite !Nat.eqb_eq. done.
  - intros _ x y z. rewrite !Nat.eqb_eq. congruence.
  - intros T x y. rewrite Nat.eqb_eq. by intros ->.
Qed.
Lemma obs0_ordered T : weakly_ordered obs0 T.
Proof.
  split; cbn.
  - intros x. by rewrite Nat.compare_refl.
  - intros x y z [= H1%nat_compare_lt] [= H2%nat_compare_lt]. f_equal. apply nat_compare_lt. lia.
  - intros x y z H1 H2 [= H%nat_compare_lt]. destruct (decide (x < y)) as [Hl|Hl]; [apply H1; f_equal; by apply nat_compare_lt|].
    apply H2. f_equal. apply nat_compare_lt. lia.
Qed.
Lemma eqs_class : key_class eqs.
Proof. repeat split; try (cbn; tauto). cbn. intros H. repeat destruct H as [H|H]; done. Qed.
Definition ordk : list method := [MDestroy; MMove; MCopy true; MTypeInfo; MSpaceship; MHash].
Lemma ordk_class : ordered_class ordk.
Proof. repeat split; cbn; tauto. Qed.

(** 0, 1: equal big values; 2: same value, other type; 3: empty; 4, 5, 6, 7: ordered values 30, 10, 20, 20; 8: ordered, other type; 9: empty *)
Definition key_prog : list op :=
  [ OValue 0 0 eqs 1 (AVal 10) false; OCopy 1 0 eqs; OValue 2 0 eqs 5 (AVal 10) true; ODefault 3 0 eqs;
    OValue 4 0 ordk 1 (AVal 30) false; OValue 5 0 ordk 1 (AVal 10) false; OValue 6 0 ordk 1 (AVal 20) false; OCopy 7 6 ordk;
    OValue 8 0 ordk 5 (AVal 20) false; ODefault 9 0 ordk ].
(** [throws]: which of the operations that may throw do *)
Definition keyE (throws : list nat) : env := mkE 16 true false false throws.
Definition kw (throws : list nat) : world := after (keyE throws) key_prog.
Lemma kw_reachable throws : throws = [] \/ throws = [14] -> reachable (keyE throws) (kw throws).
Proof. intros [->| ->]; apply after_reachable; by_vm. Qed.
Definition keyb (ms : list method) (w : world) (k : nat) (v : value) : bool :=
  match w_any w !! k with Some a => bool_decide (a_ms a = ms) | None => false end && bool_decide (content w k = Some v).
Lemma keyb_sound ms w k v : keyb ms w k v = true -> key ms w k v.
Proof.
  unfold keyb. intros H. apply andb_prop in H as [H1 H2]. apply bool_decide_eq_true in H2. split; [|done].
  destruct (w_any w !! k) as [a|] eqn:Ha; [|done]. exists a. split; [done|]. by apply bool_decide_eq_true in H1.
Qed.
(** value and world of a run *)
Definition got {A} (d : A) (r : res A) : A := match r with Ok a _ => a | _ => d end.
Definition then_ {A} (r : res A) (w : world) : world := match r with Ok _ w' => w' | Exn w' => w' | _ => w end.

(** a set with a big value, a small value of another type and nothing; then more buckets; then the big value is erased through an equal any *)
Definition bt := (fun r : res (uset * bool) => got ([], false) r).
Definition u1 := u_insert (keyE []) obs0 eqs true (replicate 3 []) 0 20 (kw []).
Definition w1 := then_ u1 (kw []).
Definition u2 := u_insert (keyE []) obs0 eqs true (bt u1).1 2 21 w1.
Definition w2 := then_ u2 w1.
Definition u3 := u_insert (keyE []) obs0 eqs true (bt u2).1 3 22 w2.
Definition w3 := then_ u3 w2.
Definition u4 := u_rehash obs0 true (bt u3).1 5 w3.
Definition u5 := u_erase (keyE []) obs0 true (got [] u4) 1 w3.
Definition w5 := then_ u5 w3.
Lemma ok_shape {A B} (d : A * B) (r : res (A * B)) w : match r with Ok _ _ => true | _ => false end = true -> r = Ok ((got d r).1, (got d r).2) (then_ r w).
Proof. by destruct r as [[a b] w'|w'| |]. Qed.
Lemma u3_history : set_history (keyE []) obs0 eqs true w3 (bt u3).1 [None; Some (5, 10); Some (1, 10)].
Proof.
  apply (sh_insert _ _ _ _ w2 (bt u2).1 [Some (5, 10); Some (1, 10)] 3 None 22 _ (bt u3).2); [|apply keyb_sound; by_vm|by_vm| |apply ok_shape; by_vm].
  2: { intros (u & Hu & Hs). cbn in Hu. destruct Hu as [<-|[<-|[]]]; done. }
  apply (sh_insert _ _ _ _ w1 (bt u1).1 [Some (1, 10)] 2 (Some (5, 10)) 21 _ (bt u2).2); [|apply keyb_sound; by_vm|by_vm| |apply ok_shape; by_vm].
  2: { intros (u & Hu & Hs). cbn in Hu. destruct Hu as [<-|[]]. by destruct Hs. }
  apply (sh_insert _ _ _ _ (kw []) (replicate 3 []) [] 0 (Some (1, 10)) 20 _ (bt u1).2); [|apply keyb_sound; by_vm|by_vm| |apply ok_shape; by_vm].
  2: { by intros (u & [] & _). }
  constructor; [apply kw_reachable; by left|lia].
Qed.
Lemma u5_history : set_history (keyE []) obs0 eqs true w5 (bt u5).1 [None; Some (5, 10)].
Proof.
  apply (sh_erase _ _ _ _ w3 (got [] u4) [None; Some (5, 10); Some (1, 10)] 1 (Some (1, 10)) _ (bt u5).2); [|apply keyb_sound; by_vm| |apply ok_shape; by_vm].
  - apply (sh_rehash _ _ _ _ w3 (bt u3).1 _ 5); [apply u3_history|lia|by_vm].
  - exists (Some (1, 10)). split; [done|]. by apply Permutation_sym, (Permutation_cons_append [None; Some (5, 10)]).
Qed.

(** a std::set with the values 10, 20, 30 *)
Definition tt_ := (fun r : res (tree * bool) => got (Leaf, false) r).
Definition t1 := t_insert (keyE []) obs0 ordk Leaf 4 20 (kw []).
Definition x1 := then_ t1 (kw []).
Definition t2 := t_insert (keyE []) obs0 ordk (tt_ t1).1 5 21 x1.
Definition x2 := then_ t2 x1.
Definition t3 := t_insert (keyE []) obs0 ordk (tt_ t2).1 6 22 x2.
Definition x3 := then_ t3 x2.
(** balanced by hand *)
Definition t4 : tree := Node (Node Leaf 21 Leaf) 22 (Node Leaf 20 Leaf).
Lemma t4_history : tree_history (keyE []) obs0 ordk 1 x3 t4 [10; 20; 30].
Proof.
  apply (th_balance _ _ _ _ _ (tt_ t3).1); [|by_vm].
  apply (th_insert _ _ _ _ x2 (tt_ t2).1 [10; 30] 6 20 22 _ (tt_ t3).2); [|apply keyb_sound; by_vm|by_vm| |apply ok_shape; by_vm].
  2: { exists [10], [30]. split; [done|]. split; [done|]. split; intros y [<-|[]]; by_vm. }
  apply (th_insert _ _ _ _ x1 (tt_ t1).1 [30] 5 10 21 _ (tt_ t2).2); [|apply keyb_sound; by_vm|by_vm| |apply ok_shape; by_vm].
  2: { exists [], [30]. split; [done|]. split; [done|]. split; [intros y []|intros y [<-|[]]; by_vm]. }
  apply (th_insert _ _ _ _ (kw []) Leaf [] 4 30 20 _ (tt_ t1).2); [|apply keyb_sound; by_vm|by_vm| |apply ok_shape; by_vm].
  2: { exists [], []. split; [done|]. split; [done|]. split; intros y []. }
  constructor. apply kw_reachable. by left.
Qed.

(** ** Full statements that fail *)
(** anys of other types are equivalent to every member, though equal to none *)
Theorem types_dropped : exists E O ms w t L k v n w', env_wf E /\ obs_wf O /\ (forall T, weakly_ordered O T) /\ ordered_class ms /\
  tree_history E O ms 1 w t L /\ key ms w k v /\ v <> None /\ w_any w !! n = None /\
  (forall j u, In j (inorder t) -> content w j = Some u -> ~ same_value O u v) /\ t_insert E O ms t k n w = Ok (t, false) w'.
Proof.
  exists (keyE []), obs0, ordk, x3, t4, [10; 20; 30], 8, (Some (5, 20)), 40, x3.
  split; [apply mkE_wf|]. split; [apply obs0_wf|]. split; [apply obs0_ordered|]. split; [apply ordk_class|]. split; [apply t4_history|].
  split; [apply keyb_sound; by_vm|]. split; [done|]. split; [by_vm|]. split; [|by_vm].
  intros j u Hj Hu. destruct (ordered_holds (keyE []) obs0 ordk 1 x3 t4 [10; 20; 30]) as (_ & _ & Hh & _); [apply mkE_wf|apply obs0_wf|apply obs0_ordered|apply ordk_class|apply t4_history|].
  destruct (holds_of ordk 1 x3 _ _ j Hh Hj) as (x & _ & [_ Hx]). rewrite Hx in Hu. injection Hu as <-. by intros [? _].
Qed.
(** equivalence is not transitive *)
Theorem not_transitive : exists E O ms w i j k, env_wf E /\ obs_wf O /\ (forall T, weakly_ordered O T) /\ reachable E w /\ ordered_class ms /\
  (forall n, In n [i; j; k] -> exists T x, key ms w n (Some (T, x))) /\
  less O i j w = Ok true w /\ less O i k w = Ok false w /\ less O k i w = Ok false w /\ less O j k w = Ok false w /\ less O k j w = Ok false w.
Proof.
  assert (reachable (keyE []) (kw [])) as Hr by (apply kw_reachable; by left).
  assert (key ordk (kw []) 5 (Some (1, 10))) as H5 by (apply keyb_sound; by_vm).
  assert (key ordk (kw []) 4 (Some (1, 30))) as H4 by (apply keyb_sound; by_vm).
  assert (key ordk (kw []) 8 (Some (5, 20))) as H8 by (apply keyb_sound; by_vm).
  generalize dependent (kw []). intros w Hr H5 H4 H8.
  assert (forall i j u v, key ordk w i u -> key ordk w j v -> order_of obs0 u v = None -> v <> None -> less obs0 i j w = Ok false w) as Hno.
  { intros i j u v Hi Hj Ho Hv. apply (less_false (keyE []) obs0 ordk (mkE_wf _ _ _ _ _) obs0_wf ordk_class w i j u v); auto. }
  exists (keyE []), obs0, ordk, w, 5, 4, 8. split; [apply mkE_wf|]. split; [apply obs0_wf|]. split; [apply obs0_ordered|].
  split; [done|]. split; [apply ordk_class|]. split.
  - intros n [<-|[<-|[<-|[]]]]; [by exists 1, 10|by exists 1, 30|by exists 5, 20].
  - split.
    + destruct (less_spec (keyE []) obs0 ordk 1 (mkE_wf _ _ _ _ _) obs0_wf ordk_class w 5 4 Hr) as (b & Hb & Hiff); [by exists 10|by exists 30|].
      rewrite Hb. f_equal. apply Hiff. by exists 10, 30.
    + split; [by apply (Hno 5 8 _ _ H5 H8)|]. split; [by apply (Hno 8 5 _ _ H8 H5)|]. split; [by apply (Hno 4 8 _ _ H4 H8)|by apply (Hno 8 4 _ _ H8 H4)].
Qed.
Theorem empty_key E O ms T w t L k : env_wf E -> obs_wf O -> weakly_ordered O T -> ordered_class ms -> tree_history E O ms T w t L -> L <> [] -> key ms w k None ->
  t_find O t k w = UB UbNullVtable /\ (forall n, t_insert E O ms t k n w = UB UbNullVtable).
Proof.
  intros Hwf HO HW HK Ht HL Hk. destruct (ordered_holds E O ms T w t L) as (Hr & _ & Hh & _); [done..|]. apply (empty_undefined E O ms Hwf HO HK); [done| | |done].
  - intros ->. by apply Forall2_nil_inv_l in Hh.
  - intros i Hi. destruct (holds_of ms T w _ _ i Hh Hi) as (x & _ & ?). by exists T, x.
Qed.
