From stdpp Require Import list.
From Verif Require Import TypeListModel TypeListSpec TypeListProofs ConsModel NormModel NormSpec.

Lemma eqm_ok : decides eqm.
Proof. intros x y. unfold eqm. apply bool_decide_eq_true. Qed.

Lemma byte_like E a : is_byte_like (a_value E a) = true <-> byte_allocator E a.
Proof. unfold byte_allocator. destruct (a_value E a); cbn; naive_solver. Qed.

Lemma rebind_iff E a b : rebind_to_byte E a = Some b <-> bytes_of E a b.
Proof.
  unfold rebind_to_byte, bytes_of. rewrite <- byte_like. destruct (is_byte_like (a_value E a)); naive_solver.
Qed.

Lemma buffer_iff n k : soo_buffer_size n = k <-> buffer n k.
Proof.
  unfold soo_buffer_size, buffer. destruct (Nat.eqb_spec n 0) as [->|Hn].
  - split; [intros <-; by left|]. intros [[_ ?]|[? _]]; done.
  - split.
    + intros <-. right. split; [done|]. split; [lia|]. split; [lia|]. intros k' H1 H2. lia.
    + intros [[? _]|(_ & H1 & H2 & H3)]; [done|]. specialize (H3 (Nat.max max_align n)). lia.
Qed.

Lemma buffer_idem n : soo_buffer_size (soo_buffer_size n) = soo_buffer_size n.
Proof.
  unfold soo_buffer_size. destruct (Nat.eqb_spec n 0) as [->|Hn]; [done|].
  destruct (Nat.eqb_spec (Nat.max max_align n) 0) as [H|_]; lia.
Qed.

Lemma bytes_of_bytes E a b : allocators_ok E -> rebind_to_byte E a = Some b -> byte_allocator E b.
Proof.
  intros HE. unfold rebind_to_byte. destruct (is_byte_like (a_value E a)) eqn:Hb.
  - intros [= <-]. by apply byte_like.
  - intros Hr. left. by apply HE in Hr.
Qed.

Lemma rebind_idem E a b : allocators_ok E -> rebind_to_byte E a = Some b -> rebind_to_byte E b = Some b.
Proof. intros HE H. apply rebind_iff. left. split; [by eapply bytes_of_bytes|done]. Qed.

Lemma same_copy E a n a' n' m : copy_with E a n = Some m ->
  (copy_with E a' n' = Some m <-> exists b k, bytes_of E a b /\ bytes_of E a' b /\ buffer n k /\ buffer n' k).
Proof.
  unfold copy_with. destruct (rebind_to_byte E a) as [b|] eqn:Ha; [|done]. intros [= <-]. split.
  - destruct (rebind_to_byte E a') as [b'|] eqn:Ha'; [|done]. intros [= -> Hs].
    exists b, (soo_buffer_size n). rewrite <- !rebind_iff, <- !buffer_iff. done.
  - intros (b' & k & H1 & H2 & H3 & H4). rewrite <- rebind_iff in H1, H2. rewrite <- buffer_iff in H3, H4.
    rewrite H2. rewrite Ha in H1. injection H1 as ->. by rewrite H3, H4.
Qed.

Lemma basic_any_parts E fuel a n ts t : basic_any_with E fuel a n ts = Some t ->
  bytes_of E a (at_al t) /\ buffer n (at_soos t) /\ any_with eqm MDestroy fuel ts = Some (at_ms t).
Proof.
  unfold basic_any_with. destruct (rebind_to_byte E a) as [b|] eqn:Ha; [|done].
  destruct (any_with eqm MDestroy fuel ts) as [ms|]; [|done]. intros [= <-]. cbn.
  rewrite <- rebind_iff, <- buffer_iff. done.
Qed.

Lemma asserts_hold E fuel a n ts t : allocators_ok E -> basic_any_with E fuel a n ts = Some t -> asserts E t = true.
Proof.
  intros HE H. apply basic_any_parts in H as (Ha & Hn & _). unfold asserts. rewrite <- rebind_iff in Ha.
  apply andb_true_intro. split.
  - destruct Hn as [[_ ->]|(_ & _ & Hk & _)]; [done|]. apply orb_true_intro. right. apply Nat.leb_le. unfold max_align, size_of_size in *. lia.
  - apply byte_like. by eapply bytes_of_bytes.
Qed.

Lemma own_copy E fuel a n ts t : allocators_ok E -> basic_any_with E fuel a n ts = Some t ->
  copy_with E (at_al t) (at_soos t) = copy_with E a n /\ copy_with E a n = Some (MCopy (at_al t) (at_soos t)).
Proof.
  intros HE H. apply basic_any_parts in H as (Ha & Hn & _). rewrite <- rebind_iff in Ha. rewrite <- buffer_iff in Hn.
  unfold copy_with. rewrite Ha, (rebind_idem _ _ _ HE Ha), <- Hn, buffer_idem. done.
Qed.

Lemma has_copy_iff E fuel a n ts t : allocators_ok E -> basic_any_with E fuel a n ts = Some t ->
  exists b, any_has_copy E t = Some b /\ b = has_copy t /\
    (b = true <-> exists m, copy_with E a n = Some m /\ In m (flat_map leaves ts)).
Proof.
  intros HE H. destruct (own_copy _ _ _ _ _ _ HE H) as [H1 H2]. apply basic_any_parts in H as (_ & _ & Hms).
  exists (has_copy t). unfold any_has_copy, has_copy. rewrite H1, H2. split; [done|]. split; [done|].
  rewrite (contains_v_spec eqm eqm_ok).
  assert (Hin : In (MCopy (at_al t) (at_soos t)) (at_ms t) <-> In (MCopy (at_al t) (at_soos t)) (flat_map leaves ts)).
  { unfold any_with in Hms. destruct (insert_flatten fuel ts) as [l|] eqn:Hl; [|done]. injection Hms as <-.
    apply insert_flatten_sound in Hl as <-.
    unfold insert_into_basic_any in *. destruct l as [|h tl]; [cbn; split; [by intros [?|[]]|done]|].
    destruct (eqm h MDestroy) eqn:Hh.
    - apply eqm_ok in Hh as ->. cbn. tauto.
    - destruct (contains_v eqm MDestroy (h :: tl)); [done|]. cbn. split; [intros [?|?]; done|by right]. }
  rewrite Hin. naive_solver.
Qed.

Lemma renamed E fuel a n ts t : allocators_ok E -> basic_any_with E fuel a n ts = Some t ->
  basic_any_with E fuel (at_al t) (at_soos t) ts = Some t.
Proof.
  intros HE H. apply basic_any_parts in H as (Ha & Hn & Hms). rewrite <- rebind_iff in Ha. rewrite <- buffer_iff in Hn.
  unfold basic_any_with. rewrite (rebind_idem _ _ _ HE Ha), Hms, <- Hn, buffer_idem, Hn. by destruct t.
Qed.

Lemma materialize_back E fuel a n ts t : allocators_ok E -> basic_any_with E fuel a n ts = Some t -> has_copy t = true ->
  materialize E (at_al t) (at_soos t) (at_ms t) = Some t.
Proof.
  intros HE H Hc. destruct (own_copy _ _ _ _ _ _ HE H) as [H1 H2]. unfold materialize. rewrite H1, H2. unfold has_copy in Hc. rewrite Hc.
  apply basic_any_parts in H as (_ & _ & Hms). unfold any_with in Hms. destruct (insert_flatten fuel ts) as [l|]; [|done].
  destruct (insert_into_basic_any_spec eqm eqm_ok MDestroy l) as (Hd & _). injection Hms as Hms. rewrite Hms in Hd.
  rewrite (proj2 (contains_v_spec eqm eqm_ok _ _) Hd). cbn. by destruct t.
Qed.

Lemma materialize_partial E a n ms t : allocators_ok E -> byte_allocator E a -> n = 0 \/ max_align <= n ->
  materialize E a n ms = Some t ->
  t = AnyT a n ms /\ asserts E t = true /\ any_has_copy E t = Some true /\ copy_with E a n = Some (MCopy (at_al t) (at_soos t)).
Proof.
  intros HE Ha Hn. unfold materialize, any_has_copy, copy_with, asserts.
  assert (rebind_to_byte E a = Some a) as Hr by (apply rebind_iff; by left).
  assert (soo_buffer_size n = n) as Hs.
  { unfold soo_buffer_size. destruct (Nat.eqb_spec n 0); lia. }
  rewrite Hr, Hs. destruct (contains_v eqm (MCopy a n) ms) eqn:Hc; [|done]. cbn [andb].
  destruct (contains_v eqm MDestroy ms); [|done]. intros [= <-]. cbn [at_al at_soos at_ms]. rewrite Hr, Hs, Hc, (proj2 (byte_like E a) Ha). repeat split.
  rewrite andb_true_r. destruct Hn as [->|Hn]; [done|]. apply orb_true_intro. right. apply Nat.leb_le. unfold max_align, size_of_size in *. lia.
Qed.

(** std::allocator<T> for T = std::byte (0), char (1) and other types *)
Definition std_alloc : aenv := AEnv (fun a => match a with 0 => VByte | 1 => VChar | n => VOther n end) (fun _ => Some 0).
Lemma std_alloc_ok : allocators_ok std_alloc.
Proof. by intros a b [= <-]. Qed.

(** materialize is a candidate, but its return type is one that no basic_any may have *)
Lemma materialize_ill_formed : exists E a n ms t, allocators_ok E /\ materialize E a n ms = Some t /\ asserts E t = false.
Proof. exists std_alloc, 2, 64, [MDestroy; MCopy 0 64], (AnyT 2 64 [MDestroy; MCopy 0 64]). split; [apply std_alloc_ok|]. by vm_compute. Qed.

(** the copy function stored in the table fills up to [k] bytes of a buffer of [at_soos t] bytes *)
Lemma materialize_overfills : exists E a n ms t k, allocators_ok E /\ materialize E a n ms = Some t /\ asserts E t = true /\
  copy_with E a n = Some (MCopy a k) /\ at_soos t < k.
Proof.
  exists std_alloc, 0, 8, [MDestroy; MCopy 0 16], (AnyT 0 8 [MDestroy; MCopy 0 16]), 16. split; [apply std_alloc_ok|].
  do 3 (split; [by vm_compute|]). cbn. lia.
Qed.

Lemma basic_any_exists E fuel a n ts b : bytes_of E a b -> max_nesting ts < fuel -> exists t, basic_any_with E fuel a n ts = Some t.
Proof.
  intros Hb Hf. apply rebind_iff in Hb. unfold basic_any_with, any_with. rewrite Hb, insert_flatten_spec by done. eauto.
Qed.
