(** Proofs about inserter(swarm). *)
From stdpp Require Import gmap list.
From Verif Require Import AnyModel SwarmModel SwarmSpec SwarmProofs OverloadModel OverloadSpec OverloadProofs InserterModel.

Lemma nearest_insert K Ts A c lv T : sane K -> NoDup Ts -> nearest_type K Ts A T -> exists r, insert_call K Ts (Arg A c lv) = Some (T, r).
Proof.
  intros HK HN H. destruct (decide (T = A \/ base K A T = true)) as [HA|HA].
  - exists (negb (c || lv)). apply insert_nearest; [done..|]. split; [done|]. unfold leaves_argument, is_a. cbn.
    destruct c, lv; cbn; split; try done; naive_solver.
  - exists true. apply insert_nearest; [done..|]. split; [done|]. unfold leaves_argument, is_a. cbn. split; [done|]. naive_solver.
Qed.
Theorem inserter_compiles_iff K Ts alts c lv : sane K -> NoDup Ts ->
  inserter_compiles K Ts alts c lv = true <-> forall A, A ∈ alts -> exists T, nearest_type K Ts A T.
Proof.
  intros HK HN. unfold inserter_compiles. rewrite forallb_forall. setoid_rewrite <-elem_of_list_In. split; intros H A HA.
  - specialize (H A HA). destruct (insert_call K Ts (Arg A c lv)) as [[T r]|] eqn:E; [|done]. apply insert_nearest in E as [E _]; [|done..]. eauto.
  - destruct (H A HA) as [T HT]. apply (nearest_insert K Ts A c lv) in HT as [r ->]; done.
Qed.
Theorem inserter_inserts K cont : sane K -> (forall T U, cont T = cont U -> T = U) -> forall k Ts, NoDup Ts -> forall convert l m w x s q cc lv A T v,
  seq_history k Ts l m -> sexec cont k Ts l ∅ = SOk w -> w !! x = Some s -> m !! x = Some q -> nearest_type K Ts A T ->
  exists s' r, inserter_run K cont k Ts convert cc lv A v s = SOk (s', r) /\
    forall U, U ∈ Ts -> exists vs, s_view cont Ts U s' = Some vs /\ shown k U (seq_insert k T (convert A T v) q) vs.
Proof.
  intros HK HC k Ts HN convert l m w x s q cc lv A T v Hh He Hw Hm HT. unfold inserter_run.
  destruct (nearest_insert K Ts A cc lv T HK HN HT) as [r0 ->]. assert (Hr : repr k Ts s q) by by eapply history_repr.
  destruct (insert_ok cont HC k Ts HN T (convert A T v) s q Hr) as (s' & r & E & Hr' & _); [by destruct HT|].
  exists s', r. split; [done|]. intros U HU. by apply (repr_view cont HC k Ts HN).
Qed.
