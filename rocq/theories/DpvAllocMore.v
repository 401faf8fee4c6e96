(** The theorems about allocators of data_parallel_vector in the form of PropDpvAlloc, and the witnesses of the refutations. *)
From stdpp Require Import gmap list.
From Verif Require Import AnyModel DpvModel DpvAllocModel DpvAllocSpec DpvAllocProofs DpvAllocExamples.

Lemma elements_theorem tr alloc reuse left N o w : aop_wf N o ->
  (forall w', astep tr alloc reuse left o w = AOk w' -> elements_of w' (target o) = expected o w) /\
  (forall w' z, astep tr alloc reuse left o w = AOk w' \/ astep tr alloc reuse left o w = AThrow w' ->
    z <> target o -> taken o <> Some z -> aw_vecs w' !! z = aw_vecs w !! z) /\
  (forall w', constructs o -> astep tr alloc reuse left o w = AThrow w' -> aw_vecs w' !! target o = aw_vecs w !! target o).
Proof.
  intros W. split; [intros w'; by apply (elements_ok _ _ _ _ N)|]. split; [intros w' z E; by apply (others_ok tr alloc reuse left o)|intros w'; apply constructs_ok].
Qed.
Lemma moves_theorem tr alloc reuse left N w x y : x <> y ->
  (is_Some (aw_vecs w !! y) -> exists w', astep tr alloc reuse left (AMove x y) w = AOk w' /\ storage_moved w w' x y /\ aw_next w' = aw_next w) /\
  (forall a, uses N w y a -> exists w', astep tr alloc reuse left (AMoveWith x y a) w = AOk w' /\ storage_moved w w' x y /\ aw_next w' = aw_next w) /\
  (forall a b, uses N w x a -> uses N w y b -> pocma tr = true \/ a = b ->
    exists w', astep tr alloc reuse left (AMoveAssign x y) w = AOk w' /\ storage_moved w w' x y /\ aw_next w' = aw_next w) /\
  (forall a b, uses N w x a -> uses N w y b -> pocs tr = true \/ a = b ->
    exists w', astep tr alloc reuse left (ASwap x y) w = AOk w' /\ aw_vecs w' !! x = aw_vecs w !! y /\ aw_vecs w' !! y = aw_vecs w !! x /\ aw_next w' = aw_next w).
Proof.
  intros Hn. split; [by apply move_ok|]. split; [intros a; by apply move_with_ok|]. split; [intros a b; by apply move_assign_ok|].
  intros a b. apply swap_ok.
Qed.
Lemma unequal_theorem tr alloc reuse left N w w' x y a b : uses N w y b -> a <> b ->
  astep tr alloc reuse left (AMoveWith x y a) w = AOk w' \/ (uses N w x a /\ pocma tr = false /\ astep tr alloc reuse left (AMoveAssign x y) w = AOk w') ->
  forall j i c, holds_storage w y j i c -> holds_storage w' y j i c.
Proof.
  intros Hy Hab [E|(Hx & Pm & E)]; [by apply (move_with_stays tr alloc reuse left N x y a b w w')|by apply (move_assign_stays tr alloc reuse left N x y a b w w')].
Qed.

Ltac each_col := intros c Hc; repeat (apply elem_of_cons in Hc as [->|Hc]; [vm_compute; reflexivity|]); by apply elem_of_nil in Hc.
Ltac use_it := eexists; (split; [vm_compute; reflexivity|]); (split; [reflexivity|]); each_col.
Ltac program ops := eapply (run_program _ _ _ _ _ ops); [constructor|repeat constructor|vm_compute; reflexivity].
Lemma assign_refuted :
  (exists tr alloc reuse left w w' x a els, a_program tr alloc reuse left 2 w /\ length els = 2 /\ uses 2 w x a /\
    astep tr alloc reuse left (AAssign x els) w = AOk w' /\ ~ uses 2 w' x a) /\
  (exists tr alloc reuse left w x a els, a_program tr alloc reuse left 2 w /\ length els = 2 /\ uses 2 w x a /\
    astep tr alloc reuse left (AAssign x els) w = ABad UbIllFormed).
Proof.
  split.
  - exists tr_all, yes, yes, none_left, (world_of tr_all yes yes none_left two_vectors). eexists. exists 0, 5, [[4]; [40]].
    split; [program two_vectors|]. split; [done|]. split; [use_it|]. split; [vm_compute; reflexivity|].
    intros (cols & E & _ & A). vm_compute in E. injection E as <-. specialize (A _ ltac:(left)). discriminate.
  - exists tr_nodef, yes, yes, none_left, (world_of tr_nodef yes yes none_left two_vectors), 0, 5, [[4]; [40]].
    split; [program two_vectors|]. split; [done|]. split; [use_it|]. vm_compute. reflexivity.
Qed.
Lemma throwing_copy_refuted :
  exists tr alloc reuse left w w' x y, a_program tr alloc reuse left 2 w /\ (exists a, uses 2 w x a) /\ (exists a, uses 2 w y a) /\
    astep tr alloc reuse left (ACopyAssign x y) w = AThrow w' /\ (exists cols, aw_vecs w' !! x = Some cols /\ length cols = 2) /\
    ~ exists a, uses 2 w' x a.
Proof.
  exists tr_all, (only 5), yes, none_left, (world_of tr_all (only 5) yes none_left two_vectors). eexists. exists 0, 1.
  split; [program two_vectors|]. split; [exists 5; use_it|]. split; [exists 7; use_it|]. split; [vm_compute; reflexivity|].
  split; [eexists; split; [vm_compute; reflexivity|reflexivity]|].
  intros (a & cols & E & _ & A). vm_compute in E. injection E as <-. pose proof (A _ ltac:(left)) as A1. pose proof (A _ ltac:(right; left)) as A2. cbn in A1, A2. congruence.
Qed.
Lemma throwing_move_refuted :
  exists tr alloc reuse left w w' x y cols c d, a_program tr alloc reuse left 2 w /\ (exists a, uses 2 w x a) /\ (exists a, uses 2 w y a) /\
    astep tr alloc reuse left (AMoveAssign x y) w = AThrow w' /\
    elements_of w x <> None /\ elements_of w' x = Some cols /\ cols !! 0 = Some c /\ cols !! 1 = Some d /\ length c <> length d.
Proof.
  exists tr_no, (only 5), (fun _ => false), none_left, (world_of tr_no (only 5) (fun _ => false) none_left two_vectors). eexists. exists 0, 1. do 3 eexists.
  split; [program two_vectors|]. split; [exists 5; use_it|]. split; [exists 7; use_it|]. split; [vm_compute; reflexivity|].
  split; [vm_compute; discriminate|]. split; [vm_compute; reflexivity|]. split; [reflexivity|]. split; [reflexivity|]. discriminate.
Qed.
