(** Properties of the allocators of data_parallel_vector. *)
From stdpp Require Import gmap list.
From Verif Require Import AnyModel DpvModel DpvAllocModel DpvAllocSpec DpvAllocProofs DpvAllocExamples DpvAllocMore.

(** C70: the columns of a vector use one allocator, and after every statement of every program it is the allocator std::vector would use: the one
    given, select_on_container_copy_construction of the source's, the source's, or, on assignment and swap, as the propagation traits say.  Partial:
    [assign] must keep the allocator (see the refutation), and a copy assignment that propagates allocators must not throw. *)
Theorem C70_allocators_partial :
  forall tr alloc reuse left N w g, a_history tr alloc reuse left N w g ->
  forall x, (forall a, g !! x = Some a -> uses N w x a) /\ (g !! x = None -> aw_vecs w !! x = None).
Proof. exact history_tracks. Qed.
Print Assumptions C70_allocators_partial.
Example C70_case :
  exists w, a_history tr_all yes yes none_left 2 w (aspec tr_all (ASwap 0 2) (aspec tr_all (ACopy 2 1) (aspec tr_all (ANew 1 [[3]; [30]] 7) (aspec tr_all (ANew 0 [[1; 2]; [10; 20]] 5) ∅)))) /\
  uses 2 w 0 8 /\ uses 2 w 2 5.
Proof.
  eexists. split.
  - eapply ah_step; [eapply ah_step; [eapply ah_step; [eapply ah_step; [constructor|..]|..]|..]|..]; vm_compute; reflexivity || exact I.
  - split; eexists; (split; [vm_compute; reflexivity|]); (split; [reflexivity|]); intros c Hc; repeat (apply elem_of_cons in Hc as [->|Hc]; [reflexivity|]); by apply elem_of_nil in Hc.
Qed.

(** C70: assign and operator= from a list move from a temporary made with allocator_type(): if allocators propagate on move assignment the vector's
    own allocator is replaced by that one, and without a default constructor of the allocator the call does not compile.  (vector::assign keeps it.) *)
Theorem C70_assign_refuted :
  (exists tr alloc reuse left w w' x a els, a_program tr alloc reuse left 2 w /\ length els = 2 /\ uses 2 w x a /\
    astep tr alloc reuse left (AAssign x els) w = AOk w' /\ ~ uses 2 w' x a) /\
  (exists tr alloc reuse left w x a els, a_program tr alloc reuse left 2 w /\ length els = 2 /\ uses 2 w x a /\
    astep tr alloc reuse left (AAssign x els) w = ABad UbIllFormed).
Proof. exact assign_refuted. Qed.
Print Assumptions C70_assign_refuted.

(** C70: a copy assignment that propagates allocators and throws leaves columns with different allocators. *)
Theorem C70_throwing_copy_refuted :
  exists tr alloc reuse left w w' x y, a_program tr alloc reuse left 2 w /\ (exists a, uses 2 w x a) /\ (exists a, uses 2 w y a) /\
    astep tr alloc reuse left (ACopyAssign x y) w = AThrow w' /\ (exists cols, aw_vecs w' !! x = Some cols /\ length cols = 2) /\
    ~ exists a, uses 2 w' x a.
Proof. exact throwing_copy_refuted. Qed.
Print Assumptions C70_throwing_copy_refuted.

(** C70: whatever the allocators, a statement that returns leaves in its target the elements it should, and every vector other than the target and
    the one moved or swapped from is as it was, the source of a copy included; also if the statement throws.  A constructor that throws makes nothing. *)
Theorem C70_elements :
  forall tr alloc reuse left N o w, aop_wf N o ->
  (forall w', astep tr alloc reuse left o w = AOk w' -> elements_of w' (target o) = expected o w) /\
  (forall w' z, astep tr alloc reuse left o w = AOk w' \/ astep tr alloc reuse left o w = AThrow w' ->
    z <> target o -> taken o <> Some z -> aw_vecs w' !! z = aw_vecs w !! z) /\
  (forall w', constructs o -> astep tr alloc reuse left o w = AThrow w' -> aw_vecs w' !! target o = aw_vecs w !! target o).
Proof. exact elements_theorem. Qed.
Print Assumptions C70_elements.
Example C70_elements_case :
  elements_of (world_of tr_no yes yes none_left (two_vectors ++ [ACopy 2 0; AMoveAssign 0 1; AAssign 1 [[8; 9]; [80; 90]]])) 0 = Some [[3]; [30]] /\
  elements_of (world_of tr_no yes yes none_left (two_vectors ++ [ACopy 2 0; AMoveAssign 0 1; AAssign 1 [[8; 9]; [80; 90]]])) 2 = Some [[1; 2]; [10; 20]].
Proof. split; vm_compute; reflexivity. Qed.

(** C70: in every program, exceptions included, each piece of storage belongs to one column only, and the allocator that column will use to free it is
    the one it was allocated with. *)
Theorem C70_storage_freed_by_its_allocator :
  forall tr alloc reuse left N w, a_program tr alloc reuse left N w ->
  (forall x j b a, holds_storage w x j b a -> exists cols c, aw_vecs w !! x = Some cols /\ cols !! j = Some c /\ c_al c = a) /\
  (forall x y i j b a a', holds_storage w x i b a -> holds_storage w y j b a' -> x = y /\ i = j).
Proof. exact storage_ok. Qed.
Print Assumptions C70_storage_freed_by_its_allocator.
Example C70_storage_case :
  a_program tr_all yes yes none_left 2 (world_of tr_all yes yes none_left (two_vectors ++ [AMoveAssign 0 1])) /\
  holds_storage (world_of tr_all yes yes none_left (two_vectors ++ [AMoveAssign 0 1])) 0 1 3 7.
Proof.
  split; [|do 2 eexists; split; [vm_compute; reflexivity|split; vm_compute; reflexivity]].
  eapply (run_program _ _ _ _ _ (two_vectors ++ [AMoveAssign 0 1])); [constructor|repeat constructor|vm_compute; reflexivity].
Qed.

(** C71: the move constructor never throws, allocates nothing, gives the new vector the storage of the other and leaves that one without elements in
    every column; so do move assignment, if allocators propagate or are equal, and the constructor with an allocator, if it is equal to that of the
    source.  swap exchanges the vectors if allocators propagate or are equal. *)
Theorem C71_moves_storage :
  forall tr alloc reuse left N w x y, x <> y ->
  (is_Some (aw_vecs w !! y) -> exists w', astep tr alloc reuse left (AMove x y) w = AOk w' /\ storage_moved w w' x y /\ aw_next w' = aw_next w) /\
  (forall a, uses N w y a -> exists w', astep tr alloc reuse left (AMoveWith x y a) w = AOk w' /\ storage_moved w w' x y /\ aw_next w' = aw_next w) /\
  (forall a b, uses N w x a -> uses N w y b -> pocma tr = true \/ a = b ->
    exists w', astep tr alloc reuse left (AMoveAssign x y) w = AOk w' /\ storage_moved w w' x y /\ aw_next w' = aw_next w) /\
  (forall a b, uses N w x a -> uses N w y b -> pocs tr = true \/ a = b ->
    exists w', astep tr alloc reuse left (ASwap x y) w = AOk w' /\ aw_vecs w' !! x = aw_vecs w !! y /\ aw_vecs w' !! y = aw_vecs w !! x /\ aw_next w' = aw_next w).
Proof. exact moves_theorem. Qed.
Print Assumptions C71_moves_storage.
Example C71_case :
  let w := world_of tr_all yes yes none_left two_vectors in uses 2 w 0 5 /\ uses 2 w 1 7 /\ pocma tr_all = true /\ pocs tr_all = true.
Proof.
  split; [|split; [|split; reflexivity]]; eexists; (split; [vm_compute; reflexivity|]); (split; [reflexivity|]); intros c Hc;
    repeat (apply elem_of_cons in Hc as [->|Hc]; [reflexivity|]); by apply elem_of_nil in Hc.
Qed.

(** C71: otherwise the elements are moved one by one: the source keeps its storage. *)
Theorem C71_unequal_allocators :
  forall tr alloc reuse left N w w' x y a b, uses N w y b -> a <> b ->
  astep tr alloc reuse left (AMoveWith x y a) w = AOk w' \/ (uses N w x a /\ pocma tr = false /\ astep tr alloc reuse left (AMoveAssign x y) w = AOk w') ->
  forall j i c, holds_storage w y j i c -> holds_storage w' y j i c.
Proof. exact unequal_theorem. Qed.
Print Assumptions C71_unequal_allocators.
Example C71_unequal_case :
  let w := world_of tr_no yes yes none_left two_vectors in
  (exists w', astep tr_no yes yes none_left (AMoveAssign 0 1) w = AOk w' /\ elements_of w' 0 = Some [[3]; [30]] /\ holds_storage w' 1 0 2 7) /\ holds_storage w 1 0 2 7.
Proof. split; [eexists; split; [vm_compute; reflexivity|split; [vm_compute; reflexivity|]]|]; do 2 eexists; (split; [vm_compute; reflexivity|split; vm_compute; reflexivity]). Qed.

(** C71: such a move throws if an allocation fails, and the vector assigned to is left with columns of different lengths: it is not destroyed
    but no longer a vector of rows.  (std::vector of rows would be left with one length, whatever it is.) *)
Theorem C71_throwing_move_refuted :
  exists tr alloc reuse left w w' x y cols c d, a_program tr alloc reuse left 2 w /\ (exists a, uses 2 w x a) /\ (exists a, uses 2 w y a) /\
    astep tr alloc reuse left (AMoveAssign x y) w = AThrow w' /\
    elements_of w x <> None /\ elements_of w' x = Some cols /\ cols !! 0 = Some c /\ cols !! 1 = Some d /\ length c <> length d.
Proof. exact throwing_move_refuted. Qed.
Print Assumptions C71_throwing_move_refuted.
