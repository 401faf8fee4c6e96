(** Property C94: programs that use different anys do not influence each other. *)
From stdpp Require Import gmap list.
From Verif Require Import TypeListModel TypeListSpec AnyModel AnyInv AnyHistory AnyExec AnyFacts AnyExamples AnyLocalSpec AnyLocalExamples AnyLocal.

(** Two memories (reachable or not) that agree on the anys [S] and the references [R], up to addresses: a program that names only these
    behaves the same in both, whatever else the memories hold, and leaves memories that agree. *)
Theorem C94_depends_only_on_what_it_names :
  forall E l S R β w1 w2, alike S R β w1 w2 -> stays_in S R S R l ->
  match trace E l w1, trace E l w2 with
  | Ok t1 w1', Ok t2 w2' => t1 = t2 /\ exists β' : addresses, (forall b b', β b b' -> β' b b') /\ alike S R β' w1' w2'
  | UB r, UB r' => r = r'
  | Term, Term => True
  | _, _ => False
  end.
Proof. intros E l S R β w1 w2. exact (depends_only S R β E l w1 w2). Qed.
Print Assumptions C94_depends_only_on_what_it_names.

(** Two programs, neither of which changes what the other names; both may read the same anys.  If each runs on its own from [w], every
    interleaving runs: the same operations throw, each constructs, destroys, allocates and frees the same, and the anys of each are as
    if the other had not run.  Anys that neither changes are left as they were. *)
Theorem C94_interleavings :
  forall E w S1 R1 W1 X1 S2 R2 W2 X2 l1 l2 s l t1 t2 w1 w2,
  env_wf E -> reachable E w -> W1 ⊆ S1 -> X1 ⊆ R1 -> W2 ⊆ S2 -> X2 ⊆ R2 ->
  stays_in S1 R1 W1 X1 l1 -> stays_in S2 R2 W2 X2 l2 -> W1 ## S2 -> W2 ## S1 -> X1 ## R2 -> X2 ## R1 ->
  refs_within S1 R1 w -> refs_within S2 R2 w -> interleaved l1 l2 s l ->
  trace E l1 w = Ok t1 w1 -> trace E l2 w = Ok t2 w2 ->
  exists t w', trace E l w = Ok t w' /\ interleaved t1 t2 s t /\
    (exists β, alike S1 R1 β w1 w') /\ (exists β, alike S2 R2 β w2 w') /\
    (forall i, i ∉ W1 ∪ W2 -> w_any w' !! i = w_any w !! i /\ forall b, owns w i b -> w_heap w' !! b = w_heap w !! b).
Proof. exact interleavings. Qed.
Print Assumptions C94_interleavings.

(** memories that are alike hold the same values *)
Theorem C94_alike_means_same_values :
  forall S R β w w' i, alike S R β w w' -> i ∈ S -> content w i = content w' i.
Proof. exact alike_content. Qed.
Print Assumptions C94_alike_means_same_values.

Example C94_ex_alike : alike {[1; 2]} ∅ (fun b b' => b = 0 /\ b' = 2) alone crowded /\ stays_in {[1; 2]} ∅ {[1; 2]} ∅ any_one /\
  address alone 1 = Some (PHeap 0) /\ address crowded 1 = Some (PHeap 2) /\
  val_of (trace tourE any_one alone) = Some [(true, []); (false, [DCtor 1; DAlloc 0 32]); (false, [DFree 0 32; DDtor 1])] /\
  val_of (trace tourE any_one crowded) = val_of (trace tourE any_one alone).
Proof.
  split; [exact alone_crowded|]. split; [apply stays_inb_sound; by vm_compute|]. by vm_compute.
Qed.
Example C94_ex : let w := after tourE tour in exists l,
  reachable tourE w /\ stays_in S_one {[0; 1]} W_one {[0; 1]} one /\ stays_in S_two ∅ W_two ∅ two /\
  W_one ## S_two /\ W_two ## S_one /\ refs_within S_one {[0; 1]} w /\ refs_within S_two ∅ w /\ interleaved one two turns l /\
  (map fst <$> val_of (trace tourE one w)) = Some [false; true; false; false; false; false; false; false; false; true] /\
  (map fst <$> val_of (trace tourE two w)) = Some [false; false; true; false; false; false] /\
  (map fst <$> val_of (trace tourE l w)) =
    Some [false; false; false; true; false; true; false; false; false; false; false; false; false; false; false; true].
Proof.
  cbv zeta. exists interleaving. split; [apply after_reachable; by vm_compute|]. split; [apply stays_inb_sound; by vm_compute|].
  split; [apply stays_inb_sound; by vm_compute|]. split; [apply (bool_decide_unpack _); by vm_compute|].
  split; [apply (bool_decide_unpack _); by vm_compute|]. split; [apply refs_withinb_sound; by vm_compute|].
  split; [apply refs_withinb_sound; by vm_compute|]. split; [apply merge_interleaved; reflexivity|]. by vm_compute.
Qed.
