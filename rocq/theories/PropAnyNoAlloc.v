(** Property C80: programs that never allocate. *)
From stdpp Require Import gmap list.
From Verif Require Import TypeListModel AnyModel AnyInv AnyHistory AnyExec AnyNoAllocSpec AnyNoAlloc AnyExamples AnyNoAllocExamples.

(** whatever else the program does (it may even copy, swap, convert, be interrupted by exceptions anywhere), if only small
    types are put into anys the allocator is not used: no allocation and no deallocation *)
Theorem C80_small_values_never_touch_the_allocator :
  forall E l w, Forall (small_op E) l -> exec E l init_world = Ok tt w -> ~ touched_allocator (w_log w).
Proof. exact no_alloc. Qed.
Print Assumptions C80_small_values_never_touch_the_allocator.

(** every value is inside its any, so is_stable_pointers() is false for all of them *)
Theorem C80_values_stay_in_the_buffers :
  forall E l w, Forall (small_op E) l -> exec E l init_world = Ok tt w ->
  w_heap w = ∅ /\ forall i a, w_any w !! i = Some a -> a_vp a = PData i.
Proof. exact all_in_buffer. Qed.
Print Assumptions C80_values_stay_in_the_buffers.

(** the allocator is not even asked: if the code of the stored types does not throw, then no operation throws, also with an
    allocator all of whose allocations fail *)
Theorem C80_allocator_is_not_asked :
  forall E l o w w', Forall (small_op E) (o :: l) -> Forall (quiet_op E) (o :: l) -> exec E l init_world = Ok tt w ->
  run E o w <> Exn w'.
Proof. exact never_throws. Qed.
Print Assumptions C80_allocator_is_not_asked.

(** with an allocator without state (as unreachable_allocator) every such program runs to its end *)
Theorem C80_such_programs_run :
  forall E l, env_wf E -> e_always_eq E = true -> allowed E l init_world -> Forall (small_op E) l ->
  exists w, exec E l init_world = Ok tt w.
Proof. exact runs_to_the_end. Qed.
Print Assumptions C80_such_programs_run.

(** 15 operations on up to seven anys with an allocator that always fails; two operations fail because a copy throws *)
Example C80_ex :
  env_wf noMemE /\ e_always_eq noMemE = true /\ allowed noMemE small_tour init_world /\ Forall (small_op noMemE) small_tour /\
  exec noMemE small_tour init_world = Ok tt (after noMemE small_tour) /\
  size (w_any (after noMemE small_tour)) = 7 /\ length (w_log (after noMemE small_tour)) = 18.
Proof.
  split; [apply noMemE_wf|]. split; [done|]. split; [apply legalb_sound; by vm_compute|]. split; [apply small_opb_sound; by vm_compute|].
  split; [apply exec_after; by vm_compute|]. split; by vm_compute.
Qed.
(** the same allocator stops the first operation that needs memory *)
Example C80_other_ex : let w := after noMemE small_tour in
  is_exn (run noMemE (OValue 20 0 full 1 (AVal 1) true) w) = true /\ is_exn (run noMemE (OReplace 0 17) w) = true /\
  ~ small noMemE 1 /\ Forall (small_op noMemE) quiet_tour /\ Forall (quiet_op noMemE) quiet_tour /\
  is_ok (exec noMemE quiet_tour init_world) = true.
Proof.
  cbv zeta. split; [by vm_compute|]. split; [by vm_compute|]. split; [intros (H & _); cbn in H; lia|].
  split; [apply small_opb_sound; by vm_compute|]. split; [apply quiet_opb_sound; by vm_compute|]. by vm_compute.
Qed.
