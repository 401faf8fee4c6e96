(** Properties C16, C17: allocators and conversions between interfaces. *)
From stdpp Require Import gmap list.
From Verif Require Import TypeListModel TypeListSpec AnyModel AnyInv AnyAssign AnyHistory AnyLogSpec AnyExec AnyFacts AnyFacts2
  AnySteal AnyDestroyed AnyExamples AnyRefuted.

(** ** C16 *)
(** Full statement: for every program meeting the callers' obligations, whatever the traits and the buffer.
    It fails in two situations: no buffer and allocators that differ and do not propagate, and converting
    moves.  Proved: programs with a buffer and without converting moves, for all traits and allocators ... *)
Theorem C16_with_buffer_partial :
  forall E l w, env_wf E -> e_soos E <> 0 -> forallb (fun o => negb (converting_move o)) l = true ->
  allowed E l init_world ->
  (forall r, exec E l init_world <> UB r) /\
  (exec E l init_world = Ok tt w -> exists m, blocks (fun a b => alloc_eqb E a b = true) (w_log w) m).
Proof. exact buffer_blocks. Qed.
Print Assumptions C16_with_buffer_partial.
(** ... and all programs in which no operation takes over memory of an unequal allocator. *)
Theorem C16_compatible_programs_partial :
  forall E l w, env_wf E -> allowed_alloc E l init_world ->
  (forall r, exec E l init_world <> UB r) /\
  (exec E l init_world = Ok tt w -> exists m, blocks (fun a b => alloc_eqb E a b = true) (w_log w) m).
Proof. exact safe_blocks. Qed.
Print Assumptions C16_compatible_programs_partial.

Theorem C16_no_buffer_wrong_allocator_refuted :
  exists E l, env_wf E /\ allowed E l init_world /\ e_soos E = 0 /\ exec E l init_world = UB UbWrongAllocator.
Proof. exact wrong_allocator_no_buffer. Qed.
Print Assumptions C16_no_buffer_wrong_allocator_refuted.
Theorem C16_no_buffer_copy_assignment_refuted :
  exists E l, env_wf E /\ allowed E l init_world /\ e_soos E = 0 /\
  (forall o, In o l -> match o with OMoveAssign _ _ | OTransMove _ _ _ => False | _ => True end) /\
  exec E l init_world = UB UbWrongAllocator.
Proof. exact wrong_allocator_copy_assign. Qed.
Print Assumptions C16_no_buffer_copy_assignment_refuted.

Example C16_ex : forall pocma pocca, let E := mkE 16 false pocma pocca [] in
  forallb (fun o => negb (converting_move o)) alloc_tour = true /\ allowed E alloc_tour init_world /\
  is_ok (exec E alloc_tour init_world) = true /\ 5 <= count is_free (w_log (after E alloc_tour)).
Proof.
  intros [] []; cbv zeta; (split; [done|]); (split; [apply legalb_sound; by vm_compute|]); (split; [by vm_compute|]); apply Nat.leb_le; by vm_compute.
Qed.

(** ** C17 *)
Theorem C17_converting_copy :
  forall E w w' i j ms T x m, env_wf E -> reachable E w -> pre E w (OCopy i j ms) -> run E (OCopy i j ms) w = Ok tt w' ->
  content w j = Some (Some (T, x)) -> In m ms ->
  content w' i = Some (Some (T, x)) /\ content w' j = Some (Some (T, x)) /\ any_slot i m w' = Ok T w'.
Proof. exact convert_copy. Qed.
Print Assumptions C17_converting_copy.
(** Full statement: without [alloc_safe].  The new any default-constructs its allocator but takes over the
    memory, so it is proved when that does not matter. *)
Theorem C17_converting_move_partial :
  forall E w w' i j ms T x m, env_wf E -> reachable E w -> pre E w (OTransMove i j ms) -> alloc_safe E w (OTransMove i j ms) ->
  run E (OTransMove i j ms) w = Ok tt w' -> content w j = Some (Some (T, x)) -> In m ms ->
  content w' i = Some (Some (T, x)) /\ is_empty w' j /\ any_slot i m w' = Ok T w'.
Proof. exact convert_move. Qed.
Print Assumptions C17_converting_move_partial.
Theorem C17_converting_move_wrong_allocator_refuted :
  exists E l i j ms, env_wf E /\ allowed E l init_world /\ e_soos E = 16 /\
  In (OTransMove i j ms) l /\ exec E l init_world = UB UbWrongAllocator.
Proof. exact wrong_allocator_conversion. Qed.
Print Assumptions C17_converting_move_wrong_allocator_refuted.

Example C17_ex : let w := after tourE tour in reachable tourE w /\ pre tourE w (OCopy 11 0 part) /\
  is_ok (run tourE (OCopy 11 0 part) w) = true /\ content w 0 = Some (Some (1, 10)) /\ In MTypeInfo part /\ length part < length full.
Proof.
  cbv zeta. split; [apply after_reachable; by vm_compute|]. split; [apply preb_sound; by vm_compute|].
  do 2 (split; [by vm_compute|]). split; [cbn; tauto|cbn; lia].
Qed.
Example C17_ex_move : let w := after tourE tour in let w' := after tourE (tour ++ [OTransMove 11 0 part]) in
  pre tourE w (OTransMove 11 0 part) /\ alloc_safe tourE w (OTransMove 11 0 part) /\
  run tourE (OTransMove 11 0 part) w = Ok tt w' /\ val_of (any_slot 11 MTypeInfo w') = Some 1.
Proof.
  cbv zeta. split; [apply preb_sound; by vm_compute|]. split; [apply alloc_safeb_sound; by vm_compute|].
  split; [apply run_ok; by vm_compute|]. by vm_compute.
Qed.
