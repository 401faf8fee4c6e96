(** Properties C04, C05, C06, C09, C10, C11, C12: values. *)
From stdpp Require Import gmap list.
From Verif Require Import TypeListModel TypeListSpec AnyModel AnyInv AnyAssign AnyHistory AnyLogSpec AnyExec AnyFacts AnyFacts2
  AnySteal AnyDestroyed AnyExamples AnyRefuted.

(** ** C04 *)
Theorem C04_copy_is_equal_and_elsewhere :
  forall E w w' i j ms, env_wf E -> reachable E w -> pre E w (OCopy i j ms) -> run E (OCopy i j ms) w = Ok tt w' ->
  content w' i = content w j /\ content w' j = content w j /\ address w' j = address w j /\
  (forall p q, address w' i = Some p -> address w' j = Some q -> p <> q).
Proof. exact copy_equal. Qed.
Print Assumptions C04_copy_is_equal_and_elsewhere.

(** whatever is done afterwards without naming one of the two leaves that one at the copied value *)
Theorem C04_copy_is_independent :
  forall E w w' w'' i j ms l, env_wf E -> reachable E w -> pre E w (OCopy i j ms) -> run E (OCopy i j ms) w = Ok tt w' ->
  allowed_alloc E l w' -> exec E l w' = Ok tt w'' ->
  ((forall o, In o l -> j ∉ touches o) -> content w'' j = content w j) /\
  ((forall o, In o l -> i ∉ touches o) -> content w'' i = content w j).
Proof. exact copy_independent. Qed.
Print Assumptions C04_copy_is_independent.

Example C04_ex : let w := after tourE tour in let w' := after tourE (tour ++ [OCopy 11 0 full]) in
  reachable tourE w /\ pre tourE w (OCopy 11 0 full) /\ run tourE (OCopy 11 0 full) w = Ok tt w' /\
  content w 0 = Some (Some (1, 10)) /\ content w' 11 = Some (Some (1, 10)) /\
  address w' 0 = Some (PHeap 0) /\ address w' 11 = Some (PHeap 18) /\
  allowed_alloc tourE [OInvoke 11 0 5; OReset 11] w' /\ exists w'', exec tourE [OInvoke 11 0 5; OReset 11] w' = Ok tt w''.
Proof.
  cbv zeta. split; [apply after_reachable; by vm_compute|]. split; [apply preb_sound; by vm_compute|].
  split; [apply run_ok; by vm_compute|].
  do 4 (split; [by vm_compute|]). split; [apply allowedb_sound; by vm_compute|].
  exists (okw (exec tourE [OInvoke 11 0 5; OReset 11] (after tourE (tour ++ [OCopy 11 0 full])))). apply ok_okw. by vm_compute.
Qed.

(** ** C05 *)
Theorem C05_move_construction :
  forall E w w' i j, env_wf E -> reachable E w -> pre E w (OMove i j) -> outcome E (OMove i j) w w' ->
  run E (OMove i j) w = Ok tt w' /\ content w' i = content w j /\ is_empty w' j.
Proof. exact move_ctor_fact. Qed.
Print Assumptions C05_move_construction.

(** for all allocators, also when memory changes hands between allocators that differ *)
Theorem C05_move_assignment :
  forall E w w' i j, env_wf E -> reachable E w -> pre E w (OMoveAssign i j) -> run E (OMoveAssign i j) w = Ok tt w' ->
  if decide (i = j) then w' = w else content w' i = content w j /\ is_empty w' j.
Proof. exact move_assign_all. Qed.
Print Assumptions C05_move_assignment.

(** the value assigned over is destroyed (for every operation that discards a value) *)
Theorem C05_old_value_is_destroyed :
  forall E w w' o i x, env_wf E -> reachable E w -> pre E w o -> alloc_safe E w o -> discards o i ->
  run E o w = Ok tt w' -> contained w i = Some x -> ty_tdestr (e_ty E (o_ty x)) = false ->
  dtors_of (o_id x) (w_log w) = 0 /\ dtors_of (o_id x) (w_log w') = 1.
Proof. exact old_value_destroyed. Qed.
Print Assumptions C05_old_value_is_destroyed.

Theorem C05_swap_exchanges :
  forall E w w' i j t, env_wf E -> reachable E w -> pre E w (OSwap i j t) -> alloc_safe E w (OSwap i j t) ->
  run E (OSwap i j t) w = Ok tt w' -> content w' i = content w j /\ content w' j = content w i.
Proof. exact swap_fact. Qed.
Print Assumptions C05_swap_exchanges.

Example C05_ex : let w := after tourE tour in let w' := after tourE (tour ++ [OMoveAssign 0 4]) in
  reachable tourE w /\ pre tourE w (OMoveAssign 0 4) /\ run tourE (OMoveAssign 0 4) w = Ok tt w' /\
  content w 0 = Some (Some (1, 10)) /\ contained w 0 = Some (Obj 1 10 1) /\ contained w 4 = Some (Obj 1 10 15) /\
  contained w' 0 = Some (Obj 1 10 15) /\ discards (OMoveAssign 0 4) 0.
Proof.
  cbv zeta. split; [apply after_reachable; by vm_compute|]. split; [apply preb_sound; by vm_compute|].
  split; [apply run_ok; by vm_compute|]. by vm_compute.
Qed.
Example C05_ex_unequal : forall soos, In soos [0; 16] -> let E := mkE soos false false false [] in let w := after E two_allocs in
  let w' := after E (two_allocs ++ [OMoveAssign 1 0]) in
  reachable E w /\ pre E w (OMoveAssign 1 0) /\ run E (OMoveAssign 1 0) w = Ok tt w' /\
  content w' 1 = Some (Some (1, 10)) /\ content w' 0 = Some None.
Proof.
  intros soos [<-|[<-|[]]]; cbv zeta; (split; [apply after_reachable; by vm_compute|]); (split; [apply preb_sound; by vm_compute|]);
    (split; [apply run_ok; by vm_compute|]); by vm_compute.
Qed.
Example C05_ex_no_method : let E := mkE 0 true false false [] in let w := after E bare_tour in
  let w' := after E (bare_tour ++ [OSwap 0 2 9]) in
  reachable E w /\ pre E w (OSwap 0 2 9) /\ run E (OSwap 0 2 9) w = Ok tt w' /\
  content w 0 = Some (Some (1, 20)) /\ content w 2 = Some (Some (3, 10)) /\
  content w' 2 = Some (Some (1, 20)) /\ content w' 0 = Some (Some (3, 10)) /\
  ~ pre (mkE 16 true false false []) w (OSwap 0 2 9) /\ ~ pre (mkE 0 false false false []) w (OSwap 0 2 9).
Proof.
  cbv zeta. split; [apply after_reachable; by vm_compute|]. split; [apply preb_sound; by vm_compute|].
  split; [apply run_ok; by vm_compute|]. do 4 (split; [by vm_compute|]).
  split; intros (_ & a & _ & b & Hb & _ & H); vm_compute in Hb; injection Hb as <-; vm_compute in H; discriminate H.
Qed.

(** ** C06 *)
Theorem C06_copy_assignment :
  forall E w w' i j t, env_wf E -> reachable E w -> pre E w (OCopyAssign i j t) -> run E (OCopyAssign i j t) w = Ok tt w' ->
  content w' i = content w j /\ (j <> i -> content w' j = content w j) /\ w_any w' !! t = None.
Proof. exact copy_assign_all. Qed.
Print Assumptions C06_copy_assignment.

Example C06_ex : let w := after tourE tour in let w' := after tourE (tour ++ [OCopyAssign 1 0 9; OCopyAssign 0 0 9]) in
  reachable tourE w /\ pre tourE w (OCopyAssign 1 0 9) /\ pre tourE w (OCopyAssign 0 0 9) /\
  content w 1 = Some None /\ content w' 1 = Some (Some (1, 10)) /\ content w' 0 = Some (Some (1, 10)).
Proof.
  cbv zeta. split; [apply after_reachable; by vm_compute|]. split; [apply preb_sound; by vm_compute|]. split; [apply preb_sound; by vm_compute|]. by vm_compute.
Qed.

(** ** C09 *)
Theorem C09_emplace :
  forall E w i T s nt, env_wf E -> reachable E w -> pre E w (OEmplace i T s nt) ->
  match run E (OEmplace i T s nt) w with
  | Ok _ w' => exists v, arg_val w T s = Some v /\ content w' i = Some (Some (T, v))
  | Exn w' => is_empty w' i
  | _ => False
  end.
Proof. exact emplace_fact. Qed.
Print Assumptions C09_emplace.

(** also when an exception is thrown: the old value is destroyed, once, and other objects keep theirs *)
Theorem C09_old_value_destroyed_others_kept :
  forall E w w' i T s nt x k, env_wf E -> reachable E w -> pre E w (OEmplace i T s nt) -> outcome E (OEmplace i T s nt) w w' ->
  (contained w i = Some x -> ty_tdestr (e_ty E (o_ty x)) = false ->
     dtors_of (o_id x) (w_log w) = 0 /\ dtors_of (o_id x) (w_log w') = 1) /\
  (k <> i -> content w' k = content w k /\ address w' k = address w k).
Proof. exact emplace_destroys. Qed.
Print Assumptions C09_old_value_destroyed_others_kept.

(** construction from a value, and where the value goes *)
Theorem C09_construction :
  forall E w i al ms T s nt, env_wf E -> reachable E w -> pre E w (OValue i al ms T s nt) ->
  match run E (OValue i al ms T s nt) w with
  | Ok _ w' => (exists v, arg_val w T s = Some v /\ content w' i = Some (Some (T, v))) /\
      (if fits E T then address w' i = Some (PData i) /\ allocs w' = allocs w
       else (exists b, address w' i = Some (PHeap b)) /\ allocs w' = S (allocs w))
  | Exn w' => fits E T && nt = false
  | _ => False
  end.
Proof. exact value_ctor_fact. Qed.
Print Assumptions C09_construction.

(** after an exception the any can be used again, and nothing is lost: the state is again a reachable one *)
Theorem C09_usable_after_exception :
  forall E w o w', reachable E w -> pre E w o -> alloc_safe E w o -> outcome E o w w' -> reachable E w'.
Proof. exact reachable_outcome. Qed.
Print Assumptions C09_usable_after_exception.

Example C09_ex : let l := [OValue 0 0 full 1 (AVal 10) false] in let w := after failE l in
  let o := OEmplace 0 3 (AVal 7) false in let w' := after failE (l ++ [o]) in
  reachable failE w /\ pre failE w o /\ run failE o w = Exn w' /\ content w' 0 = Some None /\
  pre failE w' o /\ run failE o w' = Ok tt (after failE ((l ++ [o]) ++ [o])) /\
  content (after failE ((l ++ [o]) ++ [o])) 0 = Some (Some (3, 7)).
Proof.
  cbv zeta. split; [apply after_reachable; by vm_compute|]. split; [apply preb_sound; by vm_compute|].
  split; [apply run_exn; by vm_compute|]. split; [by vm_compute|]. split; [apply preb_sound; by vm_compute|].
  split; [apply run_ok; by vm_compute|]. by vm_compute.
Qed.

(** ** C10 *)
Theorem C10_reset :
  forall E w i, env_wf E -> reachable E w -> pre E w (OReset i) ->
  exists w', run E (OReset i) w = Ok tt w' /\ is_empty w' i /\ (forall b, ~ owns w' i b) /\ w_tick w' = w_tick w.
Proof. exact reset_fact. Qed.
Print Assumptions C10_reset.
Theorem C10_reset_idempotent :
  forall E w w' i, env_wf E -> reachable E w -> pre E w (OReset i) -> run E (OReset i) w = Ok tt w' -> run E (OReset i) w' = Ok tt w'.
Proof. exact reset_idem. Qed.
Print Assumptions C10_reset_idempotent.

Theorem C10_destroy_value :
  forall E w i, env_wf E -> reachable E w -> pre E w (ODestroy i) ->
  exists w', run E (ODestroy i) w = Ok tt w' /\ is_empty w' i /\ (forall b, owns w' i b <-> owns w i b) /\ w_tick w' = w_tick w /\
    capacity E i w' = match capacity E i w with Ok n _ => Ok n w' | _ => UB UbInactiveSize end.
Proof. exact destroy_fact. Qed.
Print Assumptions C10_destroy_value.
Theorem C10_destroy_value_idempotent :
  forall E w w' i, env_wf E -> reachable E w -> pre E w (ODestroy i) -> run E (ODestroy i) w = Ok tt w' -> run E (ODestroy i) w' = Ok tt w'.
Proof. exact destroy_idem. Qed.
Print Assumptions C10_destroy_value_idempotent.

Example C10_ex : let w := after tourE tour in reachable tourE w /\ pre tourE w (OReset 4) /\ pre tourE w (ODestroy 4) /\
  content w 4 = Some (Some (1, 10)) /\ owns w 4 14.
Proof.
  cbv zeta. split; [apply after_reachable; by vm_compute|]. split; [apply preb_sound; by vm_compute|]. split; [apply preb_sound; by vm_compute|].
  split; [by vm_compute|]. eexists. by vm_compute.
Qed.

(** ** C11 *)
Theorem C11_replace_with_bytes :
  forall E w i n, env_wf E -> reachable E w -> pre E w (OReplace i n) ->
  match run E (OReplace i n) w with
  | Ok _ w' => is_empty w' i /\ exists c, capacity E i w' = Ok c w' /\ n <= c
  | Exn w' => is_empty w' i /\ (forall b, owns w' i b <-> owns w i b)
  | _ => False
  end.
Proof. exact replace_fact. Qed.
Print Assumptions C11_replace_with_bytes.

Theorem C11_then_emplace_does_not_allocate :
  forall E w w' i n b T s nt, env_wf E -> reachable E w -> pre E w (OReplace i n) -> run E (OReplace i n) w = Ok tt w' ->
  owns w' i b -> ty_size (e_ty E T) <= n -> pre E w' (OEmplace i T s nt) ->
  match run E (OEmplace i T s nt) w' with
  | Ok _ w'' => allocs w'' = allocs w' /\ address w'' i = Some (PHeap b)
  | Exn _ => True
  | _ => False
  end.
Proof. exact replace_then_emplace. Qed.
Print Assumptions C11_then_emplace_does_not_allocate.

Example C11_ex : let w := after tourE tour in let w' := after tourE (tour ++ [OReplace 1 40]) in
  reachable tourE w /\ pre tourE w (OReplace 1 40) /\ run tourE (OReplace 1 40) w = Ok tt w' /\ owns w' 1 18 /\
  pre tourE w' (OEmplace 1 1 (AFrom 0) false) /\ val_of (capacity tourE 1 w') = Some 40.
Proof.
  cbv zeta. split; [apply after_reachable; by vm_compute|]. split; [apply preb_sound; by vm_compute|]. split; [apply run_ok; by vm_compute|].
  split; [eexists; by vm_compute|]. split; [apply preb_sound; vm_compute; reflexivity|]. vm_compute; reflexivity.
Qed.

(** ** C12 *)
Theorem C12_sizeof_now :
  forall E w i c, env_wf E -> reachable E w -> content w i = Some c ->
  exists n, sizeof_now E i w = Ok n w /\
    match c with
    | None => n = 0
    | Some (T, _) => ty_size (e_ty E T) <= n /\ capacity E i w = Ok n w
    end.
Proof. exact sizeof_now_fact. Qed.
Print Assumptions C12_sizeof_now.

Theorem C12_capacity :
  forall E w i, env_wf E -> reachable E w -> is_Some (w_any w !! i) ->
  exists n, capacity E i w = Ok n w /\
    (forall b, owns w i b -> exists x, w_heap w !! b = Some x /\ n = b_size x) /\
    ((forall b, ~ owns w i b) -> n = e_soos E).
Proof. exact capacity_fact. Qed.
Print Assumptions C12_capacity.

Example C12_ex : let w := after tourE tour in reachable tourE w /\
  val_of (sizeof_now tourE 0 w) = Some 32 /\ val_of (sizeof_now tourE 5 w) = Some 16 /\ val_of (sizeof_now tourE 3 w) = Some 0 /\
  val_of (capacity tourE 3 w) = Some 32.
Proof. cbv zeta. split; [apply after_reachable; by vm_compute|]. by vm_compute. Qed.
