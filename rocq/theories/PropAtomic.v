(** Property C108: std::atomic<poly_ptr<Methods...>> shared by threads. *)
From stdpp Require Import gmap list.
From Verif Require Import AnyModel AnyInv AnyHistory AnyFacts DescModel DescSpec PolyModel PolySpec PolyExamples RebindModel RebindSpec
  AtomicModel AtomicSpec AtomicProofs AtomicWeak AtomicExamples.

(** ** C108 *)
Theorem C108_only_whole_pointers_are_read :
  forall (P : words -> Prop) s v ts, P v -> Forall (keeps P) ts ->
  P (fst (run s v ts)) /\ forall i ok b, snd (run s v ts) !! i = Some (TDone ok b) -> P b.
Proof. exact pointers_whole. Qed.
Print Assumptions C108_only_whole_pointers_are_read.
(** compare_exchange that succeeds found a pointer to the expected object with the expected table, or null *)
Theorem C108_compare_exchange_partial :
  forall w k ms v e d dv de v' ok r, is_ptr k = true -> ms <> [] -> points w k ms v dv -> points w k ms e de ->
  tstep v (TCas e d TDone) = Some (v', TDone ok r) ->
  (ok = true -> dv = de /\ v' = d) /\ (ok = false -> v' = v /\ r = v /\ v <> e).
Proof. exact cas_sound. Qed.
Print Assumptions C108_compare_exchange_partial.
(** but one that fails may have found a pointer equal to the expected one *)
Theorem C108_compare_exchange_is_not_equality_refuted :
  exists E O w o st o' p q d, env_wf E /\ obs_wf O /\ reachable E w /\
    bindM (start O o) (run_steps O st) w = Ok (CView p) w /\ start O o' w = Ok (CView q) w /\
    points w KPtr duo (words_of p) (Some d) /\ points w KPtr duo (words_of q) (Some d) /\ ptr_eq O p q w = Ok true w /\
    forall b, tstep (words_of p) (TCas (words_of q) b TDone) = Some (words_of p, TDone false (words_of p)).
Proof. exact cas_refuted. Qed.
Print Assumptions C108_compare_exchange_is_not_equality_refuted.
(** of the threads that install a pointer where there is nullptr exactly one succeeds, the others get its pointer *)
Theorem C108_one_thread_installs :
  forall w k ms s ps, Forall (fun b => exists d, points w k ms b (Some d)) ps -> ps <> [] ->
  (forall i, i < length ps -> 0 < length (filter (fun j => j = i) s)) ->
  let r := run s null_words (map install ps) in
  exists i p, ps !! i = Some p /\ fst r = p /\ snd r !! i = Some (TDone true p) /\
    forall j, j < length ps -> j <> i -> snd r !! j = Some (TDone false p).
Proof. exact install_fair. Qed.
Print Assumptions C108_one_thread_installs.
(** none does when the null pointer was made from a null pointer to an object *)
Theorem C108_one_thread_installs_into_any_null_refuted :
  exists O w o p ps, start O o w = Ok (CView p) w /\ points w KPtr duo (words_of p) None /\ ps <> [] /\
    Forall (fun b => exists d, points w KPtr duo b (Some d)) ps /\
    forall s, let r := run s (words_of p) (map install ps) in
      points w KPtr duo (fst r) None /\ forall i t, snd r !! i = Some t -> ~ succeeded t.
Proof. exact install_refuted. Qed.
Print Assumptions C108_one_thread_installs_into_any_null_refuted.
(** threads updating the pointer in loops of compare_exchange: each is done after at most as many attempts as there are
    threads, and they act one after the other *)
Theorem C108_updates_are_serial :
  forall s v fs n, length fs <= n -> (forall i, i < length fs -> n < length (filter (fun j => j = i) s)) ->
  let r := run s v (map (update n) fs) in
  exists order, order ≡ₚ seq 0 (length fs) /\ fst r = in_turn fs order v /\
    forall i, i < length fs -> exists before after, order = before ++ i :: after /\ snd r !! i = Some (TDone true (in_turn fs before v)).
Proof. exact update_fair. Qed.
Print Assumptions C108_updates_are_serial.
(** the same with compare_exchange_weak, whose attempts may fail spuriously: those that succeeded did so one after the other *)
Theorem C108_weak_successes_are_serial :
  forall s v ps, let fs := map fst ps in let r := run s v (map (fun p => update_weak (snd p) (fst p)) ps) in
  exists order, NoDup order /\ fst r = in_turn fs order v /\
    (forall i, In i order <-> exists t, snd r !! i = Some t /\ succeeded t) /\
    forall i e, snd r !! i = Some (TDone true e) -> exists before after, order = before ++ i :: after /\ e = in_turn fs before v.
Proof. exact weak_serial. Qed.
Print Assumptions C108_weak_successes_are_serial.
(** and all of them did when each has as many attempts that are not spurious as there are threads *)
Theorem C108_weak_updates_are_serial :
  forall s v ps, Forall (fun p => length ps <= real (snd p)) ps ->
  (forall i p, ps !! i = Some p -> length (snd p) < length (filter (fun j => j = i) s)) ->
  let fs := map fst ps in let r := run s v (map (fun p => update_weak (snd p) (fst p)) ps) in
  exists order, order ≡ₚ seq 0 (length ps) /\ fst r = in_turn fs order v /\
    forall i, i < length ps -> exists before after, order = before ++ i :: after /\ snd r !! i = Some (TDone true (in_turn fs before v)).
Proof. exact weak_fair. Qed.
Print Assumptions C108_weak_updates_are_serial.
(** pointers handed over by exchange are neither lost nor received twice *)
Theorem C108_exchange_hands_over :
  forall s v ps, (forall i, i < length ps -> 0 < length (filter (fun j => j = i) s)) ->
  let r := run s v (map hand_over ps) in exists qs, snd r = map (TDone true) qs /\ fst r :: qs ≡ₚ v :: ps.
Proof. exact exchange_fair. Qed.
Print Assumptions C108_exchange_hands_over.

Example C108_ex_read : Forall (fun b => exists d, points obs_w KPtr duo b d) (null_words :: trio) /\
  Forall (keeps (fun b => exists d, points obs_w KPtr duo b d)) [install (words_of from_any); TStore (words_of other_object) (TLoad (TDone true))].
Proof.
  split.
  - repeat constructor; eexists; [apply points_null|apply points_object|apply points_other|apply points_any].
  - repeat constructor; try (intros b Hb; exact Hb); eexists; first [apply points_any|apply points_other|apply points_null].
Qed.
Example C108_ex_cas : points obs_w KPtr duo (words_of from_any) (Some (1, PHeap 0)) /\ points obs_w KPtr duo (words_of other_object) (Some (5, PHeap 1)) /\
  tstep (words_of from_any) (TCas (words_of from_any) null_words TDone) = Some (null_words, TDone true (words_of from_any)) /\
  tstep (words_of from_any) (TCas (words_of other_object) null_words TDone) = Some (words_of from_any, TDone false (words_of from_any)).
Proof. split; [apply points_any|]. split; [apply points_other|]. by split. Qed.
Example C108_ex_install :
  map (fun i => length (filter (fun j => j = i) inst_sched)) [0; 1; 2] = [1; 2; 1] /\
  map finished (snd (run inst_sched null_words (map install trio))) =
    [Some (false, words_of other_object); Some (true, words_of other_object); Some (false, words_of other_object)].
Proof. by vm_compute. Qed.
(** the second thread is first, then the first, then the third; the order of the first two matters *)
Example C108_ex_update : let fs := [next_ptr; back_ptr; next_ptr] in let r := run upd_sched (words_of from_object) (map (update 3) fs) in
  map (fun i => length (filter (fun j => j = i) upd_sched)) [0; 1; 2] = [4; 4; 4] /\
  fst r = in_turn fs [1; 0; 2] (words_of from_object) /\
  map finished (snd r) = [Some (true, words_of other_object); Some (true, words_of from_object); Some (true, words_of from_any)] /\
  in_turn fs [1; 0; 2] (words_of from_object) <> in_turn fs [0; 1; 2] (words_of from_object).
Proof. by vm_compute. Qed.
(** the first attempt of the second thread fails spuriously, so the first thread is first *)
Example C108_ex_weak : let r := run weak_sched (words_of from_object) (map (fun p => update_weak (snd p) (fst p)) weak_trio) in
  map (fun i => length (filter (fun j => j = i) weak_sched)) [0; 1; 2] = [5; 6; 4] /\
  map (fun p => (length (snd p), real (snd p))) weak_trio = [(4, 3); (5, 3); (3, 3)] /\
  fst r = in_turn (map fst weak_trio) [0; 1; 2] (words_of from_object) /\
  map finished (snd r) = [Some (true, words_of from_object); Some (true, words_of other_object); Some (true, words_of from_object)].
Proof. by vm_compute. Qed.
Example C108_ex_exchange : let r := run inst_sched null_words (map hand_over trio) in
  fst r = words_of from_any /\ map finished (snd r) = [Some (true, words_of other_object); Some (true, null_words); Some (true, words_of from_object)].
Proof. by vm_compute. Qed.
