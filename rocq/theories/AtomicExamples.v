(** Atomic pointers used by the examples and refutations. *)
From stdpp Require Import gmap list.
From Verif Require Import TypeListModel TypeListSpec TypeListProofs AnyModel AnyInv AnyHistory AnyExec AnyFacts AnyExamples DescModel DescSpec
  PolyModel PolySpec PolyProofs PolyExamples RebindModel RebindSpec AtomicModel AtomicSpec AtomicProofs.

Definition duo : list method := [MTypeInfo; MEqualTo].
(** the address of any 0 as a pointer with two of its methods; a pointer to the same object made from its address; one to
    the object of any 2; a null pointer made from a null pointer to an object *)
Definition from_any : pval := PV KPtr (Some (VPtr None (map (fun m => (1, m)) eqs) 4)) (Some (PHeap 0)) duo.
Definition from_object : pval := PV KPtr (Some (addr_vtable_for 1 duo)) (Some (PHeap 0)) duo.
Definition null_object : pval := PV KPtr (Some (addr_vtable_for 1 duo)) None duo.
Definition other_object : pval := PV KPtr (Some (addr_vtable_for 5 duo)) (Some (PHeap 1)) duo.
Definition trio : list words := [words_of from_object; words_of other_object; words_of from_any].

Lemma points_duo w T tab off q : (forall m, In m duo -> cur_slot (CView (PV KRef (Some (VPtr None tab off)) (Some q) duo)) m w = Ok T w) ->
  points w KPtr duo (Words (Some (VPtr None tab off)) (Some q)) (Some (T, q)).
Proof. intros H. repeat split; try done. eexists. split; [reflexivity|]. by repeat split. Qed.
Lemma points_any w : points w KPtr duo (words_of from_any) (Some (1, PHeap 0)).
Proof. apply points_duo. intros m Hm. cbn in Hm. destruct Hm as [<-|[<-|[]]]; reflexivity. Qed.
Lemma points_object w : points w KPtr duo (words_of from_object) (Some (1, PHeap 0)).
Proof. apply points_duo. intros m Hm. cbn in Hm. destruct Hm as [<-|[<-|[]]]; reflexivity. Qed.
Lemma points_other w : points w KPtr duo (words_of other_object) (Some (5, PHeap 1)).
Proof. apply points_duo. intros m Hm. cbn in Hm. destruct Hm as [<-|[<-|[]]]; reflexivity. Qed.
Lemma points_null w k ms : points w k ms null_words None.
Proof. by repeat split. Qed.
Lemma points_null_object w : points w KPtr duo (words_of null_object) None.
Proof. by repeat split. Qed.

Lemma cas_refuted :
  exists E O w o st o' p q d, env_wf E /\ obs_wf O /\ reachable E w /\
    bindM (start O o) (run_steps O st) w = Ok (CView p) w /\ start O o' w = Ok (CView q) w /\
    points w KPtr duo (words_of p) (Some d) /\ points w KPtr duo (words_of q) (Some d) /\ ptr_eq O p q w = Ok true w /\
    forall b, tstep (words_of p) (TCas (words_of q) b TDone) = Some (words_of p, TDone false (words_of p)).
Proof.
  exists obsE, obs0, obs_w, (OAddr 0), [ToPtr duo], (OObj KPtr 1 (Some (PHeap 0)) duo), from_any, from_object, (1, PHeap 0).
  split; [apply mkE_wf|]. split; [apply obs0_wf|]. split; [apply obs_w_reachable|]. split; [reflexivity|]. split; [reflexivity|].
  split; [apply points_any|]. split; [apply points_object|]. split; reflexivity.
Qed.
Lemma install_refuted :
  exists O w o p ps, start O o w = Ok (CView p) w /\ points w KPtr duo (words_of p) None /\ ps <> [] /\
    Forall (fun b => exists d, points w KPtr duo b (Some d)) ps /\
    forall s, let r := run s (words_of p) (map install ps) in
      points w KPtr duo (fst r) None /\ forall i t, snd r !! i = Some t -> ~ succeeded t.
Proof.
  exists obs0, obs_w, (OObj KPtr 1 None duo), null_object, trio. split; [reflexivity|]. split; [apply points_null_object|]. split; [done|]. split.
  - repeat constructor; eexists; [apply points_object|apply points_other|apply points_any].
  - intros s r. destruct (install_never s (words_of null_object) trio) as [H1 H2]; [done|]. split; [|exact H2].
    unfold r. rewrite H1. apply points_null_object.
Qed.

(** three threads install pointers; the second comes first *)
Definition inst_sched : list nat := [1; 0; 2; 1].
(** the result of a thread that is done *)
Definition finished (t : thread) : option (bool * words) := match t with TDone ok b => Some (ok, b) | _ => None end.
(** three threads cycle through the three pointers, retrying when another thread was faster *)
Definition next_ptr (b : words) : words :=
  if bool_decide (b = words_of from_object) then words_of other_object
  else if bool_decide (b = words_of other_object) then words_of from_any else words_of from_object.
Definition back_ptr (b : words) : words := if bool_decide (b = words_of other_object) then words_of from_object else words_of other_object.
Definition upd_sched : list nat := [0; 1; 2; 1; 0; 2; 0; 2; 2; 0; 1; 1].
(** the same with attempts that fail spuriously *)
Definition weak_trio : list ((words -> words) * list bool) :=
  [(next_ptr, [false; true; false; false]); (back_ptr, [true; false; false; true; false]); (next_ptr, [false; false; false])].
Definition weak_sched : list nat := [0; 1; 2; 1; 0; 2; 1; 1; 2; 2; 0; 0; 0; 1; 1].
