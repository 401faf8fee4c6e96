(** Concrete chains used by the examples beside the theorems about type_switch, and witnesses against C46. *)
From stdpp Require Import gmap list.
From Verif Require Import TypeListModel AnyModel AnyInv AnyHistory AnyExec AnyFacts AnyExamples DescModel
  PolyModel PolySpec PolyExamples PolyRefuted VisitModel VisitSpec VisitExamples SwitchModel SwitchSpec.

(** case bodies add 100 * their name to the value and set it to 99; the default returns 700 + its name *)
Definition sw_body : sbodies :=
  SBodies (fun f T q => let! o := read_as T q in write_place q (Some (Obj T 99 (o_id o))) ;;; retM (100 * f + o_val o))
          (fun f r => retM (700 + f)).
Definition sw_chain : list scase := [SCase 3 1; SCases [4; 1; 2] 2; SCase 1 3; SCase 5 4; SCases [5; 1] 5].
Lemma sw_distinct : distinct_cases sw_chain.
Proof. intros Ts f H. cbn in H. intuition; simplify_eq; repeat (apply NoDup_cons; split; [set_solver|]); constructor. Qed.

Lemma void_default_refuted :
  exists E O B w s a T q l v, env_wf E /\ obs_wf O /\ between E w /\ subject_arg s a /\ arg_denotes E O w a (Some (T, q)) /\ distinct_cases l /\
  ~ In T (map fst (all_arms l)) /\ type_switch O B true s l (SDefaultF v) w = UB UbIllFormed /\ type_switch O B true s l (SDefaultV v) w = UB UbIllFormed.
Proof.
  exists obsE, obs0, sw_body, obs_w, (SubAny 0 false), (VAny 0 false), 1, (PHeap 0), [SCase 3 1], 0.
  split; [apply mkE_wf|]. split; [apply obs0_wf|]. split; [apply obs_between|]. split; [reflexivity|]. split.
  { eapply (den_any 0 false 1 10); vm_compute; reflexivity. }
  split; [intros Ts f [H|[]]; discriminate|]. split; [intros [H|[]]; discriminate|]. split; vm_compute; reflexivity.
Qed.
Lemma empty_refuted :
  exists E O B w s a l v, env_wf E /\ obs_wf O /\ between E w /\ subject_arg s a /\ arg_denotes E O w a None /\ distinct_cases l /\
  type_switch O B false s l (SDefaultV v) w = UB UbAssert.
Proof.
  exists obsE, obs0, sw_body, obs_w, (SubAny 3 false), (VAny 3 false), [SCase 3 1], 0.
  split; [apply mkE_wf|]. split; [apply obs0_wf|]. split; [apply obs_between|]. split; [reflexivity|]. split.
  { apply den_empty; vm_compute; reflexivity. }
  split; [intros Ts f [H|[]]; discriminate|]. vm_compute; reflexivity.
Qed.
