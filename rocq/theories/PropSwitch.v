(** Property C46 of type_switch. *)
From stdpp Require Import gmap list.
From Verif Require Import TypeListModel AnyModel AnyInv AnyHistory AnyExec AnyFacts AnyExamples DescModel
  PolyModel PolySpec PolyExamples VisitModel VisitSpec VisitExamples SwitchModel SwitchSpec SwitchProofs SwitchExamples.

(** Full statement: for every polymorphic value, also empty, and every result type. Missing: empty anys and pointers as
    subject, and default_ with a void result; see the theorems below. *)
Theorem C46_runs_first_matching_case_partial :
  forall E O B void w s a T q l f e, env_wf E -> obs_wf O -> between E w -> subject_arg s a ->
  arg_denotes E O w a (Some (T, q)) -> distinct_cases l -> first_for T f (all_arms l) -> (void = true -> e = SNoDefault) ->
  type_switch O B void s l e w = kept void (sb_case B f T q w).
Proof. exact switch_matching. Qed.
Print Assumptions C46_runs_first_matching_case_partial.
Theorem C46_default_when_no_case_matches_partial :
  forall E O B w s a T q l e, env_wf E -> obs_wf O -> between E w -> subject_arg s a ->
  arg_denotes E O w a (Some (T, q)) -> distinct_cases l -> ~ In T (map fst (all_arms l)) ->
  match e with
  | SNoDefault => forall void, type_switch O B void s l e w = Ok None w
  | SDefaultV v => type_switch O B false s l e w = Ok (Some v) w
  | SDefaultF f => exists r, pv_p r = Some q /\ is_ptr (pv_k r) = false /\ type_switch O B false s l e w = kept false (sb_default B f r w)
  end.
Proof. exact switch_default. Qed.
Print Assumptions C46_default_when_no_case_matches_partial.
(** type_switch<void>(x).case_(...).default_(f) does not compile: the result type has no accessible constructor *)
Theorem C46_void_default_refuted :
  exists E O B w s a T q l v, env_wf E /\ obs_wf O /\ between E w /\ subject_arg s a /\ arg_denotes E O w a (Some (T, q)) /\ distinct_cases l /\
  ~ In T (map fst (all_arms l)) /\ type_switch O B true s l (SDefaultF v) w = UB UbIllFormed /\ type_switch O B true s l (SDefaultV v) w = UB UbIllFormed.
Proof. exact void_default_refuted. Qed.
Print Assumptions C46_void_default_refuted.
(** an empty any does not reach the default: the null pointer is asserted against *)
Theorem C46_empty_subject_asserts :
  forall E O B void w s a l e, env_wf E -> between E w -> subject_arg s a ->
  arg_denotes E O w a None -> type_switch O B void s l e w = UB UbAssert.
Proof. exact switch_empty. Qed.
Print Assumptions C46_empty_subject_asserts.
Theorem C46_empty_any_refuted :
  exists E O B w s a l v, env_wf E /\ obs_wf O /\ between E w /\ subject_arg s a /\ arg_denotes E O w a None /\ distinct_cases l /\
  type_switch O B false s l (SDefaultV v) w = UB UbAssert.
Proof. exact empty_refuted. Qed.
Print Assumptions C46_empty_any_refuted.
Example C46_ex : between obsE obs_w /\ distinct_cases sw_chain /\ arg_denotes obsE obs0 obs_w (VAny 0 true) (Some (1, PHeap 0)) /\
  first_for 1 2 (all_arms sw_chain) /\
  (let r := type_switch obs0 sw_body false (SubAny 0 true) sw_chain (SDefaultF 0) obs_w in
   val_of r = Some (Some 210) /\ content (okw r) 0 = Some (Some (1, 99))) /\
  (let r := type_switch obs0 sw_body true (SubAny 2 false) sw_chain SNoDefault obs_w in val_of r = Some (Some 0)) /\
  val_of (type_switch obs0 sw_body false (SubAny 2 false) [SCase 3 1] (SDefaultF 5) obs_w) = Some (Some 705) /\
  val_of (type_switch obs0 sw_body false (SubAny 2 false) [SCase 3 1] SNoDefault obs_w) = Some None.
Proof.
  split; [exact obs_between|]. split; [exact sw_distinct|]. split; [eapply (den_any 0 true 1 10); vm_compute; reflexivity|]. split.
  - exists [(3, 1); (4, 2)], [(2, 2); (1, 3); (5, 4); (5, 5); (1, 5)]. split; [reflexivity|]. cbn. intros [H|[H|[]]]; discriminate.
  - vm_compute. repeat split.
Qed.
