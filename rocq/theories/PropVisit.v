(** Properties C42 to C45 of visit_invoke. *)
From stdpp Require Import gmap list.
From Verif Require Import TypeListModel AnyModel AnyInv AnyHistory AnyExec AnyFacts AnyExamples DescModel
  PolyModel PolySpec PolyExamples VisitModel VisitSpec VisitProofs VisitExamples.

(** ** C42 *)
(** Full statement: for every overload kind and every argument list. Missing: overloads that are function pointers
    (refuted below) and argument lists whose last argument is empty or null (refuted under C43). *)
Theorem C42_runs_the_matching_overload_partial :
  forall E O B unsafe fs args ds w f, env_wf E -> obs_wf O -> between E w -> overload_set fs ->
  Forall2 (arg_denotes E O w) args ds -> In f fs -> matches f ds -> const_ok f (map argument_const args) -> ov_fptr f = false ->
  exists qs bs w', map (option_map snd) ds = map Some qs /\ passes B w (ov_params f) qs bs w' /\ length bs = arity f /\
    resolve O B unsafe fs args w = wrapped (bo_run B (ov_id f) bs w').
Proof. exact resolve_matching. Qed.
Print Assumptions C42_runs_the_matching_overload_partial.
Theorem C42_nullopt_when_none_matches_partial :
  forall E O B unsafe fs args ds w, env_wf E -> obs_wf O -> between E w -> overload_set fs -> well_called fs args ->
  Forall2 (arg_denotes E O w) args ds -> last_not_empty ds -> (forall f, In f fs -> ~ matches f ds) -> resolve O B unsafe fs args w = Ok None w.
Proof. exact resolve_none. Qed.
Print Assumptions C42_nullopt_when_none_matches_partial.
Theorem C42_order_of_overloads_is_irrelevant :
  forall O B unsafe fs fs' args w, obs_wf O -> overload_set fs -> fs ≡ₚ fs' ->
  resolve O B unsafe fs args w = resolve O B unsafe fs' args w.
Proof. exact resolve_order. Qed.
Print Assumptions C42_order_of_overloads_is_irrelevant.
(** a matching overload given as a function pointer is never run: the library calls a value-initialised pointer *)
Theorem C42_function_pointer_overload_refuted :
  exists E O B fs args ds w f, env_wf E /\ obs_wf O /\ between E w /\ overload_set fs /\ Forall2 (arg_denotes E O w) args ds /\ last_not_empty ds /\
  In f fs /\ matches f ds /\ const_ok f (map argument_const args) /\ resolve O B true fs args w = UB UbAssert /\ resolve O B false fs args w = UB UbAssert.
Proof. exact fptr_refuted. Qed.
Print Assumptions C42_function_pointer_overload_refuted.
Example C42_ex : overload_set vis_set /\ between obsE obs_w /\
  Forall2 (arg_denotes obsE obs0 obs_w) [VAny 0 false; VAny 2 false] [Some (1, PHeap 0); Some (5, PData 2)] /\
  (let r := resolve obs0 (vis_body vis_set (fun _ => 3)) true vis_set [VAny 0 false; VAny 2 false] obs_w in
   val_of r = Some (Some 20) /\ content (okw r) 2 = Some (Some (5, 3))) /\
  (let r := resolve obs0 (vis_body vis_set (fun _ => 3)) true vis_set [VAny 2 false; VAny 0 false] obs_w in
   val_of r = Some (Some 1020) /\ content (okw r) 0 = Some (Some (1, 99))) /\
  val_of (resolve obs0 (vis_body vis_set (fun _ => 3)) true vis_set [VAny 2 false; VAny 2 false] obs_w) = Some None.
Proof. split; [exact vis_overload_set|]. split; [exact obs_between|]. split; [apply vis_args|]. vm_compute. repeat split. Qed.

(** two overloads with the same parameter types up to const and reference do not compile *)
Theorem C42_duplicate_signatures_do_not_compile :
  forall O B unsafe fs args w, ~ NoDup (map signature fs) -> resolve O B unsafe fs args w = UB UbIllFormed.
Proof. exact resolve_duplicate. Qed.
Print Assumptions C42_duplicate_signatures_do_not_compile.
Example C42_duplicate_ex : ~ NoDup (map signature [Ov 0 [Param 1 PConst; Param 5 PVal] false; Ov 2 [Param 1 PRef] false; Ov 3 [Param 1 PRef; Param 5 PConst] false]).
Proof. intros H. vm_compute in H. apply NoDup_cons in H as [H _]. apply H. right. left. Qed.

(** ** C43 *)
(** Full statement: the same without [last_not_empty]. *)
Theorem C43_only_overloads_of_the_arity_partial :
  forall E O B B' unsafe fs args ds w, env_wf E -> obs_wf O -> between E w -> overload_set fs -> well_called fs args ->
  Forall2 (arg_denotes E O w) args ds -> last_not_empty ds -> agree_on (fun f => arity f = length args) fs B B' ->
  resolve O B unsafe fs args w = resolve O B' unsafe fs args w.
Proof. exact resolve_arity. Qed.
Print Assumptions C43_only_overloads_of_the_arity_partial.
(** f(A const&) and g(A const&, B const&) called with an A and an empty any: f runs and the second argument is dropped *)
Theorem C43_trailing_empty_argument_refuted :
  exists E O B B' fs args ds w, env_wf E /\ obs_wf O /\ between E w /\ overload_set fs /\ well_called fs args /\ Forall2 (arg_denotes E O w) args ds /\
  agree_on (fun f => arity f = length args) fs B B' /\
  val_of (resolve O B true fs args w) = Some (Some 10) /\ val_of (resolve O B' true fs args w) = Some (Some 77) /\ forall f, In f fs -> ~ matches f ds.
Proof. exact arity_refuted. Qed.
Print Assumptions C43_trailing_empty_argument_refuted.
Example C43_ex : overload_set vis_set /\ between obsE obs_w /\
  Forall2 (arg_denotes obsE obs0 obs_w) [VAny 0 false; VAny 2 false] [Some (1, PHeap 0); Some (5, PData 2)] /\
  last_not_empty [Some (1, PHeap 0); Some (5, PData 2)] /\ exists f g, In f vis_set /\ In g vis_set /\ arity f = 2 /\ arity g = 1.
Proof.
  split; [exact vis_overload_set|]. split; [exact obs_between|]. split; [apply vis_args|]. split.
  - intros [|? [|? [|? ?]]]; discriminate.
  - exists (Ov 0 [Param 1 PConst; Param 5 PVal] false), (Ov 2 [Param 1 PRef] false). cbn. tauto.
Qed.

(** no overload with that many parameters, or none that could take these const arguments: the call does not compile *)
Theorem C43_ill_called_does_not_compile :
  forall O B unsafe fs args w, overload_set fs -> ~ well_called fs args -> resolve O B unsafe fs args w = UB UbIllFormed.
Proof. exact resolve_ill_called. Qed.
Print Assumptions C43_ill_called_does_not_compile.
Example C43_ill_called_ex : overload_set vis_set /\ ~ well_called vis_set [VAny 0 true; VAny 0 false; VAny 0 false].
Proof. split; [exact vis_overload_set|]. intros [(g & Hg & Ha) _]. cbn in Hg. repeat (destruct Hg as [<-|Hg]; [discriminate|]). done. Qed.

(** ** C44 *)
(** bodies of overloads that would get a const argument as a non-const reference do not matter *)
Theorem C44_no_const_violation :
  forall E O B B' fs args ds w, env_wf E -> obs_wf O -> between E w -> overload_set fs -> well_called fs args ->
  Forall2 (arg_denotes E O w) args ds -> agree_on (fun f => const_ok f (map argument_const args)) fs B B' ->
  resolve O B false fs args w = resolve O B' false fs args w.
Proof. exact resolve_const. Qed.
Print Assumptions C44_no_const_violation.
Theorem C44_nullopt_on_const_mismatch :
  forall E O B fs args ds w f, env_wf E -> obs_wf O -> between E w -> overload_set fs -> well_called fs args ->
  Forall2 (arg_denotes E O w) args ds -> In f fs -> matches f ds -> ~ const_ok f (map argument_const args) ->
  resolve O B false fs args w = Ok None w /\ resolve O B true fs args w = UB UbAssert.
Proof. exact resolve_rejects. Qed.
Print Assumptions C44_nullopt_on_const_mismatch.
Theorem C44_never_rejects_a_const_correct_call :
  forall E O B fs args ds w f w', env_wf E -> obs_wf O -> between E w -> overload_set fs ->
  Forall2 (arg_denotes E O w) args ds -> In f fs -> matches f ds -> const_ok f (map argument_const args) -> resolve O B false fs args w <> Ok None w'.
Proof. exact resolve_accepts. Qed.
Print Assumptions C44_never_rejects_a_const_correct_call.
Example C44_ex : overload_set vis_set /\ between obsE obs_w /\
  Forall2 (arg_denotes obsE obs0 obs_w) [VAny 0 true; VAny 2 true] [Some (1, PHeap 0); Some (5, PData 2)] /\
  val_of (resolve obs0 (vis_body vis_set (fun _ => 3)) false vis_set [VAny 0 true; VAny 2 true] obs_w) = Some (Some 20) /\
  val_of (resolve obs0 (vis_body vis_set (fun _ => 3)) false vis_set [VAny 2 true; VAny 0 true] obs_w) = Some None /\
  val_of (resolve obs0 (vis_body vis_set (fun _ => 3)) false vis_set [VAny 2 true; VAny 0 false] obs_w) = Some (Some 1020).
Proof. split; [exact vis_overload_set|]. split; [exact obs_between|]. split; [apply vis_args|]. vm_compute. repeat split. Qed.

(** ** C45 *)
(** Full statement: the same without [moves_keep]; q is any object that only const arguments denote. *)
Theorem C45_const_arguments_keep_their_value_partial :
  forall E O B unsafe fs args ds w q, env_wf E -> obs_wf O -> between E w -> overload_set fs -> well_called fs args ->
  Forall2 (arg_denotes E O w) args ds -> (forall f, In f fs -> respects_const B f /\ moves_keep B f) ->
  (forall i a T, nth_error args i = Some a -> nth_error ds i = Some (Some (T, q)) -> argument_const a = true) ->
  match resolve O B unsafe fs args w with Ok _ w' | Exn w' => obj_at w' q = obj_at w q | _ => True end.
Proof. exact resolve_keeps. Qed.
Print Assumptions C45_const_arguments_keep_their_value_partial.
(** a const any passed to a by-value parameter is moved from *)
Theorem C45_by_value_parameter_moves_from_const_refuted :
  exists E O B fs args ds w i, env_wf E /\ obs_wf O /\ between E w /\ overload_set fs /\ well_called fs args /\ Forall2 (arg_denotes E O w) args ds /\
  (forall f, In f fs -> respects_const B f) /\ args = [VAny i true] /\
  val_of (resolve O B false fs args w) = Some (Some 10) /\ content w i = Some (Some (1, 10)) /\ content (okw (resolve O B false fs args w)) i = Some (Some (1, 0)).
Proof. exact by_value_refuted. Qed.
Print Assumptions C45_by_value_parameter_moves_from_const_refuted.
Example C45_ex : overload_set vis_set /\ between obsE obs_w /\ well_called vis_set [VAny 2 true; VAny 0 false] /\
  Forall2 (arg_denotes obsE obs0 obs_w) [VAny 0 true; VAny 2 true] [Some (1, PHeap 0); Some (5, PData 2)] /\
  (forall f, In f vis_set -> respects_const (vis_body vis_set (fun x => x)) f /\ moves_keep (vis_body vis_set (fun x => x)) f) /\
  let r := resolve obs0 (vis_body vis_set (fun x => x)) false vis_set [VAny 2 true; VAny 0 false] obs_w in
  content (okw r) 0 = Some (Some (1, 99)) /\ content (okw r) 2 = Some (Some (5, 10)).
Proof.
  split; [exact vis_overload_set|]. split; [exact obs_between|]. split.
  { split; exists (Ov 1 [Param 5 PVal; Param 1 PRef] false); (split; [cbn; tauto|]); [reflexivity|].
    intros [|[|[|i]]] p Hp Hc; try discriminate. injection Hp as <-. left. reflexivity. }
  split; [apply vis_args|]. split.
  { intros f Hf. split; [apply vis_respects; [exact vis_overload_set|exact Hf]|]. intros p x _ _. reflexivity. }
  vm_compute. split; reflexivity.
Qed.
