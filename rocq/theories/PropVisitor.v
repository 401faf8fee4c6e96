(** Property C58 of erased visitors. *)
From stdpp Require Import gmap list.
From Verif Require Import TypeListModel AnyModel AnyInv AnyHistory AnyExec AnyFacts AnyExamples PolyModel PolySpec
  VisitorModel VisitorSpec VisitorProofs VisitorExamples.

Theorem C58_visit_one :
  forall E B w i a V x T q, env_wf E -> reachable E w -> w_any w !! i = Some a -> content w i = Some (Some (V, x)) ->
  In (visit1 T) (a_ms a) -> holds w T q -> adl_visit1 B (OpAny i) T q w = expected B V x [(T, q)] w.
Proof. exact visit_any1. Qed.
Print Assumptions C58_visit_one.
Theorem C58_visit_two :
  forall E B w i a V x T U q r, env_wf E -> reachable E w -> w_any w !! i = Some a -> content w i = Some (Some (V, x)) ->
  In (visit2 T U) (a_ms a) -> holds w T q -> holds w U r -> adl_visit2 B (OpAny i) T U q r w = expected B V x [(T, q); (U, r)] w.
Proof. exact visit_any2. Qed.
Print Assumptions C58_visit_two.
(** the visitor may also be reached through references and pointers *)
Theorem C58_visit_through_views :
  forall E O B w o l s s' V self c w' T q x id, env_wf E -> reachable E w -> begins w o s (Some (V, self)) -> chain s l s' ->
  fresh_names w (all_names o l) -> obtained O w o l c w' -> In (visit1 T) (sty_methods s') -> obj_at w self = Some (Obj V x id) -> holds w T q ->
  adl_visit1 B (OpCur c) T q w' = expected B V x [(T, q)] w'.
Proof. exact visit_view1. Qed.
Print Assumptions C58_visit_through_views.
(** which overloads the interfaces have: each type, each pair *)
Theorem C58_interfaces :
  (forall T Ts, In (visit1 T) (visitor_interface Ts) <-> In T Ts) /\
  (forall T U Ts Us, In (visit2 T U) (visitor2_interface Ts Us) <-> In T Ts /\ In U Us).
Proof. split; [exact in_interface1|exact in_interface2]. Qed.
Print Assumptions C58_interfaces.

Example C58_ex : reachable (mkE 16 true false false []) C58_w /\ content C58_w 0 = Some (Some (1, 10)) /\
  address C58_w 1 = Some (PData 1) /\ address C58_w 2 = Some (PData 2) /\
  content (okw (adl_visit1 C58_body (OpAny 0) 0 (PData 1) C58_w)) 1 = Some (Some (0, 14)) /\
  content (okw (adl_visit1 C58_body (OpAny 0) 5 (PData 2) C58_w)) 2 = Some (Some (5, 4)) /\
  content (okw (adl_visit2 C58_body (OpAny 0) 5 5 (PData 2) (PData 2) C58_w)) 2 = Some (Some (5, 16)) /\
  content (okw (adl_visit2 C58_body (OpAny 0) 0 5 (PData 1) (PData 2) C58_w)) 1 = Some (Some (0, 15)).
Proof. split; [apply after_reachable; by vm_compute|]. vm_compute. repeat split. Qed.
