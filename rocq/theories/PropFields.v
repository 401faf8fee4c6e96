(** Properties C65-C67: the fields of aggregates and the columns of data_parallel_vector. *)
From stdpp Require Import list.
From Verif Require Import FieldsModel FieldsSpec FieldsProofs FieldsExamples.

(** ** C65 *)
Theorem C65_field_count :
  forall self T, 1 <= length T <= 30 -> fields_count self T = Some (length T).
Proof. exact fields_count_right. Qed.
Print Assumptions C65_field_count.
Theorem C65_get_refers_to_the_field :
  forall self T rv c I r, magic_get self I T rv c = Some r -> refers_to_field T I c r.
Proof. exact magic_get_right. Qed.
Print Assumptions C65_get_refers_to_the_field.
Theorem C65_get_compiles_up_to_29_fields :
  forall self T rv c I, is_Some (magic_get self I T rv c) <-> I < length T <= 29.
Proof. exact magic_get_defined. Qed.
Print Assumptions C65_get_compiles_up_to_29_fields.
Example C65_ex :
  fields_count true mixed = Some 4 /\ fields_count false (plain 17) = Some 17 /\ fields_count true [] = Some 1 /\
  magic_get true 0 mixed false true = Some (FieldRef 0 Lvalue true) /\
  magic_get true 1 mixed true true = Some (FieldRef 1 Lvalue false) /\
  magic_get true 3 mixed true false = Some (FieldRef 3 Xvalue true) /\
  magic_get false 16 (plain 17) true false = Some (FieldRef 16 Xvalue false) /\
  magic_get true 4 mixed true false = None /\ magic_get true 0 [] true false = None /\
  magic_get false 3 (plain 40) true false = None.
Proof. vm_compute. repeat split. Qed.

(** ** C66 *)
(** Full statement: without the last hypothesis, and for 30 fields. *)
Theorem C66_value_category_partial :
  forall self T rv c I r f, magic_get self I T rv c = Some r -> T !! I = Some f -> (f_ref f = FRref -> rv = true) ->
  documented_category rv (f_ref f) (r_cat r).
Proof. exact magic_get_category. Qed.
Print Assumptions C66_value_category_partial.
(** an rvalue reference in an lvalue aggregate is given away as an xvalue *)
Theorem C66_rvalue_reference_field_refuted :
  forall self T c I r f, magic_get self I T false c = Some r -> T !! I = Some f -> f_ref f = FRref ->
  r_cat r = Xvalue /\ ~ documented_category false (f_ref f) (r_cat r).
Proof. exact magic_get_rref. Qed.
Print Assumptions C66_rvalue_reference_field_refuted.
(** "max supported field count for aggregates == 30": no branch for it *)
Theorem C66_thirty_fields_refuted :
  forall self T rv c I, length T = 30 -> fields_count self T = Some 30 /\ magic_get self I T rv c = None.
Proof. exact magic_get_thirty. Qed.
Print Assumptions C66_thirty_fields_refuted.
Example C66_ex :
  magic_get true 0 mixed false false = Some (FieldRef 0 Lvalue false) /\ magic_get true 0 mixed true false = Some (FieldRef 0 Xvalue false) /\
  magic_get true 2 mixed true false = Some (FieldRef 2 Xvalue false) /\
  magic_get true 2 mixed false true = Some (FieldRef 2 Xvalue false) /\ length (plain 30) = 30.
Proof. vm_compute. repeat split. Qed.

(** ** C67 *)
Theorem C67_view_by_type :
  forall ts vc Xs ss, no_wrapper ts -> Forall (fun p => snd p <> TyBoolWrapper) Xs ->
  view_types ts vc Xs = Some ss <->
  Forall2 (fun p s => exists i, only_field ts (snd p) i /\ shows s i (snd p) (vc || fst p)) Xs ss.
Proof. exact view_types_spec. Qed.
Print Assumptions C67_view_by_type.
Theorem C67_view_by_number :
  forall ts vc Is ss,
  view_numbers ts vc Is = Some ss <-> Forall2 (fun I s => exists X, ts !! I = Some X /\ shows s I X vc) Is ss.
Proof. exact view_numbers_spec. Qed.
Print Assumptions C67_view_by_number.
Theorem C67_tuple_protocol :
  forall ts vc I s, tuple_get ts vc I = Some s <-> exists X, ts !! I = Some X /\ shows s I X vc.
Proof. exact tuple_get_spec. Qed.
Print Assumptions C67_tuple_protocol.
(** int occurs twice *)
Example C67_ex :
  view_types columns false [(false, TyOther 1); (true, TyBool)] = Some [Span 2 (TyOther 1) false; Span 1 TyBool true] /\
  view_types columns true [(false, TyBool)] = Some [Span 1 TyBool true] /\
  view_types columns false [(false, TyOther 0)] = None /\
  view_numbers columns false [3; 0; 1] = Some [Span 3 (TyOther 0) false; Span 0 (TyOther 0) false; Span 1 TyBool false] /\
  tuple_get columns true 3 = Some (Span 3 (TyOther 0) true) /\ tuple_get columns true 4 = None /\
  no_wrapper columns.
Proof. repeat split; try (vm_compute; reflexivity). intros [|[|[|[|]]]]; done. Qed.
