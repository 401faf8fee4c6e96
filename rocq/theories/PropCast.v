(** Properties C60-C62: any_cast by value and by reference, with other traits, and the static type of its result. *)
From stdpp Require Import gmap list.
From Coq Require Import String ZArith.
From Verif Require Import TypeListModel TypeListSpec AnyModel AnyInv AnyHistory AnyExec AnyFacts AnyExamples DescModel DescSpec DescProofs DescExamples
  PolyModel PolySpec PolyExamples VisitModel CastModel CastSpec CastProofs CastExamples.

(** ** C60 *)
Theorem C60_any_cast_of_any :
  forall E O V w i a U t c rv, env_wf E -> obs_wf O -> reachable E w -> w_any w !! i = Some a -> reports_type (a_ms a) ->
  (forall x q, content w i = Some (Some (U, x)) -> address w i = Some q ->
     cast_outcome E V (how_any t c rv) U x q w (cast_any_as E O V i U t c rv w)) /\
  ((forall x, content w i <> Some (Some (U, x))) -> cast_any_as E O V i U t c rv w = Exn w).
Proof. exact cast_any_as_ok. Qed.
Print Assumptions C60_any_cast_of_any.
Theorem C60_any_cast_of_references :
  forall E O V w o l s s' d U c w' t, env_wf E -> obs_wf O -> reachable E w -> begins w o s d -> chain s l s' ->
  (d = None -> null_safe l) -> fresh_names w (all_names o l) -> is_ref s' = true -> reports_type (sty_methods s') -> obtained O w o l c w' ->
  (forall q x, d = Some (U, q) -> value_at w d = Some (U, x) ->
     cast_outcome E V (how_ref t (sty_const s')) U x q w' (cast_cur_as E O c U t w')) /\
  ((forall q, d <> Some (U, q)) -> cast_cur_as E O c U t w' = Exn w').
Proof. exact cast_cur_as_ok. Qed.
Print Assumptions C60_any_cast_of_references.
(** a copy and a move out of any 2, references to it, a const rvalue, a copy of any 1 that throws, another type, an empty any *)
Example C60_ex : env_wf castE /\ obs_wf obs0 /\ reachable castE cast_w /\ methods_of cast_w 2 = Some eqs /\
  cast_run 2 5 TVal false false = Some (Some (NewObj 5 10), Some (Some (5, 10)), Some (Some (1, 10))) /\
  cast_run 2 5 TVal false true = Some (Some (NewObj 5 10), Some (Some (5, 0)), Some (Some (1, 10))) /\
  cast_run 2 5 TVal true true = Some (Some (NewObj 5 10), Some (Some (5, 10)), Some (Some (1, 10))) /\
  cast_run 2 5 TLRef true false = Some (Some (RefTo true false (PData 2)), Some (Some (5, 10)), Some (Some (1, 10))) /\
  cast_run 2 5 TRRef false true = Some (Some (RefTo false true (PData 2)), Some (Some (5, 10)), Some (Some (1, 10))) /\
  cast_run 1 1 TVal false false = Some (None, Some (Some (1, 10)), Some (Some (1, 10))) /\
  cast_run 2 1 TVal false true = Some (None, Some (Some (5, 10)), Some (Some (1, 10))) /\
  cast_run 3 5 TLRef false false = Some (None, Some None, Some (Some (1, 10))).
Proof. split; [apply mkE_wf|]. split; [apply obs0_wf|]. split; [apply cast_w_reachable|]. vm_compute. repeat split. Qed.

(** ** C61 *)
(** Full statement: also for a valueless variant, with a null result. *)
Theorem C61_variant_and_objects_partial :
  forall O T q c U w, obs_wf O ->
  cast_gen O (VObj T q c) U w = Ok (c, if decide (T = U) then Some q else None) w /\
  cast_gen O (VVar (Some (T, q)) c) U w = Ok (c, if decide (T = U) then Some q else None) w.
Proof. exact cast_gen_obj. Qed.
Print Assumptions C61_variant_and_objects_partial.
(** std::visit throws for a valueless variant and get_type_descriptor is noexcept *)
Theorem C61_valueless_variant_refuted :
  forall O c U w, cast_gen O (VVar None c) U w = Term.
Proof. exact cast_gen_valueless. Qed.
Print Assumptions C61_valueless_variant_refuted.
Example C61_ex : obs_wf obs0 /\
  val_of (cast_gen obs0 (VVar (Some (5, PData 2)) true) 5 obs_w) = Some (true, Some (PData 2)) /\
  val_of (cast_gen obs0 (VVar (Some (5, PData 2)) false) 1 obs_w) = Some (false, None) /\
  val_of (cast_gen obs0 (VObj 1 (PHeap 0) false) 1 obs_w) = Some (false, Some (PHeap 0)).
Proof. split; [apply obs0_wf|]. by vm_compute. Qed.

(** ** C62 *)
(** [stored]: the decayed type of the object.  Full statement: without the last two hypotheses. *)
Theorem C62_result_has_the_type_of_the_object_partial :
  forall cc u v stored t,
  well_spelled cc u -> well_spelled cc v -> one_string cc u v -> agree cc u v -> distinct cc u v ->
  decays stored stored -> cast_matches cc u v stored t = Some true ->
  (forall s n, cast_pointee t <> CArray s n) -> (forall n, cast_pointee t <> CFun n) ->
  unqualified (cast_pointee t) stored.
Proof. exact cast_type_decayed. Qed.
Print Assumptions C62_result_has_the_type_of_the_object_partial.
(** any_cast<U[n]> of an any that holds a U* returns a pointer to an array, although what it points to is a U* *)
Theorem C62_array_type_refuted :
  forall cc u v s n,
  well_spelled cc u -> well_spelled cc v -> one_string cc u v -> agree cc u v -> distinct cc u v ->
  cast_matches cc u v (CPtr s) (CArray s n) = Some true /\ decays (CPtr s) (CPtr s) /\ ~ unqualified (cast_pointee (CArray s n)) (CPtr s).
Proof. exact cast_type_array_decayed. Qed.
Print Assumptions C62_array_type_refuted.
(** a class named with one key where it was put into the any and with the other where it is cast *)
Example C62_ex : let u := spell_unit "class " 1 in let v := spell_unit "struct " 2 in
  (well_spelled Msvc u /\ well_spelled Msvc v /\ one_string Msvc u v /\ agree Msvc u v /\ distinct Msvc u v) /\
  decays (CBase 1) (CBase 1) /\ cast_matches Msvc u v (CBase 1) (CConst (CBase 1)) = Some true /\
  cast_pointee (CConst (CBase 1)) = CConst (CBase 1) /\ unqualified (CConst (CBase 1)) (CBase 1).
Proof.
  split; [apply spell_units; [by left|by right]|]. split; [by apply decays_iff|].
  split; [apply descriptor_ok; [by left|by right|reflexivity]|]. split; [reflexivity|by apply unqualified_iff].
Qed.
