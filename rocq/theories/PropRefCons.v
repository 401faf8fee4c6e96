(** What references and pointers to interfaces are made from (C87), what they then refer to (C88), deduction of their methods (C89). *)
From stdpp Require Import list.
From Verif Require Import TypeListSpec RefConsModel RefConsSpec RefConsProofs RefConsExamples.

(** exactly the sources of the specification, with the target and table it says; whether methods exist is arbitrary *)
Theorem C87_made_from : forall E direct k ms x p t, init E direct k ms x = Made p t <-> made_from E direct k ms x p t.
Proof. exact made_iff. Qed.
Print Assumptions C87_made_from.
(** overload resolution never ends in a tie *)
Theorem C87_never_ambiguous : forall E direct k ms x, init E direct k ms x <> Ambiguous.
Proof. exact never_ambiguous. Qed.
Print Assumptions C87_never_ambiguous.
(** a reference or pointer that can change its object comes only from what allows changing it *)
Theorem C87_const_is_kept : forall E direct k ms x p t, mutable k = true -> init E direct k ms x = Made p t -> gives_access p x.
Proof. exact const_kept. Qed.
Print Assumptions C87_const_is_kept.
(** the const kinds are made from everything the mutable ones are; pointers only by R r(x) *)
Theorem C87_const_from_all_partial : forall E direct k ms x p t, reference k = true \/ direct = true ->
  init E direct k ms x = Made p t -> init E direct (const_kind k) ms x = Made p t.
Proof. exact const_from_all. Qed.
Print Assumptions C87_const_from_all_partial.
(** const_poly_ptr<print> p = q for a pointer q to an any of type_info and print (std::addressof; & gives a poly_ptr): does not compile though
    poly_ptr<print> p = q does *)
Theorem C87_const_from_all_refuted : exists E k ms x p t,
  init E false k ms x = Made p t /\ init E false (const_kind k) ms x = NoViable.
Proof. exists methods, KPtr, [print], (ptr any_both), AtContent, TableOfContent. by vm_compute. Qed.
Print Assumptions C87_const_from_all_refuted.
(** when a constructor is selected that then does not compile *)
Theorem C87_does_not_compile : forall E direct k ms x, init E direct k ms x = HardError <-> doomed E direct k ms x.
Proof. exact hard_iff. Qed.
Print Assumptions C87_does_not_compile.
(** so is_constructible says yes to what does not compile: const_poly_ptr<type_info, print> from a pointer to an any of print only *)
Theorem C87_constraints_tell_refuted : exists E ms x, convertible E KCPtr ms x = true /\ forall direct p t, init E direct KCPtr ms x <> Made p t.
Proof. exists methods, [type_info; print], (cptr any_print). split; [by vm_compute|]. intros [] p t; by vm_compute. Qed.
Print Assumptions C87_constraints_tell_refuted.
(** poly_ptr<type_info> is made from void*, as a pointer to an object of type void *)
Theorem C87_void_refuted : exists E ms x, points_to x false TVoid /\ init E false KPtr ms x = Made AtPointee (TableOf TVoid).
Proof. exists methods, [type_info], (ptr TVoid). split; [by left|by vm_compute]. Qed.
Print Assumptions C87_void_refuted.
Example C87_ex :
  init methods false KRef [print] (lval int) = Made AtSelf (TableOf int) /\
  init methods false KRef [print] (lval str) = NoViable /\
  init methods true KRef [print] (clval int) = NoViable /\
  init methods false KCRef [print] (clval int) = Made AtSelf (TableOf int) /\
  init methods false KCRef [print] (rval int) = Made AtSelf (TableOf int) /\
  init methods false KCRef [print] (lval (TView KRef [type_info; print])) = Made AtSame TableOfSource /\
  init methods false KCRef [print; type_info] (lval (TView KRef [type_info; print])) = NoViable /\
  init methods false KSCRef [print; type_info] (lval (TView KRef [type_info; print])) = Made AtSame TableOfSource /\
  init methods true KRef [print] (lval (TView KCRef [print])) = NoViable /\
  init methods false KPtr [print] (ptr int) = Made AtPointee (TableOf int) /\
  init methods false KPtr [print] (ptr any_both) = Made AtContent TableOfContent /\
  init methods true KCPtr [print] (ptr any_both) = Made AtContent TableOfContent /\
  init methods true KCPtr [print] (cptr any_both) = NoViable /\
  init methods false KCPtr [print] (cptr any_print) = Made AtContent TableOfContent /\
  init methods false KPtr [print] (rval TNull) = Made Nowhere NoTable /\
  init methods true KRef [print] (lval any_print) = NoViable.
Proof. by vm_compute. Qed.

(** the table is that of the object's type, unless the object is an array *)
Theorem C88_table_of_the_object_partial : forall E direct k ms x p d t,
  init E direct k ms x = Made p (TableOf d) -> object_type p x t -> (forall u n, t <> TArr u n) -> d = t.
Proof. exact table_of_object. Qed.
Print Assumptions C88_table_of_the_object_partial.
(** for an array it is always that of the pointer it decays to, while the reference refers to the array *)
Theorem C88_table_of_arrays : forall E direct k ms x p d u n,
  init E direct k ms x = Made p (TableOf d) -> object_type p x (TArr u n) -> d = TPtr false u.
Proof. exact table_of_array. Qed.
Print Assumptions C88_table_of_arrays.
Theorem C88_arrays_without_decay_refuted : exists E k ms x d t,
  init E false k ms x = Made AtSelf (TableOf d) /\ object_type AtSelf x t /\ d <> t.
Proof. exists methods, KSCRef, [print], (lval int3), (TPtr false int), int3. by vm_compute. Qed.
Print Assumptions C88_arrays_without_decay_refuted.
(** nothing refers to a function, and no pointer points to one *)
Theorem C88_no_references_to_functions : forall E direct k ms x p t, reference k = true -> function x -> init E direct k ms x <> Made p t.
Proof. exact no_functions. Qed.
Print Assumptions C88_no_references_to_functions.
Theorem C88_no_pointers_to_functions : forall E direct k ms x c n p t,
  reference k = false -> points_to_function x c n -> init E direct k ms x <> Made p t.
Proof. exact no_function_pointers. Qed.
Print Assumptions C88_no_pointers_to_functions.
Theorem C88_functions_without_decay_refuted : exists E k ms x, function x /\ has_all E ms (decay false (a_ty x)) /\ init E false k ms x = HardError.
Proof.
  exists methods, KSCRef, [call], (lval foo). split; [by exists 0|]. split; [|by vm_compute]. intros m Hm. apply elem_of_list_singleton in Hm. by subst.
Qed.
Print Assumptions C88_functions_without_decay_refuted.
(** a reference to a pointer to a function is made *)
Example C88_ex :
  init methods false KSCRef [call] (rval (TPtr false foo)) = Made AtSelf (TableOf (TPtr false foo)) /\
  init methods false KSRef [type_info] (lval int3) = Made AtSelf (TableOf (TPtr false int)) /\
  init methods false KPtr [print] (ptr int3) = Made AtPointee (TableOf (TPtr false int)) /\
  init methods false KCPtr [print] (clval int3) = Made AtPointee (TableOf int) /\
  init methods false KRef [call] (lval foo) = HardError /\
  init methods true KPtr [call] (lval foo) = HardError /\
  init methods true KSRef [print] (lval foo) = NoViable.
Proof. by vm_compute. Qed.

(** R r = x for a view x: compiles for the kinds of views R can be made from, with all the methods of x, and refers to the same *)
Theorem C89_methods_of_the_view : forall E k k' from c lv ms r,
  deduced_init E k (Arg (TView k' from) c lv) = Some (ms, r) <-> view_from k k' = true /\ ms = from /\ r = Made AtSame TableOfSource.
Proof. exact deduced_view. Qed.
Print Assumptions C89_methods_of_the_view.
(** from anything else no methods are deduced *)
Theorem C89_none_otherwise : forall E k x ms, deduce E k x = Some ms -> (exists k', a_ty x = TView k' ms) \/ ms = [].
Proof. exact deduce_nothing_else. Qed.
Print Assumptions C89_none_otherwise.
(** also from a pointer to an any, and then only for the mutable kind unless the any has none *)
Theorem C89_pointers_to_anys : forall E k x c n any_ms, reference k = false -> points_to x c (TAny n any_ms) ->
  deduce E k x = if mutable k then (if c then None else Some []) else (match any_ms with [] => Some [] | _ => None end).
Proof. exact deduce_any_pointer. Qed.
Print Assumptions C89_pointers_to_anys.
Theorem C89_methods_of_the_any_refuted : exists E x n any_ms, points_to x false (TAny n any_ms) /\ deduce E KPtr x = Some [] /\ any_ms <> [].
Proof. exists methods, (ptr any_both), 1, [type_info; print]. split; [by left|by vm_compute]. Qed.
Print Assumptions C89_methods_of_the_any_refuted.
Example C89_ex :
  deduced_init methods KSCRef (lval (TView KRef [type_info; print; hash])) = Some ([type_info; print; hash], Made AtSame TableOfSource) /\
  deduced_init methods KCRef (rval (TView KRef [print])) = Some ([print], Made AtSame TableOfSource) /\
  deduced_init methods KSCRef (lval (TView KSRef [print])) = Some ([print], Made AtSame TableOfSource) /\
  deduced_init methods KSRef (lval (TView KCRef [print])) = None /\
  deduced_init methods KCPtr (lval (TView KPtr [hash; print])) = Some ([hash; print], Made AtSame TableOfSource) /\
  deduced_init methods KRef (lval int) = Some ([], Made AtSelf (TableOf int)) /\
  deduced_init methods KPtr (ptr any_both) = Some ([], Made AtContent TableOfContent) /\
  deduced_init methods KCPtr (ptr any_both) = None.
Proof. by vm_compute. Qed.
