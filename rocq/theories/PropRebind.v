(** Properties C72, C73: variables of pointer types, rebinding of references. *)
From stdpp Require Import gmap list.
From Verif Require Import AnyModel AnyInv AnyHistory AnyFacts DescModel PolyModel PolySpec PolyProofs RebindModel RebindSpec RebindProofs RebindHash AnyExamples PolyExamples RebindExamples.

(** ** C72 *)
Theorem C72_pointer_variables :
  forall E O w0 l G, env_wf E -> reachable E w0 -> program w0 l G ->
  exists s, run_stmts O l (PState w0 ∅) = POk s /\ same_objects w0 (ps_w s) /\
    forall x k ms d f, G !! x = Some (VInfo (VView k ms) d f) -> is_ptr k = true ->
      exists p, read_var s x = Some (CView p) /\ pointer_to (ps_w s) p k ms d.
Proof. exact pointer_variables. Qed.
Print Assumptions C72_pointer_variables.
Theorem C72_comparisons :
  forall E O w0 l G s x y kx ky ms dx dy fx fy cpp20,
  env_wf E -> obs_wf O -> reachable E w0 -> program w0 l G -> run_stmts O l (PState w0 ∅) = POk s ->
  G !! x = Some (VInfo (VView kx ms) dx fx) -> G !! y = Some (VInfo (VView ky ms) dy fy) -> is_ptr kx = true -> is_ptr ky = true -> reports_type ms ->
  exists p q b, read_var s x = Some (CView p) /\ read_var s y = Some (CView q) /\
    cmp_eq O cpp20 p q (ps_w s) = Ok b (ps_w s) /\ cmp_ne O cpp20 p q (ps_w s) = Ok (negb b) (ps_w s) /\ (b = true <-> dx = dy).
Proof. exact program_compare. Qed.
Print Assumptions C72_comparisons.
(** unary * asserts that poly_ptr is not null, but not that const_poly_ptr is not *)
Theorem C72_null_const_pointer_dereferenced_refuted :
  exists E O w0 l s p q, env_wf E /\ reachable E w0 /\ run_stmts O l (PState w0 ∅) = POk s /\
    read_var s 0 = Some (CView p) /\ pv_k p = KPtr /\ eq_null p = true /\ run_step O Deref (CView p) (ps_w s) = UB UbAssert /\
    read_var s 1 = Some (CView q) /\ pv_k q = KCPtr /\ eq_null q = true /\
    exists r, run_step O Deref (CView q) (ps_w s) = Ok r (ps_w s) /\ self_of r (ps_w s) = UB UbNoObject.
Proof. exact null_deref_refuted. Qed.
Print Assumptions C72_null_const_pointer_dereferenced_refuted.

(** equal poly_ptrs have equal hashes, whatever their methods; std::hash of a const_poly_ptr does not compile *)
Theorem C72_hashes_partial :
  forall E O w0 l G s x y mx my d fx fy,
  env_wf E -> reachable E w0 -> program w0 l G -> run_stmts O l (PState w0 ∅) = POk s ->
  G !! x = Some (VInfo (VView KPtr mx) d fx) -> G !! y = Some (VInfo (VView KPtr my) d fy) ->
  exists p q h, read_var s x = Some (CView p) /\ read_var s y = Some (CView q) /\ hash_ptr O p = Some h /\ hash_ptr O q = Some h.
Proof. exact program_hash. Qed.
Print Assumptions C72_hashes_partial.
Theorem C72_hash_of_const_pointers_refuted :
  forall E O w0 l G s x ms d f,
  env_wf E -> reachable E w0 -> program w0 l G -> run_stmts O l (PState w0 ∅) = POk s -> G !! x = Some (VInfo (VView KCPtr ms) d f) ->
  exists p, read_var s x = Some (CView p) /\ hash_ptr O p = None.
Proof. exact program_const_hash. Qed.
Print Assumptions C72_hash_of_const_pointers_refuted.

(** a program with pointers made null, assigned from one another and from addresses, of which some outlive others *)
Example C72_ex : exists G, program obs_w rebind_prog G /\
  option_map vi_target (G !! 0) = Some None /\ option_map vi_target (G !! 1) = Some (tgt 0 1) /\ option_map vi_target (G !! 2) = Some (tgt 2 5) /\
  option_map vi_target (G !! 4) = Some (tgt 2 5) /\ option_map vi_target (G !! 6) = Some (tgt 0 1) /\
  option_map vi_ty (G !! 1) = Some (VView KPtr eqs) /\ option_map vi_ty (G !! 6) = Some (VView KCPtr eqs) /\
  option_map vi_ty (G !! 2) = Some (VView KRef eqs) /\ option_map vi_ty (G !! 4) = Some (VState false us).
Proof. exact rebind_program. Qed.
(** the address of an any, the same with other methods, and the same as const_poly_ptr *)
Example C72_ex_hash : let hash c := retM (match c with CView p => hash_ptr obs0 p | _ => None end) in
  map (fun ol => val_of (viewed (fst ol) (snd ol) hash obs_w)) [(OAddr 0, []); (OAddr 0, [Deref; ToRef eqs; AddrOf]); (OCAddr 0, []); (OAddr 3, [])] =
  [Some (Some 1); Some (Some 1); Some None; Some (Some 0)].
Proof. by vm_compute. Qed.

(** ** C73 *)
Theorem C73_reference_variables_partial :
  forall E O w0 l G, env_wf E -> reachable E w0 -> program w0 l G ->
  exists s, run_stmts O l (PState w0 ∅) = POk s /\ same_objects w0 (ps_w s) /\
    forall x v, G !! x = Some v -> is_ref (vi_ty v) = true ->
      exists c ms, read_var s x = Some c /\ sty_methods (vi_ty v) = ms /\ reference_to (ps_w s) c ms (vi_target v).
Proof. exact reference_variables. Qed.
Print Assumptions C73_reference_variables_partial.
Theorem C73_assignment_compiles :
  forall O s x y old c t u const lvalue, ps_vars s !! x = Some old -> read_var s y = Some c -> type_of (ps_w s) old = Some t -> type_of (ps_w s) c = Some u ->
  let ok := t = u /\ (is_ref t = true -> const = true /\ lvalue = true \/ const = false /\ lvalue = false) in
  (ok -> exists s', run_stmt O (SAssignVar x y (Named const lvalue)) s = POk s') /\
  (~ ok -> run_stmt O (SAssignVar x y (Named const lvalue)) s = PBad UbIllFormed).
Proof. exact assign_compiles. Qed.
Print Assumptions C73_assignment_compiles.
(** the deleted template does not stop [x = y] for a const y, and stops it for a y that is not const *)
Theorem C73_implicit_rebinding_refuted :
  exists E O w0 l G s, env_wf E /\ reachable E w0 /\ program w0 l G /\ run_stmts O l (PState w0 ∅) = POk s /\
  exists x y vx vy, G !! x = Some vx /\ G !! y = Some vy /\ is_ref (vi_ty vx) = true /\ vi_ty vx = vi_ty vy /\ vi_target vx <> vi_target vy /\
    (exists s', run_stmt O (SAssignVar x y (Named true true)) s = POk s') /\
    run_stmt O (SAssignVar x y (Named false true)) s = PBad UbIllFormed.
Proof. exact implicit_rebinding_refuted. Qed.
Print Assumptions C73_implicit_rebinding_refuted.
(** a view taken from a stateful reference keeps the old object but looks up methods in the new object's table *)
Theorem C73_view_of_rebound_reference_refuted :
  exists E O w0 l s c, env_wf E /\ reachable E w0 /\ w_sref w0 = ∅ /\ run_stmts O l (PState w0 ∅) = POk s /\ read_var s 1 = Some c /\
    cur_methods (ps_w s) c = us /\ self_of c (ps_w s) = Ok (PHeap 0) (ps_w s) /\ cur_invoke E c 0 7 (ps_w s) = UB UbWrongType.
Proof. exact stale_view_refuted. Qed.
Print Assumptions C73_view_of_rebound_reference_refuted.

(** the reference 2, first bound to the first object, and the stateful reference 4, ended up bound to the second *)
Example C73_ex : exists G, program obs_w rebind_prog G /\
  option_map vi_target (G !! 0) = Some None /\ option_map vi_target (G !! 1) = Some (tgt 0 1) /\ option_map vi_target (G !! 2) = Some (tgt 2 5) /\
  option_map vi_target (G !! 4) = Some (tgt 2 5) /\ option_map vi_target (G !! 6) = Some (tgt 0 1) /\
  option_map vi_ty (G !! 1) = Some (VView KPtr eqs) /\ option_map vi_ty (G !! 6) = Some (VView KCPtr eqs) /\
  option_map vi_ty (G !! 2) = Some (VView KRef eqs) /\ option_map vi_ty (G !! 4) = Some (VState false us).
Proof. exact rebind_program. Qed.
Example C73_ex_distinct : tgt 0 1 <> tgt 2 5 /\ tgt 0 1 <> None.
Proof. split; vm_compute; discriminate. Qed.
(** the four ways to name the right side of [x = y], for references and for pointers *)
Example C73_ex_compiles :
  map (fun n => assign_verdict rebind_refs 0 1 n) [Named true true; Named false false; Named false true; Named true false] = [true; true; false; false] /\
  map (fun n => assign_verdict rebind_ptrs 0 1 n) [Named true true; Named false false; Named false true; Named true false] = [true; true; true; true].
Proof. vm_compute. split; reflexivity. Qed.
