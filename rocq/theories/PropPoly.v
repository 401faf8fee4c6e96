(** Properties C23-C29, C31, C59: any_cast, comparison, hashing, type_descriptor and conversions between views.
    [obs_wf] is the assumption that different types are spelled differently (C41).
    A view is described by where it starts ([begins w o s d]: origin o, static type s, target d) and the
    conversions applied to it ([chain s l s']); [obtained O w o l c w'] says the program text evaluates to c. *)
From stdpp Require Import gmap list.
From Verif Require Import TypeListModel TypeListSpec TypeListProofs AnyModel AnyInv AnyHistory AnyExec AnyFacts AnyExamples DescModel
  PolyModel PolySpec PolyProofs PolyFacts PolyFacts2 PolyExamples PolyRefuted.

(** ** C23 *)
Theorem C23_any_cast :
  forall E O w i a U, env_wf E -> obs_wf O -> reachable E w -> w_any w !! i = Some a -> reports_type (a_ms a) ->
  exists r, cast_any O (Some i) U w = Ok r w /\
    (forall q, r = Some q <-> address w i = Some q /\ exists x, content w i = Some (Some (U, x))) /\
    (forall q, r = Some q -> exists o, obj_at w q = Some o /\ o_ty o = U) /\
    cast_any_ref O i U w = (match r with Some q => Ok q w | None => Exn w end) /\ cast_any O None U w = Ok None w.
Proof. exact cast_any_fact. Qed.
Print Assumptions C23_any_cast.
Theorem C23_any_cast_of_views :
  forall E O w o l s s' d U c w', env_wf E -> obs_wf O -> reachable E w -> begins w o s d -> chain s l s' ->
  (d = None -> null_safe l) -> fresh_names w (all_names o l) -> reports_type (sty_methods s') -> obtained O w o l c w' ->
  exists r, cast_gives O c U w' r /\ (forall q, r = Some q <-> d = Some (U, q)) /\
    (forall q, r = Some q -> exists ob, obj_at w' q = Some ob /\ o_ty ob = U).
Proof. exact cast_view_fact. Qed.
Print Assumptions C23_any_cast_of_views.
Example C23_ex : reachable obsE obs_w /\ methods_of obs_w 0 = Some eqs /\
  val_of (cast_any obs0 (Some 0) 1 obs_w) = Some (address obs_w 0) /\ is_Some (address obs_w 0) /\
  val_of (cast_any obs0 (Some 0) 5 obs_w) = Some None /\ val_of (cast_any obs0 (Some 3) 1 obs_w) = Some None /\
  is_exn (cast_any_ref obs0 3 1 obs_w) = true.
Proof. split; [apply obs_w_reachable|]. by vm_compute; repeat split; eauto. Qed.

(** ** C24 *)
Theorem C24_equal_to :
  forall E O w i j a b, env_wf E -> obs_wf O -> reachable E w -> w_any w !! i = Some a -> w_any w !! j = Some b ->
  In MEqualTo (a_ms a) -> ~ In MSpaceship (a_ms a) -> In MEqualTo (a_ms b) ->
  exists r ci cj, eq_op O (OpAny i) (OpAny j) w = Ok r w /\ content w i = Some ci /\ content w j = Some cj /\
    (r = true <-> same_value O ci cj).
Proof. exact eq_any_fact. Qed.
Print Assumptions C24_equal_to.
Theorem C24_laws :
  forall E O w, env_wf E -> obs_wf O -> reachable E w ->
  ((forall T x, ob_eq O T x x = true) -> forall i, comparable w i -> anys_equal O w i i) /\
  ((forall T x y, ob_eq O T x y = true -> ob_eq O T y x = true) ->
     forall i j, comparable w i -> comparable w j -> anys_equal O w i j -> anys_equal O w j i) /\
  ((forall T x y z, ob_eq O T x y = true -> ob_eq O T y z = true -> ob_eq O T x z = true) ->
     forall i j k, comparable w i -> comparable w j -> comparable w k ->
       anys_equal O w i j -> anys_equal O w j k -> anys_equal O w i k).
Proof. exact eq_laws. Qed.
Print Assumptions C24_laws.
(** references: two of them, the second made after the first *)
Theorem C24_equal_to_of_references :
  forall E O w w1 w2 o1 o2 l1 l2 s1 s2 s1' s2' d1 d2 c1 c2, env_wf E -> obs_wf O -> reachable E w ->
  begins w o1 s1 d1 -> chain s1 l1 s1' -> (d1 = None -> null_safe l1) -> fresh_names w (all_names o1 l1) -> obtained O w o1 l1 c1 w1 ->
  begins w1 o2 s2 d2 -> chain s2 l2 s2' -> (d2 = None -> null_safe l2) -> fresh_names w1 (all_names o2 l2) -> obtained O w1 o2 l2 c2 w2 ->
  is_ref s1' = true -> is_ref s2' = true ->
  In MEqualTo (sty_methods s1') -> ~ In MSpaceship (sty_methods s1') -> In MEqualTo (sty_methods s2') ->
  exists b, eq_op O (OpCur c1) (OpCur c2) w2 = Ok b w2 /\ (b = true <-> same_value O (value_at w d1) (value_at w d2)).
Proof. exact eq_ref_fact. Qed.
Print Assumptions C24_equal_to_of_references.
Example C24_ex : reachable obsE obs_w /\ methods_of obs_w 0 = Some eqs /\
  val_of (eq_op obs0 (OpAny 0) (OpAny 1) obs_w) = Some true /\ address obs_w 0 <> address obs_w 1 /\
  val_of (eq_op obs0 (OpAny 0) (OpAny 2) obs_w) = Some false /\ content obs_w 2 = Some (Some (5, 10)) /\
  val_of (eq_op obs0 (OpAny 0) (OpAny 3) obs_w) = Some false /\ val_of (eq_op obs0 (OpAny 3) (OpAny 3) obs_w) = Some true.
Proof. split; [apply obs_w_reachable|]. by vm_compute; repeat split; eauto. Qed.

(** ** C25 *)
(** Full statement: without the last hypothesis. *)
Theorem C25_spaceship_partial :
  forall E O w i j a b, env_wf E -> obs_wf O -> reachable E w -> w_any w !! i = Some a -> w_any w !! j = Some b ->
  In MSpaceship (a_ms a) -> In MSpaceship (a_ms b) -> (content w i = Some None \/ content w j <> Some None) ->
  exists ci cj r e, content w i = Some ci /\ content w j = Some cj /\ cmp_spaceship O (OpAny i) (OpAny j) w = Ok r w /\
    r = order_of O ci cj /\ eq_op O (OpAny i) (OpAny j) w = Ok e w /\ (e = true <-> r = Some Eq).
Proof. exact cmp_any_fact. Qed.
Print Assumptions C25_spaceship_partial.
Theorem C25_spaceship_of_references :
  forall E O w w1 w2 o1 o2 l1 l2 s1 s2 s1' s2' d1 d2 c1 c2, env_wf E -> obs_wf O -> reachable E w ->
  begins w o1 s1 d1 -> chain s1 l1 s1' -> (d1 = None -> null_safe l1) -> fresh_names w (all_names o1 l1) -> obtained O w o1 l1 c1 w1 ->
  begins w1 o2 s2 d2 -> chain s2 l2 s2' -> (d2 = None -> null_safe l2) -> fresh_names w1 (all_names o2 l2) -> obtained O w1 o2 l2 c2 w2 ->
  is_ref s1' = true -> is_ref s2' = true -> In MSpaceship (sty_methods s1') -> In MSpaceship (sty_methods s2') ->
  exists r e, cmp_spaceship O (OpCur c1) (OpCur c2) w2 = Ok r w2 /\ r = order_of O (value_at w d1) (value_at w d2) /\
    eq_op O (OpCur c1) (OpCur c2) w2 = Ok e w2 /\ (e = true <-> r = Some Eq).
Proof. exact cmp_ref_fact. Qed.
Print Assumptions C25_spaceship_of_references.
(** a value on the left and an empty any on the right: the vtable of the empty one is read *)
Theorem C25_empty_on_the_right_undefined :
  forall E O w i j a b T x, env_wf E -> reachable E w -> w_any w !! i = Some a -> w_any w !! j = Some b -> In MSpaceship (a_ms a) ->
  content w i = Some (Some (T, x)) -> content w j = Some None ->
  cmp_spaceship O (OpAny i) (OpAny j) w = UB UbNullVtable /\ eq_op O (OpAny i) (OpAny j) w = UB UbNullVtable.
Proof. exact cmp_undefined. Qed.
Print Assumptions C25_empty_on_the_right_undefined.
Theorem C25_defined_for_all_pairs_refuted :
  exists E O w i j a b, env_wf E /\ obs_wf O /\ reachable E w /\ w_any w !! i = Some a /\ w_any w !! j = Some b /\
  In MSpaceship (a_ms a) /\ a_ms a = a_ms b /\
  cmp_spaceship O (OpAny i) (OpAny j) w = UB UbNullVtable /\ eq_op O (OpAny i) (OpAny j) w = UB UbNullVtable.
Proof. exact cmp_refuted. Qed.
Print Assumptions C25_defined_for_all_pairs_refuted.
Example C25_ex : reachable obsE obs_w /\ methods_of obs_w 4 = Some ords /\
  val_of (cmp_spaceship obs0 (OpAny 4) (OpAny 5) obs_w) = Some (Some Lt) /\ val_of (cmp_spaceship obs0 (OpAny 6) (OpAny 4) obs_w) = Some None /\
  val_of (eq_op obs0 (OpAny 4) (OpAny 4) obs_w) = Some true /\ val_of (eq_op obs0 (OpAny 6) (OpAny 4) obs_w) = Some false.
Proof. split; [apply obs_w_reachable|]. by vm_compute; repeat split; eauto. Qed.

(** ** C26 *)
Theorem C26_hash :
  forall E O w i a, env_wf E -> reachable E w -> w_any w !! i = Some a -> In MHash (a_ms a) ->
  exists c, content w i = Some c /\ hash_op O (OpAny i) w = Ok (hash_of O c) w.
Proof. exact hash_any_fact. Qed.
Print Assumptions C26_hash.
Theorem C26_hash_of_references :
  forall E O w o l s s' d c w', env_wf E -> reachable E w -> begins w o s d -> chain s l s' ->
  (d = None -> null_safe l) -> fresh_names w (all_names o l) -> is_ref s' = true -> In MHash (sty_methods s') -> obtained O w o l c w' ->
  hash_op O (OpCur c) w' = Ok (hash_of O (value_at w d)) w'.
Proof. exact hash_ref_fact. Qed.
Print Assumptions C26_hash_of_references.
Theorem C26_equal_values_hash_equal :
  forall E O w i j a b, env_wf E -> obs_wf O -> reachable E w ->
  (forall T x y, ob_eq O T x y = true -> ob_hash O T x = ob_hash O T y) ->
  w_any w !! i = Some a -> w_any w !! j = Some b ->
  In MEqualTo (a_ms a) -> ~ In MSpaceship (a_ms a) -> In MEqualTo (a_ms b) -> In MHash (a_ms a) -> In MHash (a_ms b) ->
  eq_op O (OpAny i) (OpAny j) w = Ok true w -> exists h, hash_op O (OpAny i) w = Ok h w /\ hash_op O (OpAny j) w = Ok h w.
Proof. exact hash_respects. Qed.
Print Assumptions C26_equal_values_hash_equal.
Theorem C26_equivalent_values_hash_equal :
  forall E O w i j a b, env_wf E -> obs_wf O -> reachable E w ->
  (forall T x y, ob_cmp O T x y = Some Eq -> ob_hash O T x = ob_hash O T y) ->
  w_any w !! i = Some a -> w_any w !! j = Some b ->
  In MSpaceship (a_ms a) -> In MSpaceship (a_ms b) -> In MHash (a_ms a) -> In MHash (a_ms b) ->
  eq_op O (OpAny i) (OpAny j) w = Ok true w -> exists h, hash_op O (OpAny i) w = Ok h w /\ hash_op O (OpAny j) w = Ok h w.
Proof. exact hash_respects_cmp. Qed.
Print Assumptions C26_equivalent_values_hash_equal.
Example C26_ex : reachable obsE obs_w /\
  val_of (hash_op obs0 (OpAny 0) obs_w) = Some 11 /\ val_of (hash_op obs0 (OpAny 1) obs_w) = Some 11 /\ val_of (hash_op obs0 (OpAny 3) obs_w) = Some 0 /\
  val_of (eq_op obs0 (OpAny 0) (OpAny 1) obs_w) = Some true.
Proof. split; [apply obs_w_reachable|]. by vm_compute; repeat split; eauto. Qed.

(** ** C27 *)
Theorem C27_type_descriptor_of_any :
  forall E O w i a, env_wf E -> reachable E w -> w_any w !! i = Some a -> reports_type (a_ms a) ->
  exists c, content w i = Some c /\ op_desc O (OpAny i) w = Ok (ob_desc O (option_map fst c)) w.
Proof. exact desc_any_fact. Qed.
Print Assumptions C27_type_descriptor_of_any.
Theorem C27_type_descriptor_of_views :
  forall E O w o l s s' d c w', env_wf E -> reachable E w -> begins w o s d -> chain s l s' ->
  (d = None -> null_safe l) -> fresh_names w (all_names o l) -> reports_type (sty_methods s') -> obtained O w o l c w' ->
  view_desc O c w' = Ok (ob_desc O (option_map fst d)) w'.
Proof. exact desc_view_fact. Qed.
Print Assumptions C27_type_descriptor_of_views.
Example C27_ex : reachable obsE obs_w /\
  val_of (op_desc obs0 (OpAny 0) obs_w) = Some (desc0 (Some 1)) /\ val_of (op_desc obs0 (OpAny 3) obs_w) = Some (desc0 None) /\
  val_of (viewed (OCAddr 0) [ToCPtr [MMove; MCopy true; MTypeInfo]; Deref; ToCRef [MTypeInfo]] (view_desc obs0) obs_w) = Some (desc0 (Some 1)) /\
  val_of (viewed (OAddr 3) [ToCPtr [MMove; MCopy true; MTypeInfo]] (view_desc obs0) obs_w) = Some (desc0 None).
Proof. split; [apply obs_w_reachable|]. by vm_compute. Qed.

(** ** C28 *)
Theorem C28_address_of_any :
  forall E O w i a, env_wf E -> reachable E w -> w_any w !! i = Some a ->
  exists p, start O (OAddr i) w = Ok (CView p) w /\ pv_k p = KPtr /\ pv_p p = address w i /\ (pv_p p = None <-> content w i = Some None).
Proof. exact addr_fact. Qed.
Print Assumptions C28_address_of_any.
Theorem C28_address_of_const_any :
  forall E O w i a, env_wf E -> reachable E w -> w_any w !! i = Some a ->
  exists p, start O (OCAddr i) w = Ok (CView p) w /\ pv_k p = KCPtr /\ pv_p p = address w i /\ (pv_p p = None <-> content w i = Some None).
Proof. exact caddr_fact. Qed.
Print Assumptions C28_address_of_const_any.
Theorem C28_dereferenced_pointer_acts_on_the_value :
  forall E O w i a n y T x, env_wf E -> reachable E w -> w_any w !! i = Some a -> content w i = Some (Some (T, x)) -> In (MUser n) (a_ms a) ->
  exists c, obtained O w (OAddr i) [Deref] c w /\
    match cur_invoke E c n y w with
    | Ok r w'' => snd (e_meth E T n x y) = Some r /\ content w'' i = Some (Some (T, fst (e_meth E T n x y))) /\
                  forall k, k <> i -> content w'' k = content w k
    | Exn w'' => snd (e_meth E T n x y) = None /\ content w'' i = Some (Some (T, fst (e_meth E T n x y))) /\
                  forall k, k <> i -> content w'' k = content w k
    | _ => False
    end.
Proof. exact deref_fact. Qed.
Print Assumptions C28_dereferenced_pointer_acts_on_the_value.
(** equality of any two pointers, of any kinds and method lists, is equality of what they denote, hence an equivalence *)
Theorem C28_pointer_equality :
  forall E O w w1 w2 o1 o2 l1 l2 s1 s2 k1 k2 m1 m2 d1 d2 p1 p2, env_wf E -> obs_wf O -> reachable E w ->
  begins w o1 s1 d1 -> chain s1 l1 (VView k1 m1) -> (d1 = None -> null_safe l1) -> fresh_names w (all_names o1 l1) -> obtained O w o1 l1 (CView p1) w1 ->
  begins w1 o2 s2 d2 -> chain s2 l2 (VView k2 m2) -> (d2 = None -> null_safe l2) -> fresh_names w1 (all_names o2 l2) -> obtained O w1 o2 l2 (CView p2) w2 ->
  is_ptr k1 = true -> is_ptr k2 = true -> reports_type m1 -> reports_type m2 ->
  exists b, compare_ptrs O p1 p2 w2 = Ok b w2 /\ (b = true <-> d1 = d2) /\ (b = true -> k1 = KPtr -> k2 = KPtr -> exists h, hash_ptr O p1 = Some h /\ hash_ptr O p2 = Some h).
Proof. exact ptr_eq_fact. Qed.
Print Assumptions C28_pointer_equality.
Example C28_ex : reachable obsE obs_w /\
  let same o l o' l' := val_of (viewed o l (fun c => viewed o' l' (fun c' =>
    match c, c' with CView p, CView p' => compare_ptrs obs0 p p' | _, _ => retM false end)) obs_w) in
  same (OAddr 0) [] (OAddr 0) [Deref; ToRef eqs; AddrOf; ToCPtr eqs] = Some true /\ same (OAddr 0) [] (OAddr 1) [] = Some false /\
  same (OAddr 0) [] (OAddr 3) [] = Some false /\ same (OAddr 3) [] (OAddr 3) [ToCPtr eqs] = Some true.
Proof. split; [apply obs_w_reachable|]. by vm_compute. Qed.

(** ** C29 *)
Theorem C29_dispatch_through_conversions :
  forall E O w o l s s' T q, env_wf E -> reachable E w -> begins w o s (Some (T, q)) -> chain s l s' ->
  fresh_names w (all_names o l) ->
  exists c w', obtained O w o l c w' /\ only_new_refs (all_names o l) w w' /\
    (forall m, In m (sty_methods s') -> cur_slot c m w' = Ok T w') /\
    (forall n y, In (MUser n) (sty_methods s') -> exists x id w'', obj_at w q = Some (Obj T x id) /\
       cur_invoke E c n y w' = (match snd (e_meth E T n x y) with Some r => Ok r w'' | None => Exn w'' end) /\
       obj_at w'' q = Some (Obj T (fst (e_meth E T n x y)) id) /\ forall p, p <> q -> obj_at w'' p = obj_at w p).
Proof. exact dispatch_fact. Qed.
Print Assumptions C29_dispatch_through_conversions.
(** starting at an any: what the call does to the value of every any *)
Theorem C29_dispatch_on_any_content :
  forall E O w i a l s s' o T q n y, env_wf E -> reachable E w -> w_any w !! i = Some a -> begins w o s (Some (T, q)) ->
  (o = OAddr i \/ o = OCAddr i \/ exists ms, o = OPtrAny (Some i) ms) -> chain s l s' -> fresh_names w (all_names o l) ->
  In (MUser n) (sty_methods s') ->
  exists c w' x, obtained O w o l c w' /\ content w i = Some (Some (T, x)) /\
    match cur_invoke E c n y w' with
    | Ok r w'' => snd (e_meth E T n x y) = Some r /\ content w'' i = Some (Some (T, fst (e_meth E T n x y))) /\
                  forall k, k <> i -> content w'' k = content w k
    | Exn w'' => snd (e_meth E T n x y) = None /\ content w'' i = Some (Some (T, fst (e_meth E T n x y))) /\
                  forall k, k <> i -> content w'' k = content w k
    | _ => False
    end.
Proof. exact dispatch_any_fact. Qed.
Print Assumptions C29_dispatch_on_any_content.
Example C29_ex : reachable obsE obs_w /\ fresh_names obs_w (all_names (OAddr 0) C29_steps) /\
  chain (VView KPtr eqs) C29_steps (VView KPtr [MUser 1]) /\
  let r := viewed (OAddr 0) C29_steps (fun c => cur_invoke obsE c 1 77) obs_w in
  is_exn r = true /\ content (okw r) 0 = Some (Some (1, 77)) /\ content (okw r) 1 = Some (Some (1, 10)).
Proof.
  split; [apply obs_w_reachable|]. split; [|split; [|by vm_compute]].
  - split; [repeat constructor; set_solver|]. intros r [<-|[<-|[]]]; by vm_compute.
  - unfold C29_steps.
    do 9 (eapply ch_cons; [first [apply cv_deref | apply cv_cderef | apply cv_addr | apply cv_caddr | apply cv_ccast | apply cv_cview
      | apply cv_sref; intros m Hm; cbn in *; tauto | apply cv_scref'; intros m Hm; cbn in *; tauto | apply cv_ptr, has_sub_inv; reflexivity | apply cv_cref; [reflexivity|]; apply has_sub_inv; reflexivity]|]).
    apply ch_nil.
Qed.

(** ** C31 *)
Theorem C31_stateful_reference :
  forall E O w o l s s' T q r ms (const : bool), env_wf E -> reachable E w -> begins w o s (Some (T, q)) -> chain s l s' ->
  fresh_names w (all_names o l ++ [r]) -> is_ref s' = true -> incl ms (sty_methods s') ->
  (const = false -> s' = VState false (sty_methods s') \/ s' = VView KRef (sty_methods s')) ->
  let st := if const then ToScref r ms else ToSref r ms in
  exists w', obtained O w o (l ++ [st]) (CState const r) w' /\
    (forall m, In m ms -> cur_slot (CState const r) m w' = Ok T w') /\ self_of (CState const r) w' = Ok q w' /\
    (exists v, obtained O w o (l ++ [st; GetView]) v w' /\ forall m, In m ms -> cur_slot v m w' = Ok T w') /\
    (* the same object as when built from a T& directly *)
    (forall w2 x, obtained O w (OState const r T q ms) [] x w2 -> w_sref w2 !! r = w_sref w' !! r).
Proof. exact stateful_fact. Qed.
Print Assumptions C31_stateful_reference.
Example C31_ex : reachable obsE obs_w /\ begins obs_w (OAddr 0) (VView KPtr eqs) (Some (1, PHeap 0)) /\
  chain (VView KPtr eqs) [Deref] (VView KRef eqs) /\ incl [MUser 1; MHash; MUser 0; MHash] eqs /\
  val_of (viewed (OAddr 0) [Deref; ToSref 7 [MUser 1; MHash; MUser 0; MHash]] (fun c => cur_slot c (MUser 0)) obs_w) = Some 1.
Proof.
  split; [apply obs_w_reachable|]. split; [|split; [|split; [intros m Hm; cbn in *; tauto|by vm_compute]]].
  - destruct (obs_any 0 eqs) as (a & Ha & <-); [by vm_compute|]. apply bg_addr; [exact Ha|]. split; [by vm_compute|]. exists 10. by vm_compute.
  - repeat econstructor.
Qed.

(** ** C59 *)
(** Full statement: for every contiguous part of the any's list, as for poly_ptr from Any*. *)
Theorem C59_const_pointer_from_const_any_partial :
  forall E O w i a, env_wf E -> reachable E w -> w_any w !! i = Some a ->
  exists p, cptr_any O i (a_ms a) w = Ok p w /\ pv_p p = address w i.
Proof. exact cptr_same. Qed.
Print Assumptions C59_const_pointer_from_const_any_partial.
(** every other part is rejected although poly_ptr accepts it: has_subsequence has its arguments swapped *)
Theorem C59_fewer_methods_rejected_refuted :
  exists E O w i a ms, env_wf E /\ reachable E w /\ w_any w !! i = Some a /\ contiguous ms (a_ms a) /\
  is_ok (ptr_any O i ms w) = true /\ cptr_any O i ms w = UB UbIllFormed.
Proof. exact cptr_refuted. Qed.
Print Assumptions C59_fewer_methods_rejected_refuted.
Theorem C59_every_strict_part_rejected :
  forall O w i a ms, w_any w !! i = Some a -> contiguous ms (a_ms a) -> ms <> a_ms a -> cptr_any O i ms w = UB UbIllFormed.
Proof. exact cptr_fewer. Qed.
Print Assumptions C59_every_strict_part_rejected.
Example C59_ex : reachable obsE obs_w /\ methods_of obs_w 0 = Some eqs /\ is_ok (cptr_any obs0 0 eqs obs_w) = true.
Proof. split; [apply obs_w_reachable|]. by vm_compute. Qed.
