(** Which chains of conversions the library accepts and what their results should denote, without reference to
    how the views are represented. *)
From stdpp Require Import gmap list.
From Verif Require Import TypeListSpec AnyModel AnyInv AnyFacts DescModel DescSpec DescProofs PolyModel.

(** Standing assumption about descriptors: they point to terminated names, equal pointers point to equal memory, and
    the compiler spells different types differently (see C41 for what happens otherwise). *)
Record obs_wf (O : obs) : Prop := {
  owf_name : exists name : option nat -> list Z,
    (forall t, cstring (d_mem (ob_desc O t)) (name t)) /\ (forall t u, name t = name u -> t = u);
  owf_mem : forall t u, same_memory (ob_desc O t) (ob_desc O u)
}.

(** static types of views *)
Inductive sty : Set := VView (k : kind) (ms : list method) | VState (const : bool) (ms : list method).
Definition sty_methods (s : sty) : list method := match s with VView _ ms => ms | VState _ ms => ms end.
Definition is_ptr (k : kind) : bool := match k with KPtr | KCPtr => true | _ => false end.

(** the conversions the library offers *)
Inductive converts : sty -> step -> sty -> Prop :=
| cv_ptr ms0 ms : contiguous ms ms0 -> converts (VView KPtr ms0) (ToPtr ms) (VView KPtr ms)
| cv_cptr k ms0 ms : is_ptr k = true -> contiguous ms ms0 -> converts (VView k ms0) (ToCPtr ms) (VView KCPtr ms)
| cv_ref ms0 ms : contiguous ms ms0 -> converts (VView KRef ms0) (ToRef ms) (VView KRef ms)
| cv_cref k ms0 ms : is_ptr k = false -> contiguous ms ms0 -> converts (VView k ms0) (ToCRef ms) (VView KCRef ms)
| cv_deref ms : converts (VView KPtr ms) Deref (VView KRef ms)
| cv_cderef ms : converts (VView KCPtr ms) Deref (VView KCRef ms)
| cv_addr ms : converts (VView KRef ms) AddrOf (VView KPtr ms)
| cv_caddr ms : converts (VView KCRef ms) AddrOf (VView KCPtr ms)
| cv_ccast ms : converts (VView KCPtr ms) ConstCast (VView KPtr ms)
| cv_sref r ms0 ms : incl ms ms0 -> converts (VView KRef ms0) (ToSref r ms) (VState false ms)
| cv_sref' r ms0 ms : incl ms ms0 -> converts (VState false ms0) (ToSref r ms) (VState false ms)
| cv_scref k r ms0 ms : is_ptr k = false -> incl ms ms0 -> converts (VView k ms0) (ToScref r ms) (VState true ms)
| cv_scref' b r ms0 ms : incl ms ms0 -> converts (VState b ms0) (ToScref r ms) (VState true ms)
| cv_view ms : converts (VState false ms) GetView (VView KRef ms)
| cv_cview ms : converts (VState true ms) GetView (VView KCRef ms).

Inductive chain : sty -> list step -> sty -> Prop :=
| ch_nil s : chain s [] s
| ch_cons s st s' l s'' : converts s st s' -> chain s' l s'' -> chain s (st :: l) s''.

(** a null pointer may only be converted to other pointers *)
Definition null_safe (l : list step) : Prop :=
  Forall (fun st => match st with ToPtr _ | ToCPtr _ | ConstCast => True | _ => False end) l.

(** stateful references created on the way *)
Definition step_names (st : step) : list nat := match st with ToSref r _ | ToScref r _ => [r] | _ => [] end.
Definition origin_names (o : origin) : list nat := match o with OState _ r _ _ _ => [r] | _ => [] end.
Definition all_names (o : origin) (l : list step) : list nat := origin_names o ++ concat (map step_names l).
Definition fresh_names (w : world) (ns : list nat) : Prop := NoDup ns /\ forall r, In r ns -> w_sref w !! r = None.

(** what a view should denote: nothing, or an object of dynamic type T at a place *)
Notation target := (option (nat * ptr)).
Definition any_target (w : world) (i : nat) (d : target) : Prop :=
  match d with
  | None => content w i = Some None
  | Some (T, q) => address w i = Some q /\ exists x, content w i = Some (Some (T, x))
  end.
Definition obj_target (w : world) (T : nat) (p : option ptr) (d : target) : Prop :=
  match p with
  | None => d = None
  | Some q => d = Some (T, q) /\ exists o, obj_at w q = Some o /\ o_ty o = T
  end.

Inductive begins (w : world) : origin -> sty -> target -> Prop :=
| bg_addr i a d : w_any w !! i = Some a -> any_target w i d -> begins w (OAddr i) (VView KPtr (a_ms a)) d
| bg_caddr i a d : w_any w !! i = Some a -> any_target w i d -> begins w (OCAddr i) (VView KCPtr (a_ms a)) d
| bg_null ms : begins w (OPtrAny None ms) (VView KPtr ms) None
| bg_any i a ms d : w_any w !! i = Some a -> contiguous ms (a_ms a) -> any_target w i d ->
    begins w (OPtrAny (Some i) ms) (VView KPtr ms) d
| bg_obj k T p ms d : obj_target w T p d -> (p = None -> is_ptr k = true) -> begins w (OObj k T p ms) (VView k ms) d
| bg_state b r T q ms d : obj_target w T (Some q) d -> begins w (OState b r T q ms) (VState b ms) d.

(** [c], present in [w'], was obtained in [w] from [o] through [l]; only stateful references were created *)
Definition obtained (O : obs) (w : world) (o : origin) (l : list step) (c : cur) (w' : world) : Prop :=
  bindM (start O o) (run_steps O l) w = Ok c w'.
Definition only_new_refs (ns : list nat) (w w' : world) : Prop :=
  exists m, w' = set_sref w m /\ w_sref w ⊆ m /\ forall r, is_Some (m !! r) -> is_Some (w_sref w !! r) \/ In r ns.

(** ** What observers should return *)

(** methods whose plugins provide type_descriptor() *)
Definition reports_type (ms : list method) : Prop := In MTypeInfo ms \/ In MEqualTo ms \/ In MSpaceship ms.

(** the value a target holds, with its type *)
Definition value_at (w : world) (d : target) : option (nat * nat) :=
  match d with Some (T, q) => match obj_at w q with Some o => Some (T, o_val o) | None => None end | None => None end.

(** equality of optional typed values *)
Definition same_value (O : obs) (a b : option (nat * nat)) : Prop :=
  match a, b with
  | None, None => True
  | Some (T, x), Some (U, y) => T = U /\ ob_eq O T x y = true
  | _, _ => False
  end.

(** what <=> should be *)
Definition order_of (O : obs) (a b : option (nat * nat)) : option comparison :=
  match a, b with
  | None, None => Some Eq
  | Some (T, x), Some (U, y) => if decide (T = U) then ob_cmp O T x y else None
  | _, _ => None
  end.

(** a cast of a view: pointers give a pointer, references a reference or an exception *)
Definition cast_gives (O : obs) (c : cur) (U : nat) (w : world) (r : option ptr) : Prop :=
  let thrown := match r with Some q => Ok q w | None => Exn w end in
  match c with
  | CView p => match pv_k p with
               | KPtr | KCPtr => cast_ptr O p U w = Ok r w
               | KRef | KCRef => cast_ref O p U w = thrown
               end
  | CState b n => cast_state O b n U w = thrown
  end.

(** ==, between anys that have it *)
Definition anys_equal (O : obs) (w : world) (i j : nat) : Prop := eq_op O (OpAny i) (OpAny j) w = Ok true w.
Definition comparable (w : world) (i : nat) : Prop := exists a, w_any w !! i = Some a /\ In MEqualTo (a_ms a) /\ ~ In MSpaceship (a_ms a).

(** references, as opposed to pointers *)
Definition is_ref (s : sty) : bool := match s with VView k _ => negb (is_ptr k) | VState _ _ => true end.

(** std::hash of an optional value *)
Definition hash_of (O : obs) (c : option (nat * nat)) : nat := match c with Some (T, x) => ob_hash O T x | None => 0 end.

(** type_descriptor of a pointer or reference *)
Definition view_desc (O : obs) (c : cur) : M descriptor :=
  match c with
  | CView p => match pv_k p with KPtr | KCPtr => ptr_desc O p | KRef | KCRef => op_desc O (OpCur c) end
  | CState _ _ => op_desc O (OpCur c)
  end.

(** comparison of pointers, either both of the same kind or a mutable with a const one *)
Definition compare_ptrs (O : obs) (l r : pval) : M bool :=
  match pv_k l, pv_k r with KPtr, KCPtr => ptr_eq_mixed O l r | _, _ => ptr_eq O l r end.
