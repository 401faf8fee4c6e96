(** What visit_invoke should do, independently of how it searches. *)
From stdpp Require Import gmap list.
From Verif Require Import AnyModel AnyInv AnyHistory AnyFacts DescModel PolyModel PolySpec VisitModel.

(** the program is between two operations: a reachable state, plus stateful references made while building views *)
Definition between (E : env) (w : world) : Prop := exists w0 ns, reachable E w0 /\ only_new_refs ns w0 w.

(** what an argument denotes: the any's value, the target of the view, the object *)
Inductive arg_denotes (E : env) (O : obs) (w : world) : varg -> target -> Prop :=
| ad_any i c a d : w_any w !! i = Some a -> reports_type (a_ms a) -> any_target w i d -> arg_denotes E O w (VAny i c) d
| ad_view w0 w1 o l s k ms p d ns : reachable E w0 -> begins w0 o s d -> chain s l (VView k ms) -> (d = None -> null_safe l) ->
    fresh_names w0 (all_names o l) -> obtained O w0 o l (CView p) w1 -> only_new_refs ns w1 w -> reports_type ms ->
    arg_denotes E O w (VPoly p) d
| ad_obj T q c o : obj_at w q = Some o -> o_ty o = T -> arg_denotes E O w (VObj T q c) (Some (T, q))
| ad_var T q c o : obj_at w q = Some o -> o_ty o = T -> arg_denotes E O w (VVar (Some (T, q)) c) (Some (T, q)).

(** the argument is read-only: a const any, object or variant, a const_poly_ref or const_poly_ptr (and not: a const poly_ptr) *)
Definition argument_const (a : varg) : bool :=
  match a with VAny _ c | VObj _ _ c | VVar _ c => c | VPoly p => match pv_k p with KCRef | KCPtr => true | KRef | KPtr => false end end.

Definition signature (f : overload) : list nat := map pm_ty (ov_params f).
(** overloads are distinct C++ types with distinct decayed signatures *)
Definition overload_set (fs : list overload) : Prop :=
  NoDup (map signature fs) /\ (forall f g, In f fs -> In g fs -> ov_id f = ov_id g -> f = g).

(** parameter i may be bound to argument i: no const argument to a non-const reference *)
Definition const_ok (f : overload) (consts : list bool) : Prop :=
  forall i p, nth_error (ov_params f) i = Some p -> nth_error consts i = Some true -> pm_kind p = PVal \/ pm_kind p = PConst.

(** parameter passing: references refer to the argument, by-value parameters take its value by moving *)
Inductive passes (B : bodies) : world -> list param -> list ptr -> list bound -> world -> Prop :=
| ps_nil w qs : passes B w [] qs [] w
| ps_ref w p ps q qs bs w' : pm_kind p <> PVal -> (exists o, obj_at w q = Some o /\ o_ty o = pm_ty p) ->
    passes B w ps qs bs w' -> passes B w (p :: ps) (q :: qs) (BRef q :: bs) w'
| ps_val w w1 p ps q qs bs w' x id : pm_kind p = PVal -> obj_at w q = Some (Obj (pm_ty p) x id) ->
    write_place q (Some (Obj (pm_ty p) (bo_moved B (pm_ty p) x) id)) w = Ok tt w1 ->
    obj_at w1 q = Some (Obj (pm_ty p) (bo_moved B (pm_ty p) x) id) -> (forall r, r <> q -> obj_at w1 r = obj_at w r) ->
    passes B w1 ps qs bs w' -> passes B w (p :: ps) (q :: qs) (BVal (pm_ty p) x :: bs) w'.

(** the result of running a body, wrapped in std::optional *)
Definition wrapped (r : res nat) : res (option nat) :=
  match r with Ok x w => Ok (Some x) w | Exn w => Exn w | UB u => UB u | Term => Term end.

(** the call compiles: some overload has that many parameters, some overload may take these const arguments *)
Definition well_called (fs : list overload) (args : list varg) : Prop :=
  (exists g, In g fs /\ arity g = length args) /\ (exists g, In g fs /\ const_ok g (map argument_const args)).

(** the dynamic types of the arguments are those of the parameters; the last one is not an empty any or null pointer *)
Definition matches (f : overload) (ds : list target) : Prop := map (option_map fst) ds = map Some (signature f).
Definition last_not_empty (ds : list target) : Prop := forall l, ds <> l ++ [None].

(** a body changes only objects it was given a non-const reference to *)
Definition respects_const (B : bodies) (f : overload) : Prop :=
  forall bs w, match bo_run B (ov_id f) bs w with
    | Ok _ w' | Exn w' => forall q, (forall i p, nth_error (ov_params f) i = Some p -> nth_error bs i = Some (BRef q) -> pm_kind p = PConst) ->
        obj_at w' q = obj_at w q
    | _ => True
    end.
(** moving from an argument of a by-value parameter's type does not change it *)
Definition moves_keep (B : bodies) (f : overload) : Prop :=
  forall p x, In p (ov_params f) -> pm_kind p = PVal -> bo_moved B (pm_ty p) x = x.

(** the two programs differ only in the bodies of overloads outside P *)
Definition agree_on (P : overload -> Prop) (fs : list overload) (B B' : bodies) : Prop :=
  (forall T x, bo_moved B T x = bo_moved B' T x) /\ (forall f, In f fs -> P f -> forall bs w, bo_run B (ov_id f) bs w = bo_run B' (ov_id f) bs w).
