(** Model of visit_invoke: run-time overload resolution by a sorted table of type descriptors.
    Sources: V = include/anyany/visit_invoke.hpp, VD = include/anyany/noexport/visit_invoke_details.hpp,
    T = include/anyany/type_descriptor.hpp, U = include/anyany/utility.hpp. *)
From stdpp Require Import gmap list.
From Verif Require Import TypeListModel AnyModel DescModel PolyModel.

(** ** VD 39-79 flat_map *)
Section FlatMap.
  Context {K X : Type} (less : K -> K -> option bool).

  (** VD 50 std::sort by key; insertion sort stands for the library's algorithm (keys are unique, so every correct
      algorithm gives the same array) *)
  Fixpoint insert_sorted (p : K * X) (l : list (K * X)) : option (list (K * X)) :=
    match l with
    | [] => Some [p]
    | q :: tl =>
        match less (fst q) (fst p) with
        | None => None
        | Some true => match insert_sorted p tl with Some r => Some (q :: r) | None => None end
        | Some false => Some (p :: q :: tl)
        end
    end.
  Fixpoint sort_pairs (l : list (K * X)) : option (list (K * X)) :=
    match l with
    | [] => Some []
    | p :: tl => match sort_pairs tl with Some r => insert_sorted p r | None => None end
    end.

  (** VD 59-66: adjacent equal keys *)
  Fixpoint keys_unique (l : list K) : option bool :=
    match l with
    | a :: ((b :: _) as tl) =>
        match less a b, less b a with
        | Some x, Some y => if x || y then keys_unique tl else Some false
        | _, _ => None
        end
    | _ => Some true
    end.

  (** VD 70 std::lower_bound: binary search *)
  Fixpoint lower_bound (fuel : nat) (keys : list K) (key : K) (first len : nat) : option nat :=
    match fuel with
    | 0 => None
    | S fuel =>
        if len =? 0 then Some first
        else let half := len / 2 in
             match nth_error keys (first + half) with
             | None => None
             | Some m =>
                 match less m key with
                 | None => None
                 | Some true => lower_bound fuel keys key (first + half + 1) (len - half - 1)
                 | Some false => lower_bound fuel keys key first half
                 end
             end
    end.

  (** VD 68-75 find; outer None: an error *)
  Definition find_key (m : list (K * X)) (key : K) : option (option X) :=
    let keys := map fst m in
    match lower_bound (S (length keys)) keys key 0 (length keys) with
    | None => None
    | Some n =>
        match nth_error m n with
        | None => Some None                                   (* it == keys.end() *)
        | Some (k, x) =>
            match less key k with
            | None => None
            | Some true => Some None
            | Some false => Some (Some x)
            end
        end
    end.
End FlatMap.

(** ** Overloads *)

(** how a parameter type relates to its decayed type: T, const T& (or const T&&), T&, T&& *)
Inductive pkind : Set := PVal | PConst | PRef | PRRef.
Record param : Set := Param { pm_ty : nat; pm_kind : pkind }.
(** a member of Foos...; [ov_fptr]: its type is a function pointer, not a captureless lambda *)
Record overload : Set := Ov { ov_id : nat; ov_params : list param; ov_fptr : bool }.

(** VD 13-17 is_const_arg *)
Definition is_const_arg (p : param) : bool := match pm_kind p with PVal | PConst => true | PRef | PRRef => false end.

(** what a parameter is bound to *)
Inductive bound : Set := BVal (T x : nat) | BRef (q : ptr).

(** the program: bodies of the overloads, and the value a moved-from object is left with *)
Record bodies : Type := Bodies {
  bo_run : nat -> list bound -> M nat;
  bo_moved : nat -> nat -> nat
}.

(** an argument of resolve: an any (const or not), a pointer or reference view, an ordinary object.
    stateful references have no operator& returning a pointer with raw(), to_address is ill-formed for them. *)
Inductive varg : Set := VAny (i : nat) (const : bool) | VPoly (p : pval) | VObj (T : nat) (q : ptr) (const : bool)
(* std::variant under std_variant_poly_traits: its alternative and where it is, None when valueless *)
| VVar (d : option (nat * ptr)) (const : bool).

Section Visit.
  Context (O : obs) (B : bodies).

  (** T 96-102 anyany_poly_traits::get_type_descriptor *)
  Definition arg_desc (a : varg) : M descriptor :=
    match a with
    | VAny i _ => op_desc O (OpAny i)
    | VPoly p => match pv_k p with KPtr | KCPtr => ptr_desc O p | KRef | KCRef => op_desc O (OpCur (CView p)) end
    | VObj T _ _ => retM (ob_desc O (Some T))
    (* U 114-129: std::visit throws for a valueless variant, inside a noexcept function *)
    | VVar (Some (T, _)) _ => retM (ob_desc O (Some T))
    | VVar None _ => fun _ => Term
    end.
  (** T 108-120 to_address: raw() of pointers, (&v).raw() of references and anys, std::addressof otherwise *)
  Definition arg_addr (a : varg) : M (option ptr) :=
    match a with
    | VAny i c =>
        let! v := start O (if c then OCAddr i else OAddr i) in cur_ptr v
    | VPoly p =>
        match pv_k p with
        | KPtr | KCPtr => retM (pv_p p)
        | KRef | KCRef => let! v := run_step O AddrOf (CView p) in cur_ptr v
        end
    | VObj _ q _ => retM (Some q)
    (* U 137-148 *)
    | VVar (Some (_, q)) _ => retM (Some q)
    | VVar None _ => fun _ => Term
    end.
  (** does to_address return const void*? *)
  Definition arg_const (a : varg) : bool :=
    match a with
    | VAny _ c => c
    | VPoly p => match pv_k p with KCPtr | KCRef => true | KPtr | KRef => false end
    | VObj _ _ c => c
    | VVar _ c => c
    end.

  Fixpoint mapM {A C} (f : A -> M C) (l : list A) : M (list C) :=
    match l with [] => retM [] | a :: tl => let! x := f a in let! r := mapM f tl in retM (x :: r) end.
  Definition liftO {A} (x : option A) : M A := match x with Some a => retM a | None => ubM UbNoBlock end.

  (** std::array's operator<, element-wise <=> of descriptors *)
  Fixpoint key_cmp (a b : list descriptor) : option comparison :=
    match a, b with
    | [], [] => Some Eq
    | [], _ :: _ => Some Lt
    | _ :: _, [] => Some Gt
    | x :: a', y :: b' => match desc_cmp x y with Some Eq => key_cmp a' b' | r => r end
    end.
  Definition key_less (a b : list descriptor) : option bool :=
    match key_cmp a b with Some Lt => Some true | Some _ => Some false | None => None end.

  Definition arity (f : overload) : nat := length (ov_params f).
  (** V 37 *)
  Definition args_count (fs : list overload) : nat := foldr (fun f n => Nat.max (arity f) n) 0 fs.
  Definition pad {A} (n : nat) (x : A) (l : list A) : list A := l ++ repeat x (n - length l).
  (** V 118-123 make_key_value_pair_for: missing descriptors are value-initialised, i.e. void *)
  Definition key_of (fs : list overload) (f : overload) : list descriptor :=
    pad (args_count fs) (ob_desc O None) (map (fun p => ob_desc O (Some (pm_ty p))) (ov_params f)).
  Definition pairs_of (fs : list overload) : list (list descriptor * overload) := map (fun f => (key_of fs f, f)) fs.

  Definition nats_eqb (a b : list nat) : bool := bool_decide (a = b).
  (** V 128-130 signatures_must_be_unique_after_decay *)
  Fixpoint signatures_unique (fs : list overload) : bool :=
    match fs with
    | [] => true
    | f :: tl => negb (existsb (fun g => nats_eqb (map pm_ty (ov_params f)) (map pm_ty (ov_params g))) tl) && signatures_unique tl
    end.
  (** V 52-83 verify_const_correctness *)
  Definition const_row (n : nat) (f : overload) : list bool := pad n true (map is_const_arg (ov_params f)).
  Definition may_accept (row consts : list bool) : bool :=
    forallb (fun p => negb (negb (fst p) && snd p)) (combine row consts).
  Definition verify_const (fs : list overload) (consts : list bool) : bool :=
    let n := args_count fs in
    existsb (fun f => may_accept (const_row n f) (pad n false consts)) fs.
  (** V 84-104 runtime_const_correctness_check: look the winner up by its function pointer *)
  Definition runtime_const (fs : list overload) (winner : overload) (consts : list bool) : M bool :=
    match List.find (fun f => ov_id f =? ov_id winner) fs with
    | Some f => retM (may_accept (const_row (args_count fs) f) consts)
    | None => ubM UbNoBlock
    end.

  (** V 106-116 match_invoker: a by-value parameter is initialised with static_cast<T&&>( *p), i.e. moved *)
  Fixpoint bind_params (ps : list param) (addrs : list (option ptr)) : M (list bound) :=
    match ps, addrs with
    | [], _ => retM []
    | p :: ps', Some q :: addrs' =>
        let! o := read_as (pm_ty p) q in
        match pm_kind p with
        | PVal =>
            write_place q (Some (Obj (o_ty o) (bo_moved B (pm_ty p) (o_val o)) (o_id o))) ;;;
            let! r := bind_params ps' addrs' in retM (BVal (pm_ty p) (o_val o) :: r)
        | _ => let! r := bind_params ps' addrs' in retM (BRef q :: r)
        end
    | _, _ => ubM UbNoObject
    end.
  (** Foo{} is a null function pointer when Foo is a function pointer type *)
  Definition match_invoker (f : overload) (addrs : list (option ptr)) : M nat :=
    if ov_fptr f then ubM UbAssert
    else let! bs := bind_params (ov_params f) addrs in bo_run B (ov_id f) bs.

  (** V 126-131 the constructor's table *)
  Definition build (fs : list overload) : M (list (list descriptor * overload)) :=
    let! m := liftO (sort_pairs key_less (pairs_of fs)) in
    let! u := liftO (keys_unique key_less (map fst m)) in
    ensure u UbAssert ;;; retM m.

  (** V 137-158 resolve *)
  Definition resolve (unsafe : bool) (fs : list overload) (args : list varg) : M (option nat) :=
    let n := args_count fs in
    let consts := map arg_const args in
    ensure (signatures_unique fs) UbIllFormed ;;;
    ensure ((length args <=? n) && existsb (fun f => arity f =? length args) fs) UbIllFormed ;;;
    ensure (verify_const fs consts) UbIllFormed ;;;
    let! m := build fs in
    let! ds := mapM arg_desc args in
    let! it := liftO (find_key key_less m (pad n (ob_desc O None) ds)) in
    match it with
    | None => retM None
    | Some f =>
        let! ok := runtime_const fs f consts in
        if ok : bool then
          let! addrs := mapM arg_addr args in
          let! r := match_invoker f (pad n None addrs) in
          retM (Some r)
        else if unsafe then ubM UbAssert else retM None
    end.
End Visit.
