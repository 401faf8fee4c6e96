(** Model of variables of the types poly_ptr, const_poly_ptr, poly_ref, const_poly_ref, stateful::ref, stateful::cref:
    null pointers, assignment (which overload of operator= is chosen and what it does), lifetimes of temporaries, and
    the operators pointers have.
    Source: A = include/anyany/anyany.hpp.

    Conversions are those of PolyModel.  A view that stores a pointer into the table of a stateful reference reads
    the table that reference has at the time of the read ([refresh]).  Initialiser lists on the right of an assignment
    are not modelled. *)
From stdpp Require Import gmap list.
From Verif Require Import TypeListModel AnyModel DescModel PolyModel.

(** ** Overload resolution for [r = x], r a reference of the library (A 577-586, 623, 898, 942) *)

(** the right side: of r's own type or another; const; lvalue or rvalue *)
Record arg : Set := Arg { ar_same : bool; ar_const : bool; ar_lvalue : bool }.

(** a parameter after deduction: lvalue or rvalue reference, to const or not; whether a conversion function is needed;
    whether the function is a template; whether it is deleted *)
Record cand : Set := Cand { cd_lref : bool; cd_const : bool; cd_user : bool; cd_tmpl : bool; cd_deleted : bool }.

(** A 581: NAME& operator=(const NAME&) *)
Definition copy_assign (a : arg) : cand := Cand true true (negb (ar_same a)) false false.
(** A 582: NAME& operator=(NAME&&) *)
Definition move_assign (a : arg) : cand := Cand false false (negb (ar_same a)) false false.
(** A 583-584: template <typename X> void operator=(X&&) = delete; X&& collapses to the argument's own type *)
Definition any_assign (a : arg) : cand := Cand (ar_lvalue a) (ar_const a) false true true.

(** can the parameter be initialised: a converted argument is a temporary, otherwise reference binding *)
Definition viable (a : arg) (c : cand) : bool :=
  let const := if cd_user c then false else ar_const a in
  let lvalue := if cd_user c then false else ar_lvalue a in
  (cd_const c || negb const) && (if cd_lref c then lvalue || cd_const c else negb lvalue).

(** is c's conversion of the argument better than d's: no conversion function; an rvalue reference for an rvalue;
    a less const referenced type *)
Definition conv_better (a : arg) (c d : cand) : bool :=
  if negb (Bool.eqb (cd_user c) (cd_user d)) then negb (cd_user c)
  else
    let rvalue := cd_user c || negb (ar_lvalue a) in
    if rvalue && negb (Bool.eqb (cd_lref c) (cd_lref d)) then negb (cd_lref c)
    else Bool.eqb (cd_lref c) (cd_lref d) && negb (cd_const c) && cd_const d.
(** equally good conversions: a function is preferred to a template *)
Definition better (a : arg) (c d : cand) : bool :=
  conv_better a c d || (negb (conv_better a d c) && negb (cd_tmpl c) && cd_tmpl d).

(** the viable candidate better than all others; [n] its number *)
Definition resolve (a : arg) (cs : list cand) : option cand :=
  let v := filter (fun c => viable a c = true) cs in
  match filter (fun nc => forallb (fun md => (fst nc =? fst md) || better a (snd nc) (snd md)) (combine (seq 0 (length v)) v) = true)
               (combine (seq 0 (length v)) v) with
  | [(_, c)] => Some c
  | _ => None
  end.
(** does [r = x] compile *)
Definition ref_assignable (a : arg) : bool :=
  match resolve a [copy_assign a; move_assign a; any_assign a] with Some c => negb (cd_deleted c) | None => false end.
(** pointers: implicitly declared copy and move assignment (A 655-734, 737-827), no template; arguments of other types
    are converted first *)
Definition ptr_assignable (a : arg) : bool :=
  match resolve a [copy_assign a; move_assign a] with Some c => ar_same a && negb (cd_deleted c) | None => false end.

(** ** Programs *)

(** an expression: a conversion chain from an object, any or null, or from a variable *)
Inductive source : Set := SOrigin (o : origin) | SVar (y : nat).
(** how a variable is named on the right side: [y], [std::move(y)], with or without const *)
Inductive naming : Set := Named (const lvalue : bool).

Inductive stmt : Set :=
| SDefault (x : nat) (k : kind) (ms : list method)        (* P x;  A 664, 746 *)
| SNull (x : nat) (k : kind) (ms : list method)           (* P x = nullptr;  A 665-666, 747-748 *)
| SNew (x : nat) (s : source) (l : list step)             (* auto x = e; *)
| SAssignNull (x : nat)                                   (* x = nullptr;  A 667-670, 749-752 *)
| SAssign (x : nat) (s : source) (l : list step)          (* x = e; e a temporary *)
| SAssignVar (x y : nat) (n : naming)                     (* x = y; *)
| SEnd (x : nat).                                         (* end of x's lifetime *)

Record pstate : Type := PState { ps_w : world; ps_vars : gmap nat cur }.
Inductive outcome : Type := POk (s : pstate) | PBad (r : ubreason) | PExn.

Section Rebind.
  Context (O : obs).

  Definition kind_ptr (k : kind) : bool := match k with KPtr | KCPtr => true | KRef | KCRef => false end.

  (** the table behind a view is the one its home has now *)
  Definition refresh_vt (w : world) (v : vptr) : vptr :=
    match vp_home v with
    | Some r => match w_sref w !! r with Some s => VPtr (Some r) (sr_tab s) (vp_off v) | None => v end
    | None => v
    end.
  Definition refresh (w : world) (c : cur) : cur :=
    match c with
    | CView p => CView (PV (pv_k p) (option_map (refresh_vt w) (pv_vt p)) (pv_p p) (pv_ms p))
    | CState b r => CState b r
    end.
  Definition read_var (s : pstate) (x : nat) : option cur := option_map (refresh (ps_w s)) (ps_vars s !! x).

  (** stateful references an expression creates *)
  Definition new_names (s : source) (l : list step) : list nat :=
    (match s with SOrigin (OState _ r _ _ _) => [r] | _ => [] end) ++
    concat (map (fun st => match st with ToSref r _ | ToScref r _ => [r] | _ => [] end) l).
  (** the end of the full expression: temporaries are destroyed, except the one that became the variable *)
  Definition drop_temps (names : list nat) (keep : option nat) (w : world) : world :=
    set_sref w (foldr (fun r m => if bool_decide (keep = Some r) then m else delete r m) (w_sref w) names).

  Definition eval (s : pstate) (e : source) (l : list step) : res cur :=
    match e with
    | SOrigin o => bindM (start O o) (run_steps O l) (ps_w s)
    | SVar y => match read_var s y with Some c => run_steps O l c (ps_w s) | None => UB UbIllFormed end
    end.

  Definition same_type (w : world) (a b : cur) : bool :=
    match a, b with
    | CView p, CView q =>
        match pv_k p, pv_k q with KPtr, KPtr | KCPtr, KCPtr | KRef, KRef | KCRef, KCRef => true | _, _ => false end
        && list_same meqb (pv_ms p) (pv_ms q)
    | CState b r, CState b' r' =>
        Bool.eqb b b' && match w_sref w !! r, w_sref w !! r' with Some s, Some s' => list_same meqb (sr_ms s) (sr_ms s') | _, _ => false end
    | _, _ => false
    end.
  Definition assignable (x : cur) (a : arg) : bool :=
    match x with CView p => if kind_ptr (pv_k p) then ptr_assignable a else ref_assignable a | CState _ _ => ref_assignable a end.

  (** memberwise copy of the fields; for a stateful reference pointer and table (A 868-869, 935-936) *)
  Definition store (x : nat) (old new : cur) (s : pstate) : option pstate :=
    match old, new with
    | CView _, CView q => Some (PState (ps_w s) (<[x := CView q]> (ps_vars s)))
    | CState _ r, CState _ r' =>
        match w_sref (ps_w s) !! r' with
        | Some v => Some (PState (set_sref (ps_w s) (<[r := v]> (w_sref (ps_w s)))) (ps_vars s))
        | None => None
        end
    | _, _ => None
    end.

  Definition finish (names : list nat) (keep : option nat) (s : pstate) : pstate :=
    PState (drop_temps names keep (ps_w s)) (ps_vars s).

  Definition run_stmt (t : stmt) (s : pstate) : outcome :=
    match t with
    | SDefault x k ms | SNull x k ms =>
        match ps_vars s !! x with
        | Some _ => PBad UbIllFormed
        | None => if kind_ptr k then POk (PState (ps_w s) (<[x := CView (null_view k ms)]> (ps_vars s))) else PBad UbIllFormed
        end
    | SNew x e l =>
        match ps_vars s !! x with
        | Some _ => PBad UbIllFormed
        | None =>
            match eval s e l with
            | Ok c w' =>
                match c, e, l with
                | CState _ _, SVar _, [] => PBad UbIllFormed (* a copy is written as a conversion to the same list *)
                | _, _, _ =>
                    let keep := match c with CState _ r => Some r | CView _ => None end in
                    POk (finish (new_names e l) keep (PState w' (<[x := c]> (ps_vars s))))
                end
            | Exn _ => PExn
            | UB r => PBad r
            | Term => PExn
            end
        end
    | SAssignNull x =>
        match ps_vars s !! x with
        | Some (CView p) =>
            if kind_ptr (pv_k p) then POk (PState (ps_w s) (<[x := CView (null_view (pv_k p) (pv_ms p))]> (ps_vars s)))
            else PBad UbIllFormed
        | _ => PBad UbIllFormed
        end
    | SAssign x e l =>
        match ps_vars s !! x, eval s e l with
        | Some old, Ok c w' =>
            match e, l with
            | SVar _, [] => PBad UbIllFormed (* not a temporary *)
            | _, _ =>
                if assignable old (Arg (same_type w' old c) false false) then
                  match store x old c (PState w' (ps_vars s)) with
                  | Some s' => POk (finish (new_names e l) None s')
                  | None => PBad UbIllFormed
                  end
                else PBad UbIllFormed
            end
        | Some _, Exn _ => PExn
        | Some _, UB r => PBad r
        | Some _, Term => PExn
        | None, _ => PBad UbIllFormed
        end
    | SAssignVar x y (Named const lvalue) =>
        match ps_vars s !! x, read_var s y with
        | Some old, Some c =>
            if assignable old (Arg (same_type (ps_w s) old c) const lvalue) then
              match store x old c s with Some s' => POk s' | None => PBad UbIllFormed end
            else PBad UbIllFormed
        | _, _ => PBad UbIllFormed
        end
    | SEnd x =>
        match ps_vars s !! x with
        | Some (CView _) => POk (PState (ps_w s) (delete x (ps_vars s)))
        | Some (CState _ r) => POk (PState (set_sref (ps_w s) (delete r (w_sref (ps_w s)))) (delete x (ps_vars s)))
        | None => PBad UbIllFormed
        end
    end.

  Fixpoint run_stmts (l : list stmt) (s : pstate) : outcome :=
    match l with
    | [] => POk s
    | t :: tl => match run_stmt t s with POk s' => run_stmts tl s' | r => r end
    end.

  (** ** Operators of pointers *)

  (** A 702-704, 795-797 raw; A 705-707, 798-800 has_value; A 716-718, 809-811 operator bool *)
  Definition raw (p : pval) : option ptr := pv_p p.
  Definition has_value (p : pval) : bool := match raw p with Some _ => true | None => false end.
  Definition to_bool (p : pval) : bool := has_value p.
  (** A 708-710, 801-803 == nullptr; A 711-715, 804-808: != in C++17, rewritten in C++20 *)
  Definition eq_null (p : pval) : bool := negb (has_value p).
  Definition ne_null (p : pval) : bool := negb (eq_null p).

  (** A 726-728, 818-820 operator->, a pointer to the reference inside; A 722-725, 815-817 operator* *)
  Definition arrow (p : pval) : option pval :=
    match pv_k p with
    | KPtr => Some (PV KRef (pv_vt p) (pv_p p) (pv_ms p))
    | KCPtr => Some (PV KCRef (pv_vt p) (pv_p p) (pv_ms p))
    | KRef | KCRef => None
    end.

  (** p == q and p != q for the same list of methods.  A 1877-1891; A 1892-1918 in C++17; in C++20 [const_p == p] is
      [p == const_p] and [!=] is the negation *)
  Definition to_const (p : pval) : M pval :=
    let! c := run_step O (ToCPtr (pv_ms p)) (CView p) in match c with CView q => retM q | CState _ _ => ubM UbIllFormed end.
  Definition cmp_eq (cpp20 : bool) (p q : pval) : M bool :=
    if list_same meqb (pv_ms p) (pv_ms q) then
      match pv_k p, pv_k q with
      | KPtr, KPtr | KCPtr, KCPtr => ptr_eq O p q
      | KPtr, KCPtr => let! p' := to_const p in ptr_eq O p' q
      | KCPtr, KPtr => if cpp20 then let! q' := to_const q in ptr_eq O q' p else let! q' := to_const q in ptr_eq O p q'
      | _, _ => ubM UbIllFormed
      end
    else ubM UbIllFormed.
  Definition cmp_ne (cpp20 : bool) (p q : pval) : M bool :=
    if cpp20 then let! b := cmp_eq cpp20 p q in retM (negb b)
    else if list_same meqb (pv_ms p) (pv_ms q) then
      match pv_k p, pv_k q with
      | KPtr, KPtr | KCPtr, KCPtr => let! b := ptr_eq O p q in retM (negb b)
      | KCPtr, KPtr => let! q' := to_const q in let! b := ptr_eq O p q' in retM (negb b)
      | KPtr, KCPtr => let! p' := to_const p in let! b := ptr_eq O p' q in retM (negb b)
      | _, _ => ubM UbIllFormed
      end
    else ubM UbIllFormed.
End Rebind.
