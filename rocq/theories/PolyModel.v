(** Model of the non-owning views poly_ref, const_poly_ref, poly_ptr, const_poly_ptr, stateful::ref, stateful::cref,
    their conversions, and of the observers any_cast, type_descriptor, ==, <=>, std::hash.
    Source: A = include/anyany/anyany.hpp.

    A type is a number standing for a decayed type, as in AnyModel; null vtable pointers and value-initialised
    tables are both [None].  Constness is static only: [kind] records it, no run-time field does. *)
From stdpp Require Import gmap list.
From Verif Require Import TypeListModel AnyModel DescModel.

(** What the program's types provide: descriptors (None: void), ==, <=> (None: unordered), hash; std::hash<void*>;
    and whether vtable<Method> is trivially copyable (A 547). *)
Record obs : Type := Obs {
  ob_desc : option nat -> descriptor;
  ob_eq : nat -> nat -> nat -> bool;
  ob_cmp : nat -> nat -> nat -> option comparison;
  ob_hash : nat -> nat -> nat;
  ob_phash : option ptr -> nat;
  ob_triv : method -> bool
}.

Inductive kind : Set := KPtr | KCPtr | KRef | KCRef.

(** the two fields of every view, and its static type *)
Record pval : Set := PV { pv_k : kind; pv_vt : option vptr; pv_p : option ptr; pv_ms : list method }.

(** a view, or a stateful::ref ([false]) / stateful::cref ([true]) with identity [r] *)
Inductive cur : Set := CView (p : pval) | CState (const : bool) (r : nat).

(** one conversion, in the order the program text performs them *)
Inductive step : Set :=
| ToPtr (ms : list method)              (* poly_ptr<ms>(p) *)
| ToCPtr (ms : list method)             (* const_poly_ptr<ms>(p) *)
| ToRef (ms : list method)              (* poly_ref<ms>(r) *)
| ToCRef (ms : list method)             (* const_poly_ref<ms>(r) *)
| Deref                                 (* unary * *)
| AddrOf                                (* unary & *)
| ConstCast                             (* const_pointer_cast(p) *)
| ToSref (r : nat) (ms : list method)   (* stateful::ref<ms> named r *)
| ToScref (r : nat) (ms : list method)  (* stateful::cref<ms> named r *)
| GetView.                              (* .get_view() *)

(** where a chain of conversions begins *)
Inductive origin : Set :=
| OAddr (i : nat)                                     (* &any, any not const *)
| OCAddr (i : nat)                                    (* &any, any const *)
| OPtrAny (i : option nat) (ms : list method)         (* poly_ptr<ms>(Any* ) *)
| OObj (k : kind) (T : nat) (p : option ptr) (ms : list method) (* from T* or T& *)
| OState (c : bool) (r T : nat) (p : ptr) (ms : list method).   (* stateful::ref/cref from T& *)

Section Poly.
  Context (E : env) (O : obs).

  Definition aliveb (w : world) (v : vptr) : bool :=
    match vp_home v with None => true | Some r => bool_decide (is_Some (w_sref w !! r)) end.

  (** entry number k of the table behind v *)
  Definition read_slot (v : vptr) (k : nat) : M slot := fun w =>
    if aliveb w v then match nth_error (vp_tab v) (vp_off v + k) with
                       | Some s => Ok s w
                       | None => UB UbWrongSlot
                       end
    else UB UbDanglingVtable.
  (** the whole vtable<ms> behind v *)
  Fixpoint read_tab (v : vptr) (k : nat) (ms : list method) : M (list slot) :=
    match ms with
    | [] => retM []
    | _ :: tl => let! s := read_slot v k in let! r := read_tab v (S k) tl in retM (s :: r)
    end.

  (** A 532-559 vtable_view, A 488-496 set_vtable_ptr: store the pointer, except that a view with a single method
      stores a copy of the entry *)
  Definition view_of (ms : list method) (v : option vptr) : M (option vptr) :=
    match ms, v with
    | [m], Some v => if ob_triv O m then let! s := read_slot v 0 in retM (Some (VPtr None [s] 0)) else retM (Some v)
    | _, _ => retM v
    end.

  (** A 417-442 subtable_ptr on a possibly null pointer *)
  Definition sub_ptr (to from : list method) (v : option vptr) : M (option vptr) :=
    match v with
    | Some v => let! v' := subtableM to from v in retM (Some v')
    | None => if list_same meqb to from then retM None else ubM UbAssert
    end.

  Definition null_view (k : kind) (ms : list method) : pval := PV k None None ms.
  Definition mk_view (k : kind) (ms : list method) (v : option vptr) (p : option ptr) : M pval :=
    let! v' := view_of ms v in retM (PV k v' p ms).
  (** set_vtable_ptr( *this, subtable_ptr<ms>(get_vtable_ptr(p))), value_ptr copied *)
  Definition conv_view (k : kind) (ms : list method) (p : pval) : M pval :=
    let! v := sub_ptr ms (pv_ms p) (pv_vt p) in mk_view k ms v (pv_p p).
  (** the same for pointers, null stays null *)
  Definition conv_ptr (k : kind) (ms : list method) (p : pval) : M pval :=
    match pv_p p with None => retM (null_view k ms) | Some _ => conv_view k ms p end.

  (** stateful references: the new object must not already exist *)
  Definition put_sref (r : nat) (s : sref) : M unit := fun w =>
    match w_sref w !! r with
    | Some _ => UB UbIllFormed
    | None => Ok tt (set_sref w (<[r := s]> (w_sref w)))
    end.
  Definition get_sref (r : nat) : M sref := fun w =>
    match w_sref w !! r with Some s => Ok s w | None => UB UbNoSuchAny end.

  (** A 909-911, 951-960: same list, the table is copied; A 878-895, 964-989 FOO: entries picked by name *)
  Definition take_tab (to from : list method) (v : option vptr) : M (list slot) :=
    match v with
    | None => ubM UbNullVtable
    | Some v => if list_same meqb to from then read_tab v 0 to else pick_slots from v to
    end.
  Definition from_view (r : nat) (ms : list method) (p : pval) : M unit :=
    let! tab := take_tab ms (pv_ms p) (pv_vt p) in
    match pv_p p with
    | Some q => put_sref r (SRefObj tab ms q)
    | None => ubM UbAssert
    end.
  Definition from_state (r' : nat) (ms : list method) (r : nat) : M unit :=
    let! s := get_sref r in
    let! tab := take_tab ms (sr_ms s) (Some (VPtr (Some r) (sr_tab s) 0)) in
    put_sref r' (SRefObj tab ms (sr_ptr s)).

  Definition run_step (st : step) (c : cur) : M cur :=
    match c, st with
    (* A 691-699 *)
    | CView (PV KPtr v p ms0), ToPtr ms => let! q := conv_ptr KPtr ms (PV KPtr v p ms0) in retM (CView q)
    (* A 771-794: from poly_ptr<Same>; via const_poly_ptr<FromMethods> otherwise *)
    | CView (PV KPtr v p ms0), ToCPtr ms =>
        let! q := mk_view KCPtr ms0 v p in
        if list_same meqb ms ms0 then retM (CView q) else let! q' := conv_ptr KCPtr ms q in retM (CView q')
    | CView (PV KCPtr v p ms0), ToCPtr ms => let! q := conv_ptr KCPtr ms (PV KCPtr v p ms0) in retM (CView q)
    (* A 597-602, 632-646 *)
    | CView (PV KRef v p ms0), ToRef ms => let! q := conv_view KRef ms (PV KRef v p ms0) in retM (CView q)
    | CView (PV KRef v p ms0), ToCRef ms => let! q := conv_view KCRef ms (PV KRef v p ms0) in retM (CView q)
    | CView (PV KCRef v p ms0), ToCRef ms => let! q := conv_view KCRef ms (PV KCRef v p ms0) in retM (CView q)
    (* A 722-725 (asserts), 815-817 (does not) *)
    | CView (PV KPtr v p ms0), Deref =>
        match p with None => ubM UbAssert | Some _ => retM (CView (PV KRef v p ms0)) end
    | CView (PV KCPtr v p ms0), Deref => retM (CView (PV KCRef v p ms0))
    (* A 832-845 *)
    | CView (PV KRef v p ms0), AddrOf => let! q := mk_view KPtr ms0 v p in retM (CView q)
    | CView (PV KCRef v p ms0), AddrOf => let! q := mk_view KCPtr ms0 v p in retM (CView q)
    (* A 849-855 *)
    | CView (PV KCPtr v p ms0), ConstCast => let! q := mk_view KPtr ms0 v p in retM (CView q)
    (* A 877-895, 909-918 *)
    | CView (PV KRef v p ms0), ToSref r ms => from_view r ms (PV KRef v p ms0) ;;; retM (CState false r)
    | CState false r0, ToSref r ms => from_state r ms r0 ;;; retM (CState false r)
    (* A 951-998; FOO of a const_poly_ref goes through *const_pointer_cast(&p), whose fields are the same *)
    | CView (PV KRef v p ms0), ToScref r ms => from_view r ms (PV KRef v p ms0) ;;; retM (CState true r)
    | CView (PV KCRef v p ms0), ToScref r ms => from_view r ms (PV KCRef v p ms0) ;;; retM (CState true r)
    | CState _ r0, ToScref r ms => from_state r ms r0 ;;; retM (CState true r)
    (* A 919-924, 999-1004: poly_ptr with set_vtable_ptr(&vtable_value), then *ptr *)
    | CState b r, GetView =>
        let! s := get_sref r in
        let! q := mk_view (if b then KCRef else KRef) (sr_ms s) (Some (VPtr (Some r) (sr_tab s) 0)) (Some (sr_ptr s)) in
        retM (CView q)
    | _, _ => ubM UbIllFormed
    end.

  Fixpoint run_steps (l : list step) (c : cur) : M cur :=
    match l with [] => retM c | st :: tl => let! c' := run_step st c in run_steps tl c' end.

  (** A 681-690 poly_ptr from Any*, A 761-770 const_poly_ptr from const Any* (its constraint has the arguments of
      has_subsequence the other way round) *)
  Definition ptr_any (i : nat) (ms : list method) : M pval :=
    let! a := get_any i in
    match has_subsequence meqb ms (a_ms a) with
    | CtOk true =>
        if has_val a then let! v := sub_ptr ms (a_ms a) (a_vt a) in mk_view KPtr ms v (Some (a_vp a))
        else retM (null_view KPtr ms)
    | _ => ubM UbIllFormed
    end.
  Definition cptr_any (i : nat) (ms : list method) : M pval :=
    let! a := get_any i in
    match has_subsequence meqb (a_ms a) ms with
    | CtOk true =>
        if has_val a then let! v := sub_ptr ms (a_ms a) (a_vt a) in mk_view KCPtr ms v (Some (a_vp a))
        else retM (null_view KCPtr ms)
    | _ => ubM UbIllFormed
    end.

  (** A 1183-1188 operator&; A 588-595, 623-630, 672-679, 753-759 from objects; A 904-907, 947-949 stateful *)
  Definition start (o : origin) : M cur :=
    match o with
    | OAddr i => let! a := get_any i in let! p := ptr_any i (a_ms a) in retM (CView p)
    | OCAddr i => let! a := get_any i in let! p := cptr_any i (a_ms a) in retM (CView p)
    | OPtrAny None ms => retM (CView (null_view KPtr ms))
    | OPtrAny (Some i) ms => let! p := ptr_any i ms in retM (CView p)
    | OObj k T p ms => let! q := mk_view k ms (Some (addr_vtable_for T ms)) p in retM (CView q)
    | OState b r T p ms => put_sref r (SRefObj (map (fun m => (T, m)) ms) ms p) ;;; retM (CState b r)
    end.

  (** ** Using the result *)

  (** invoke<m> for a pseudomethod: A 1059-1069; the vtable lookup of invoke<m> for a method *)
  Definition cur_slot (c : cur) (m : method) : M nat :=
    match c with
    | CView p => match pv_vt p with None => ubM UbNullVtable | Some v => vt_read (pv_ms p) v m end
    | CState _ r => let! s := get_sref r in vt_read (sr_ms s) (VPtr (Some r) (sr_tab s) 0) m
    end.
  Definition cur_ptr (c : cur) : M (option ptr) :=
    match c with CView p => retM (pv_p p) | CState _ r => let! s := get_sref r in retM (Some (sr_ptr s)) end.
  Definition cur_methods (w : world) (c : cur) : list method :=
    match c with
    | CView p => pv_ms p
    | CState _ r => match w_sref w !! r with Some s => sr_ms s | None => [] end
    end.

  (** the erased self argument *)
  Definition self_of (c : cur) : M ptr :=
    let! q := cur_ptr c in match q with Some q => retM q | None => ubM UbNoObject end.

  (** invoke<Method>(ref, arg), p->method(arg): A 1013-1057 *)
  Definition cur_invoke (c : cur) (n arg : nat) : M nat :=
    let! T := cur_slot c (MUser n) in
    let! q := self_of c in
    let! o := read_as T q in
    let r := e_meth E T n (o_val o) arg in
    write_place q (Some (Obj T (fst r) (o_id o))) ;;;
    match snd r with Some x => retM x | None => throwM end.

  (** ** Observers *)

  (** which plugin's type_descriptor is visible: the plugins form the chain spaceship : equal_to : type_info
      (A 1767-1781, 1803-1825, 1848-1872) and inheritor_without_duplicates keeps the most derived *)
  Definition desc_method (ms : list method) : option method :=
    if contains_v meqb MSpaceship ms then Some MSpaceship
    else if contains_v meqb MEqualTo ms then Some MEqualTo
    else if contains_v meqb MTypeInfo ms then Some MTypeInfo
    else None.

  (** an operand of the plugins' members: basic_any, which has has_value(), or a reference, which has not *)
  Inductive operand : Set := OpAny (i : nat) | OpCur (c : cur).

  Definition op_has_value (x : operand) : M bool :=
    match x with OpAny i => let! a := get_any i in retM (has_val a) | OpCur _ => retM true end.
  Definition op_slot (x : operand) (m : method) : M nat :=
    match x with OpAny i => any_slot i m | OpCur c => cur_slot c m end.
  Definition op_ptr (x : operand) : M ptr :=
    match x with OpAny i => let! a := get_any i in retM (a_vp a) | OpCur c => self_of c end.
  Definition op_methods (x : operand) : M (list method) :=
    match x with OpAny i => let! a := get_any i in retM (a_ms a) | OpCur c => fun w => Ok (cur_methods w c) w end.

  Definition need {X} (x : option X) : M X := match x with Some x => retM x | None => ubM UbIllFormed end.

  (** A 1768-1776 type_descriptor() of any and references *)
  Definition op_desc (x : operand) : M descriptor :=
    let! b := op_has_value x in
    if b : bool then
      let! ms := op_methods x in
      let! m := need (desc_method ms) in
      let! T := op_slot x m in
      retM (ob_desc O (Some T))
    else retM (ob_desc O None).

  (** A 729-733, 823-826 poly_ptr::type_descriptor: void for null *)
  Definition ptr_desc (p : pval) : M descriptor :=
    match pv_p p with
    | None => match desc_method (pv_ms p) with Some _ => retM (ob_desc O None) | None => ubM UbIllFormed end
    | Some _ => op_desc (OpCur (CView p))
    end.

  (** descriptor == : reading past the end of a name is undefined *)
  Definition desc_eqM (a b : descriptor) : M bool :=
    match desc_eq a b with Some e => retM e | None => ubM UbNoBlock end.

  (** A 1579-1601 any_cast_impl(Any* ): null for a null pointer or another type *)
  Definition cast_any (x : option nat) (T : nat) : M (option ptr) :=
    match x with
    | None => retM None
    | Some i =>
        let! d := op_desc (OpAny i) in
        let! e := desc_eqM d (ob_desc O (Some T)) in
        if e : bool then let! a := get_any i in retM (Some (a_vp a)) else retM None
    end.
  (** A 1603-1620 any_cast(Any&): throws bad_cast; the result is the reference *)
  Definition cast_any_ref (i : nat) (T : nat) : M ptr :=
    let! r := cast_any (Some i) T in match r with Some q => retM q | None => throwM end.
  (** A 1629-1640 any_cast(poly_ptr), any_cast(const_poly_ptr) *)
  Definition cast_ptr (p : pval) (T : nat) : M (option ptr) :=
    match pv_p p with
    | None => retM None
    | Some _ =>
        let! d := ptr_desc p in
        let! e := desc_eqM d (ob_desc O (Some T)) in
        if e : bool then retM (pv_p p) else retM None
    end.
  (** A 1642-1670 any_cast(poly_ref), any_cast(const_poly_ref) *)
  Definition cast_ref (p : pval) (T : nat) : M ptr :=
    let! c := run_step AddrOf (CView p) in
    match c with
    | CView q => let! r := cast_ptr q T in match r with Some q => retM q | None => throwM end
    | _ => ubM UbIllFormed
    end.
  (** A 1680-1687 any_cast(stateful::ref / cref) through get_view *)
  Definition cast_state (b : bool) (r T : nat) : M ptr :=
    let! c := run_step GetView (CState b r) in
    match c with CView q => cast_ref q T | _ => ubM UbIllFormed end.

  Definition val_at (T : nat) (q : ptr) : M nat := let! o := read_as T q in retM (o_val o).

  (** A 1805-1816 equal_to::plugin::operator== *)
  Definition eq_equal_to (l r : operand) : M bool :=
    let! bl := op_has_value l in
    let! br := op_has_value r in
    if negb bl || negb br then retM (Bool.eqb bl br)
    else
      let! T := op_slot l MEqualTo in
      let! U := op_slot r MEqualTo in
      let! e := desc_eqM (ob_desc O (Some T)) (ob_desc O (Some U)) in
      if e : bool then
        let! p := op_ptr l in let! q := op_ptr r in
        let! x := val_at T p in let! y := val_at T q in
        retM (ob_eq O T x y)
      else retM false.

  (** A 1856-1869 spaceship::plugin::operator<=> *)
  Definition cmp_spaceship (l r : operand) : M (option comparison) :=
    let! bl := op_has_value l in
    let! br := op_has_value r in
    if negb bl then retM (if br : bool then None else Some Eq)
    else
      let! T := op_slot l MSpaceship in
      let! U := op_slot r MSpaceship in
      let! e := desc_eqM (ob_desc O (Some T)) (ob_desc O (Some U)) in
      if e : bool then
        let! p := op_ptr l in let! q := op_ptr r in
        let! x := val_at T p in let! y := val_at T q in
        retM (ob_cmp O T x y)
      else retM None.
  (** A 1852-1855 spaceship::plugin::operator== *)
  Definition eq_spaceship (l r : operand) : M bool :=
    let! c := cmp_spaceship l r in retM (match c with Some Eq => true | _ => false end).

  (** the operator== lookup finds: spaceship's plugin shadows equal_to's *)
  Definition eq_op (l r : operand) : M bool :=
    let! ms := op_methods l in
    if contains_v meqb MSpaceship ms then eq_spaceship l r
    else if contains_v meqb MEqualTo ms then eq_equal_to l r
    else ubM UbIllFormed.

  (** A 1979-1985 std::hash<basic_any>; A 1986-2013 hash of references; A 344-350 hash::do_invoke *)
  Definition hash_op (x : operand) : M nat :=
    let! b := op_has_value x in
    if b : bool then
      let! T := op_slot x MHash in let! p := op_ptr x in let! v := val_at T p in retM (ob_hash O T v)
    else retM 0.

  (** A 1877-1891 operator== of pointers; a mixed comparison converts the left side first *)
  Definition ptr_eq (l r : pval) : M bool :=
    if bool_decide (pv_p l = pv_p r) then
      let! d := ptr_desc l in let! d' := ptr_desc r in desc_eqM d d'
    else retM false.
  Definition ptr_eq_mixed (l r : pval) : M bool :=
    let! c := run_step (ToCPtr (pv_ms l)) (CView l) in
    match c with CView l' => ptr_eq l' r | _ => ubM UbIllFormed end.
  (** A 2014-2025 std::hash of pointers: std::hash<void*>{}(p.raw()).  raw() of const_poly_ptr returns const void* (A 795), so that its
      hash does not compile (None) *)
  Definition hash_ptr (p : pval) : option nat := match pv_k p with KPtr => Some (ob_phash O (pv_p p)) | _ => None end.
End Poly.
