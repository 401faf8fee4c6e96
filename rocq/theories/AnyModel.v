(** Executable model of aa::basic_any and its operations.
    Sources: A = include/anyany/anyany.hpp, D = include/anyany/noexport/anyany_details.hpp.

    Simplifications (see DESIGN.md): a stored value is a number, copy and move constructors preserve it;
    allocators are numbers compared by (==); the element "pointer" types are symbolic places
    (the buffer of an any, or a heap block); block and object identifiers are never reused;
    a place holds at most one object. *)
From stdpp Require Import gmap list.
From Verif Require Import TypeListModel.

(** ** Methods, vtables *)

(** The methods an interface may contain.  [MCopy true] is copy_with<Alloc, SooS> with the any's own
    parameters, [MCopy false] a copy_with with other parameters (A 277-341). *)
Inductive method : Set :=
| MDestroy                 (* A 232-253 *)
| MMove                    (* A 255-269 *)
| MCopy (own : bool)       (* A 277-341 *)
| MTypeInfo                (* A 1759-1781 *)
| MEqualTo                 (* A 1784-1826 *)
| MSpaceship               (* A 1830-1873 *)
| MHash                    (* A 344-350 *)
| MUser (n : nat).         (* any user method *)

Global Instance method_eq_dec : EqDecision method.
Proof. solve_decision. Defined.

(** std::is_same_v on methods *)
Definition meqb (a b : method) : bool := bool_decide (a = b).

(** A vtable entry, identified by what &invoker_for<T, Method>::value denotes (A 454). *)
Notation slot := (nat * method)%type.

(** A [const vtable<Methods...>*]: an offset into an array of entries.  [vp_home = None]: the static
    vtable_for<T, Methods...>; [Some r]: the array lives inside the stateful reference [r]. *)
Record vptr : Set := VPtr { vp_home : option nat; vp_tab : list slot; vp_off : nat }.

(** A 453-458 addr_vtable_for<T, Methods...> *)
Definition addr_vtable_for (T : nat) (ms : list method) : vptr :=
  VPtr None (map (fun m => (T, m)) ms) 0.

(** ** Types, configuration *)

Record tyinfo : Set := TyInfo {
  ty_size : nat;        (* sizeof *)
  ty_align : nat;       (* alignof *)
  ty_ntmove : bool;     (* is_nothrow_move_constructible *)
  ty_ntcopy : bool;     (* is_nothrow_copy_constructible *)
  ty_tcopy : bool;      (* is_trivially_copyable *)
  ty_tdestr : bool      (* is_trivially_destructible *)
}.

(** alignof(std::max_align_t) on the supported 64-bit platforms; also what allocation returns *)
Definition max_align : nat := 16.

Record env : Type := Env {
  e_ty : nat -> tyinfo;
  e_soos : nat;                      (* SooS *)
  e_always_eq : bool;                (* allocator_traits::is_always_equal *)
  e_pocma : bool;                    (* propagate_on_container_move_assignment *)
  e_pocca : bool;                    (* propagate_on_container_copy_assignment *)
  e_socc : nat -> nat;               (* select_on_container_copy_construction *)
  e_copy_req_alloc : bool;           (* D 250-253 copy_requires_alloc<Alloc>() *)
  e_def_alloc : nat;                 (* Alloc{} *)
  (* body of user method n for type T on a value with an argument: new value, result or exception *)
  e_meth : nat -> nat -> nat -> nat -> nat * option nat;
  e_throws : nat -> bool             (* oracle: does the k-th potentially throwing action throw? *)
}.

(** ** Memory *)

Record obj : Set := Obj { o_ty : nat; o_val : nat; o_id : nat }.

Inductive ptr : Set :=
| PData (any_id : nat)      (* the buffer `data` of that any *)
| PHeap (block_id : nat).   (* start of a heap block *)

Global Instance ptr_eq_dec : EqDecision ptr.
Proof. solve_decision. Defined.

(** The anonymous union { std::byte data[SooS]; size_t size_allocated; } (A 1117-1121) *)
Inductive ucontent : Set :=
| UEmpty                    (* no meaningful content *)
| USize (n : nat)           (* size_allocated was written *)
| UObj (o : obj).           (* an object lives in data *)

(** Fields of basic_any (A 1115-1122); [a_ms] is the static Methods... pack. *)
Record any : Set := Any {
  a_vt : option vptr;
  a_vp : ptr;
  a_un : ucontent;
  a_alloc : nat;
  a_ms : list method
}.

Record block : Set := Block { b_alloc : nat; b_size : nat; b_obj : option obj }.

(** A stateful::ref / stateful::cref: own vtable value plus pointer (A 863-1005) *)
Record sref : Set := SRefObj { sr_tab : list slot; sr_ms : list method; sr_ptr : ptr }.

Inductive event : Set :=
| EvAlloc (b al n : nat)
| EvFree (b al n : nat)
| EvCtor (id T : nat)
| EvDtor (id T : nat).

Record world : Type := World {
  w_any : gmap nat any;
  w_heap : gmap nat block;
  w_sref : gmap nat sref;
  w_next : nat;          (* next fresh block/object identifier *)
  w_tick : nat;          (* number of oracle questions asked so far *)
  w_log : list event     (* newest first *)
}.

Definition set_any (w : world) (x : gmap nat any) : world :=
  World x (w_heap w) (w_sref w) (w_next w) (w_tick w) (w_log w).
Definition set_heap (w : world) (x : gmap nat block) : world :=
  World (w_any w) x (w_sref w) (w_next w) (w_tick w) (w_log w).
Definition set_sref (w : world) (x : gmap nat sref) : world :=
  World (w_any w) (w_heap w) x (w_next w) (w_tick w) (w_log w).
Definition set_next (w : world) (x : nat) : world :=
  World (w_any w) (w_heap w) (w_sref w) x (w_tick w) (w_log w).
Definition set_tick (w : world) (x : nat) : world :=
  World (w_any w) (w_heap w) (w_sref w) (w_next w) x (w_log w).
Definition add_log (w : world) (e : event) : world :=
  World (w_any w) (w_heap w) (w_sref w) (w_next w) (w_tick w) (e :: w_log w).

Definition init_world : world := World ∅ ∅ ∅ 0 0 [].

(** ** Outcomes *)

Inductive ubreason : Set :=
| UbNoSuchAny | UbNoObject | UbWrongType | UbNoBlock | UbTooSmall | UbMisaligned | UbOverLive
| UbBadFree | UbWrongAllocator | UbWrongSize | UbFreeLive | UbInactiveSize | UbNullVtable
| UbWrongSlot | UbDanglingVtable | UbIllFormed | UbAssert | UbLostObject | UbBadDest.

Inductive res (A : Type) : Type :=
| Ok (a : A) (w : world)
| Exn (w : world)            (* a C++ exception leaves *)
| UB (r : ubreason)          (* undefined behaviour *)
| Term.                      (* std::terminate *)
Arguments Ok {A}. Arguments Exn {A}. Arguments UB {A}. Arguments Term {A}.

Definition M (A : Type) : Type := world -> res A.

Definition retM {A} (a : A) : M A := fun w => Ok a w.
Definition ubM {A} (r : ubreason) : M A := fun _ => UB r.
Definition throwM {A} : M A := fun w => Exn w.
Definition bindM {A B} (m : M A) (f : A -> M B) : M B := fun w =>
  match m w with Ok a w' => f a w' | Exn w' => Exn w' | UB r => UB r | Term => Term end.

Notation "'let!' x := m 'in' k" := (bindM m (fun x => k)) (at level 200, x pattern, right associativity).
Notation "m ;;; k" := (bindM m (fun _ => k)) (at level 100, right associativity).

(** noexcept(b) on a function: an escaping exception calls std::terminate. *)
Definition noexcept_if {A} (b : bool) (m : M A) : M A := fun w =>
  match m w with Exn w' => if b then Term else Exn w' | r => r end.

(** scope_failure (D 417-434) / catch(...) { h; throw; }: [h] runs iff the body throws. *)
Definition on_exn {A} (m : M A) (h : M unit) : M A := fun w =>
  match m w with
  | Exn w' => match h w' with
              | Ok _ w'' => Exn w''
              | Exn _ => Term
              | UB r => UB r
              | Term => Term
              end
  | r => r
  end.

Definition ensure (b : bool) (r : ubreason) : M unit := if b then retM tt else ubM r.

(** ** Primitive memory actions *)
Section Model.
  Context (E : env).

  Notation ty_of T := (e_ty E T).

  (** one question to the exception oracle *)
  Definition ask : M bool := fun w => Ok (e_throws E (w_tick w)) (set_tick w (S (w_tick w))).

  Definition fresh : M nat := fun w => Ok (w_next w) (set_next w (S (w_next w))).
  Definition emit (e : event) : M unit := fun w => Ok tt (add_log w e).

  Definition get_any (i : nat) : M any := fun w =>
    match w_any w !! i with Some a => Ok a w | None => UB UbNoSuchAny end.
  (** raw write of the fields of an any that is alive *)
  Definition put_any (i : nat) (a : any) : M unit := fun w =>
    match w_any w !! i with
    | Some _ => Ok tt (set_any w (<[i := a]> (w_any w)))
    | None => UB UbNoSuchAny
    end.
  Definition get_block (b : nat) : M block := fun w =>
    match w_heap w !! b with Some x => Ok x w | None => UB UbNoBlock end.
  Definition put_block (b : nat) (x : block) : M unit := fun w =>
    match w_heap w !! b with
    | Some _ => Ok tt (set_heap w (<[b := x]> (w_heap w)))
    | None => UB UbNoBlock
    end.

  (** An object whose destructor must run. *)
  Definition nontrivial (o : obj) : bool := negb (ty_tdestr (ty_of (o_ty o))).
  Definition un_free (u : ucontent) : bool :=
    match u with UObj o => negb (nontrivial o) | _ => true end.
  Definition bo_free (o : option obj) : bool :=
    match o with Some x => negb (nontrivial x) | None => true end.

  (** field writes of a live any *)
  Definition set_vt (i : nat) (v : option vptr) : M unit :=
    let! a := get_any i in put_any i (Any v (a_vp a) (a_un a) (a_alloc a) (a_ms a)).
  Definition set_vp (i : nat) (p : ptr) : M unit :=
    let! a := get_any i in put_any i (Any (a_vt a) p (a_un a) (a_alloc a) (a_ms a)).
  Definition set_alloc (i : nat) (al : nat) : M unit :=
    let! a := get_any i in put_any i (Any (a_vt a) (a_vp a) (a_un a) al (a_ms a)).
  (** size_allocated = n: must not overwrite a live object in the union *)
  Definition set_size (i : nat) (n : nat) : M unit :=
    let! a := get_any i in
    ensure (un_free (a_un a)) UbOverLive ;;;
    put_any i (Any (a_vt a) (a_vp a) (USize n) (a_alloc a) (a_ms a)).
  (** reading size_allocated requires that it was written last *)
  Definition get_size (i : nat) : M nat :=
    let! a := get_any i in
    match a_un a with USize n => retM n | _ => ubM UbInactiveSize end.

  (** lvalue read of the object at a place *)
  Definition read_obj (p : ptr) : M obj :=
    match p with
    | PData i => let! a := get_any i in
                 match a_un a with UObj o => retM o | _ => ubM UbNoObject end
    | PHeap b => let! x := get_block b in
                 match b_obj x with Some o => retM o | None => ubM UbNoObject end
    end.

  Definition read_as (T : nat) (p : ptr) : M obj :=
    let! o := read_obj p in ensure (bool_decide (o_ty o = T)) UbWrongType ;;; retM o.

  (** overwrite the content of a place (no checks beyond existence) *)
  Definition write_place (p : ptr) (o : option obj) : M unit :=
    match p with
    | PData i => let! a := get_any i in
                 put_any i (Any (a_vt a) (a_vp a) (match o with Some x => UObj x | None => UEmpty end)
                                (a_alloc a) (a_ms a))
    | PHeap b => let! x := get_block b in put_block b (Block (b_alloc x) (b_size x) o)
    end.

  (** may an object of type T be created at p?  Enough bytes, aligned, no live object there. *)
  Definition check_place (T : nat) (p : ptr) : M unit :=
    ensure (ty_align (ty_of T) <=? max_align) UbMisaligned ;;;
    match p with
    | PData i => let! a := get_any i in
                 ensure (ty_size (ty_of T) <=? e_soos E) UbTooSmall ;;;
                 ensure (un_free (a_un a)) UbOverLive
    | PHeap b => let! x := get_block b in
                 ensure (ty_size (ty_of T) <=? b_size x) UbTooSmall ;;;
                 ensure (bo_free (b_obj x)) UbOverLive
    end.

  (** constructor argument: a prvalue-like value, or a reference to an existing T *)
  Inductive src : Set := SVal (v : nat) | SRef (p : ptr).

  Definition read_src (T : nat) (s : src) : M nat :=
    match s with
    | SVal v => retM v
    | SRef p => let! o := read_as T p in retM (o_val o)
    end.

  (** ::new (p) T(src); [nt]: this constructor is noexcept. *)
  Definition construct (T : nat) (p : ptr) (s : src) (nt : bool) : M unit :=
    check_place T p ;;;
    let! v := read_src T s in
    let! thr := (if nt then retM false else ask) in
    if thr : bool then write_place p None ;;; throwM
    else
      let! id := fresh in
      write_place p (Some (Obj T v id)) ;;;
      if ty_tdestr (ty_of T) then retM tt else emit (EvCtor id T).

  (** p->~T() of destroy_at (D 178-181) *)
  Definition destroy_at (T : nat) (p : ptr) : M unit :=
    let! o := read_as T p in
    write_place p None ;;;
    if ty_tdestr (ty_of T) then retM tt else emit (EvDtor (o_id o) T).

  (** std::memcpy(dest, src, sizeof(T)) of a trivially copyable T *)
  Definition memcpy (T : nat) (s d : ptr) : M unit :=
    check_place T d ;;;
    let! o := read_as T s in
    let! id := fresh in
    write_place d (Some (Obj T (o_val o) id)).

  (** alloc.allocate(n) *)
  Definition allocate (al n : nat) : M nat :=
    let! thr := ask in
    if thr : bool then throwM
    else
      let! b := fresh in
      (fun w => Ok tt (set_heap w (<[b := Block al n None]> (w_heap w)))) ;;;
      emit (EvAlloc b al n) ;;;
      retM b.

  (** alloc == other *)
  Definition alloc_eqb (a b : nat) : bool := e_always_eq E || (a =? b).

  (** alloc.deallocate(p, n): p must be a block of an equal allocator with that size, and no object
      that still needs its destructor may be in it. *)
  Definition deallocate (al : nat) (p : ptr) (n : nat) : M unit :=
    match p with
    | PData _ => ubM UbBadFree
    | PHeap b =>
        let! x := get_block b in
        ensure (alloc_eqb al (b_alloc x)) UbWrongAllocator ;;;
        ensure (n =? b_size x) UbWrongSize ;;;
        ensure (bo_free (b_obj x)) UbFreeLive ;;;
        (fun w => Ok tt (set_heap w (delete b (w_heap w)))) ;;;
        emit (EvFree b al n)
    end.

  (** ** vtable access *)

  (** get<number_of_first<Method, Methods...>>( *ptr)  (A 387-403); the result is the type whose
      implementation the entry is *)
  Definition vt_read (ms : list method) (v : vptr) (m : method) : M nat := fun w =>
    if match vp_home v with None => true | Some r => bool_decide (is_Some (w_sref w !! r)) end
    then match number_of_first meqb m ms with
         | None => UB UbIllFormed
         | Some k => match nth_error (vp_tab v) (vp_off v + k) with
                     | Some (T, m') => if meqb m m' then Ok T w else UB UbWrongSlot
                     | None => UB UbWrongSlot
                     end
         end
    else UB UbDanglingVtable.

  (** A 417-442 subtable_ptr_fn: identical lists give the same pointer, otherwise address of the
      element where the sublist begins *)
  Definition subtable (to from : list method) (v : vptr) : option vptr :=
    if list_same meqb to from then Some v
    else match find_subsequence meqb to from with
         | CtOk (Some n) => Some (VPtr (vp_home v) (vp_tab v) (vp_off v + n))
         | _ => None
         end.

  Definition subtableM (to from : list method) (v : vptr) : M vptr :=
    match subtable to from v with Some v' => retM v' | None => ubM UbIllFormed end.

  (** invoke<Method>(any) for pseudomethods *)
  Definition any_slot (i : nat) (m : method) : M nat :=
    let! a := get_any i in
    match a_vt a with
    | None => ubM UbNullVtable
    | Some v => vt_read (a_ms a) v m
    end.

  (** ** relocation and copying (D 227-316) *)

  (** D 227-230 *)
  Definition fits (T : nat) : bool :=
    (ty_align (ty_of T) <=? max_align) && ty_ntmove (ty_of T) && (ty_size (ty_of T) <=? e_soos E).

  (** move::do_value<T>() (A 259-268): relocate_trivial (D 244-248) or relocate<T> (D 233-239) *)
  Definition relocate (T : nat) (s d : ptr) : M unit :=
    if ty_tcopy (ty_of T) && ty_tdestr (ty_of T) then memcpy T s d
    else noexcept_if true (construct T d (SRef s) (ty_ntmove (ty_of T)) ;;; destroy_at T s).

  (** the size_t written under `dest` by copy_fn (D 283): dest is the buffer of the new any *)
  Definition write_size_at (d : ptr) (n : nat) : M unit :=
    match d with PData i => set_size i n | PHeap _ => ubM UbBadDest end.

  (** select_copy_fn<T> (A 281-297) with trivial_copy_small_fn (D 293-301), trivial_copy_big_fn
      (D 303-316), copy_fn (D 263-291); returns the pointer to the copy *)
  Definition copy_fn (T : nat) (al : nat) (s d : ptr) : M ptr :=
    if ty_tcopy (ty_of T) then
      if fits T then memcpy T s d ;;; retM d
      else
        let! b := allocate al (ty_size (ty_of T)) in
        memcpy T s (PHeap b) ;;;
        write_size_at d (ty_size (ty_of T)) ;;;
        retM (PHeap b)
    else if fits T then construct T d (SRef s) (ty_ntcopy (ty_of T)) ;;; retM d
    else
      let! b := allocate al (ty_size (ty_of T)) in
      (if ty_ntcopy (ty_of T) then construct T (PHeap b) (SRef s) true
       else on_exn (construct T (PHeap b) (SRef s) false)
                   (deallocate al (PHeap b) (ty_size (ty_of T)))) ;;;
      write_size_at d (ty_size (ty_of T)) ;;;
      retM (PHeap b).

  (** which allocator copy_fn uses: the any's, or `Alloc a{}` (A 282-296, D 287-291) *)
  Definition copy_alloc (al : nat) : nat := if e_copy_req_alloc E then al else e_def_alloc E.

  (** ** basic_any members *)

  (** A 1158-1161 *)
  Definition movable_alloc : bool := e_always_eq E || e_pocma E.

  (** A 319-327: the first copy_method in the list, whatever its parameters *)
  Fixpoint some_copy_method (ms : list method) : option method :=
    match ms with
    | [] => None
    | MCopy b :: _ => Some (MCopy b)
    | _ :: tl => some_copy_method tl
    end.

  (** A 330-332 noexport::has_move *)
  Definition has_move_ms (ms : list method) : bool :=
    match some_copy_method ms with Some _ => true | None => contains_v meqb MMove ms end.
  (** A 1165 basic_any::has_move: without a buffer no method is needed, the memory changes hands *)
  Definition has_move (ms : list method) : bool := has_move_ms ms || (e_soos E =? 0).
  (** operator=(basic_any&&) is declared for has_move (A 1219-1220), but where allocators neither are always equal nor
      propagate its body names get_move_fn (A 1240), which is ill-formed for a list without `move` and copy_with *)
  Definition has_move_assign (ms : list method) : bool :=
    has_move ms && (has_move_ms ms || movable_alloc).

  (** A 1431-1436 get_move_fn: the type whose relocation function is stored *)
  Definition get_move_fn (i : nat) : M nat :=
    let! a := get_any i in
    if contains_v meqb MMove (a_ms a) then any_slot i MMove
    else match some_copy_method (a_ms a) with
         | Some m => any_slot i m
         | None => ubM UbIllFormed
         end.

  (** A 1498 memory_allocated, A 1418 has_value *)
  Definition mem_allocated (i : nat) (a : any) : bool := negb (bool_decide (a_vp a = PData i)).
  Definition has_val (a : any) : bool := match a_vt a with Some _ => true | None => false end.

  (** A 1457-1462 construct_value *)
  Definition construct_value (i T : nat) (s : src) (nt : bool) : M unit :=
    noexcept_if nt
      (let! a := get_any i in
       construct T (a_vp a) s nt ;;;
       set_vt i (Some (addr_vtable_for T (a_ms a)))).

  (** A 1128-1148 emplace_in_empty; [force]: ForceAllocate is not void *)
  Definition emplace_in_empty (i T : nat) (force : bool) (s : src) (nt : bool) : M unit :=
    if fits T && negb force then construct_value i T s nt
    else
      let! a := get_any i in
      let! b := allocate (a_alloc a) (ty_size (ty_of T)) in
      set_vp i (PHeap b) ;;;
      set_size i (ty_size (ty_of T)) ;;;
      if nt then construct_value i T s nt
      else on_exn (construct_value i T s nt)
                  (let! a := get_any i in
                   deallocate (a_alloc a) (a_vp a) (ty_size (ty_of T)) ;;;
                   set_vp i (PData i)).

  (** invoke<destroy>(any)(ptr): destroy_fn<T> or noop_fn (A 232-253) *)
  Definition call_destroy (T : nat) (p : ptr) : M unit :=
    if ty_tdestr (ty_of T) then retM tt else destroy_at T p.

  (** A 1383-1388 destroy_value *)
  Definition destroy_value (i : nat) : M unit :=
    noexcept_if true
      (let! a := get_any i in
       if has_val a then
         let! T := any_slot i MDestroy in
         call_destroy T (a_vp a) ;;;
         set_vt i None
       else retM tt).

  (** A 1503-1507 deallocate_memory *)
  Definition deallocate_memory (i : nat) : M unit :=
    noexcept_if true
      (let! a := get_any i in
       ensure (negb (has_val a) && mem_allocated i a) UbAssert ;;;
       let! n := get_size i in
       deallocate (a_alloc a) (a_vp a) n ;;;
       set_vp i (PData i)).

  (** A 1376-1380 reset *)
  Definition reset (i : nat) : M unit :=
    noexcept_if true
      (destroy_value i ;;;
       let! a := get_any i in
       if mem_allocated i a then deallocate_memory i else retM tt).

  (** A 1401-1403 capacity *)
  Definition capacity (i : nat) : M nat :=
    let! a := get_any i in
    if mem_allocated i a then get_size i else retM (e_soos E).

  (** A 1391-1400 replace_with_bytes *)
  Definition replace_with_bytes (i n : nat) : M unit :=
    destroy_value i ;;;
    let! c := capacity i in
    if n <=? c then retM tt
    else
      let! a := get_any i in
      let! b := allocate (a_alloc a) n in
      (let! a := get_any i in if mem_allocated i a then deallocate_memory i else retM tt) ;;;
      set_vp i (PHeap b) ;;;
      set_size i n.

  (** A 1424-1428 sizeof_now; A 1414-1416 is_stable_pointers *)
  Definition sizeof_now (i : nat) : M nat :=
    let! a := get_any i in
    if has_val a then (if mem_allocated i a then get_size i else retM (e_soos E)) else retM 0.
  Definition is_stable_pointers (i : nat) : M bool :=
    let! a := get_any i in retM (mem_allocated i a).

  (** A 1439-1454 emplace_decayed, A 1280-1294 emplace, A 1271-1275 operator=(V&&) *)
  Definition emplace (i T : nat) (s : src) (nt : bool) : M unit :=
    noexcept_if (nt && fits T)
      (destroy_value i ;;;
       let! a := get_any i in
       if negb (mem_allocated i a) then emplace_in_empty i T false s nt
       else
         let! n := get_size i in
         if n <? ty_size (ty_of T)
         then deallocate_memory i ;;; emplace_in_empty i T false s nt
         else construct_value i T s nt).

  (** A 1465-1496 move_value_from<MemoryMaybeReused>(other) *)
  Definition move_value_from (reuse : bool) (i j : nat) : M unit :=
    noexcept_if reuse
      (let! a := get_any i in
       ensure (negb (has_val a) && negb (mem_allocated i a)) UbAssert ;;;
       let! o := get_any j in
       if negb (has_val o) then retM tt
       else
         let steal :=
           (let! o := get_any j in
            set_vp j (PData j) ;;;
            set_vp i (a_vp o) ;;;
            let! n := get_size j in
            set_size i n) in
         (if e_soos E =? 0 then steal
          else if negb (mem_allocated j o) then
            let! T := get_move_fn j in
            let! a := get_any i in
            relocate T (a_vp o) (a_vp a)
          else if reuse then steal
          else
            let! n := get_size j in
            let! b := allocate (a_alloc a) n in
            set_vp i (PHeap b) ;;;
            let! n := get_size j in
            set_size i n ;;;
            on_exn (let! T := get_move_fn j in relocate T (a_vp o) (PHeap b))
                   (let! a := get_any i in
                    let! n := get_size j in
                    deallocate (a_alloc a) (a_vp a) n ;;;
                    set_vp i (PData i))) ;;;
         let! o := get_any j in
         match a_vt o with
         | None => ubM UbAssert
         | Some v =>
             let! v' := subtableM (a_ms a) (a_ms o) v in
             set_vt i (Some v') ;;;
             set_vt j None
         end).

  (** lifetime of the any itself: member initialisers run (A 1115-1122) *)
  Definition new_any (i al : nat) (ms : list method) : M unit := fun w =>
    match w_any w !! i with
    | Some _ => UB UbIllFormed
    | None => Ok tt (set_any w (<[i := Any None (PData i) UEmpty al ms]> (w_any w)))
    end.
  (** storage of the any disappears; an object still alive in its buffer is lost *)
  Definition drop_any (i : nat) : M unit :=
    let! a := get_any i in
    ensure (un_free (a_un a)) UbLostObject ;;;
    (fun w => Ok tt (set_any w (delete i (w_any w)))).

  (** a constructor: if the body throws, no destructor runs and the storage is gone *)
  Definition ctor (i al : nat) (ms : list method) (body : M unit) : M unit :=
    new_any i al ms ;;; on_exn body (drop_any i).

  (** A 1190, 1314-1315 default / allocator_arg constructors *)
  Definition default_ctor (i al : nat) (ms : list method) : M unit := new_any i al ms.

  (** A 1192-1194 destructor *)
  Definition dtor (i : nat) : M unit := reset i ;;; drop_any i.

  (** A 1295-1322 constructors from a value / in place / with allocator *)
  Definition value_ctor (i al : nat) (ms : list method) (T : nat) (s : src) (nt : bool) : M unit :=
    noexcept_if (nt && fits T) (ctor i al ms (emplace_in_empty i T false s nt)).

  (** A 1352-1372 force_stable_pointers constructors (note the noexcept specification) *)
  Definition force_ctor (i : nat) (ms : list method) (T : nat) (s : src) (nt : bool) : M unit :=
    noexcept_if (nt && fits T) (ctor i (e_def_alloc E) ms (emplace_in_empty i T true s nt)).

  (** body shared by A 1198-1209 and A 1330-1341: copy the value of [j] into the fresh [i] *)
  Definition copy_body (i j : nat) : M unit :=
    let! o := get_any j in
    if negb (has_val o) then retM tt
    else
      let! T := any_slot j (MCopy true) in
      let! a := get_any i in
      let! p := copy_fn T (copy_alloc (a_alloc a)) (a_vp o) (a_vp a) in
      set_vp i p ;;;
      match a_vt o with
      | None => ubM UbAssert
      | Some v => let! v' := subtableM (a_ms a) (a_ms o) v in set_vt i (Some v')
      end.

  (** A 1198-1209 copy constructor ([ms] = other's), A 1326-1341 transmuting copy constructor *)
  Definition copy_ctor (i j : nat) (ms : list method) : M unit :=
    let! o := get_any j in
    ctor i (e_socc E (a_alloc o)) ms (copy_body i j).

  (** A 1215-1218 move constructor *)
  Definition move_ctor (i j : nat) : M unit :=
    let! o := get_any j in
    noexcept_if movable_alloc (ctor i (a_alloc o) (a_ms o) (move_value_from true i j)).

  (** A 1342-1348 transmuting move constructor: the allocator is default-initialised *)
  Definition trans_move_ctor (i j : nat) (ms : list method) : M unit :=
    noexcept_if movable_alloc (ctor i (e_def_alloc E) ms (move_value_from true i j)).

  (** A 1219-1251 move assignment *)
  Definition move_assign (i j : nat) : M unit :=
    noexcept_if movable_alloc
      (if i =? j then retM tt
       else if e_always_eq E then reset i ;;; move_value_from true i j
       else if e_pocma E then
         reset i ;;;
         let! a := get_any i in
         let! o := get_any j in
         (if negb (alloc_eqb (a_alloc a) (a_alloc o)) then set_alloc i (a_alloc o) else retM tt) ;;;
         move_value_from true i j
       else
         destroy_value i ;;;
         let! a := get_any i in
         let! o := get_any j in
         if negb (alloc_eqb (a_alloc a) (a_alloc o)) then
           let! reuse := (if has_val o && mem_allocated j o && mem_allocated i a
                          then let! n := get_size i in
                               let! m := get_size j in
                               retM (m <=? n)
                          else retM false) in
           if reuse : bool then
             let! T := get_move_fn j in
             relocate T (a_vp o) (a_vp a) ;;;
             let! o := get_any j in
             set_vt j None ;;;
             set_vt i (a_vt o)
           else
             (if mem_allocated i a then deallocate_memory i else retM tt) ;;;
             move_value_from false i j
         else reset i ;;; move_value_from true i j).

  (** A 1253-1264 copy assignment; [t] names the local `value` *)
  Definition copy_assign (i j t : nat) : M unit :=
    let! o := get_any j in
    copy_ctor t j (a_ms o) ;;;
    (* from here on leaving the scope destroys `value` *)
    on_exn
      ((if negb (e_always_eq E) && e_pocca E then
          let! a := get_any i in
          let! o := get_any j in
          if negb (alloc_eqb (a_alloc a) (a_alloc o))
          then reset i ;;; set_alloc i (a_alloc o)
          else retM tt
        else retM tt) ;;;
       move_assign i t)
      (dtor t) ;;;
    dtor t.

  (** std::swap(a, b): T tmp(move(a)); a = move(b); b = move(tmp); *)
  Definition swap_any (i j t : nat) : M unit :=
    move_ctor t i ;;;
    on_exn (move_assign i j ;;; move_assign j t) (dtor t) ;;;
    dtor t.

  (** invoke<Method>(any, arg) for a user method (A 1013-1075, A 177-193): the entry casts the value
      pointer to T and runs the body *)
  Definition invoke (i n arg : nat) : M nat :=
    let! T := any_slot i (MUser n) in
    let! a := get_any i in
    let! o := read_as T (a_vp a) in
    let r := e_meth E T n (o_val o) arg in
    write_place (a_vp a) (Some (Obj T (fst r) (o_id o))) ;;;
    match snd r with Some x => retM x | None => throwM end.

  (** ** stateful references and materialize *)

  (** stateful::ref from any [j] (A 863-925): entries picked by name *)
  Fixpoint pick_slots (from : list method) (v : vptr) (ms : list method) : M (list slot) :=
    match ms with
    | [] => retM []
    | m :: tl => let! T := vt_read from v m in
                 let! r := pick_slots from v tl in
                 retM ((T, m) :: r)
    end.

  Definition new_sref (r j : nat) (ms : list method) : M unit :=
    let! o := get_any j in
    match a_vt o with
    | None => ubM UbNullVtable
    | Some v =>
        let! tab := pick_slots (a_ms o) v ms in
        fun w => match w_sref w !! r with
                 | Some _ => UB UbIllFormed
                 | None => Ok tt (set_sref w (<[r := SRefObj tab ms (a_vp o)]> (w_sref w)))
                 end
    end.
  Definition drop_sref (r : nat) : M unit := fun w => Ok tt (set_sref w (delete r (w_sref w))).

  (** what a poly_ref / const_poly_ref is: vtable pointer, value pointer, static list *)
  Record pref : Set := PRef { pr_vt : vptr; pr_vp : ptr; pr_ms : list method }.

  Inductive refsrc : Set :=
  | RAny (j : nat) (ms : list method)     (* poly_ref to the value of any j, converted to ms *)
  | RSref (r : nat).                      (* stateful::ref::get_view (A 912-918, 990-997) *)

  Definition make_ref (x : refsrc) : M pref :=
    match x with
    | RAny j ms =>
        let! o := get_any j in
        match a_vt o with
        | None => ubM UbNullVtable
        | Some v => let! v' := subtableM ms (a_ms o) v in retM (PRef v' (a_vp o) ms)
        end
    | RSref r => fun w =>
        match w_sref w !! r with
        | Some s => Ok (PRef (VPtr (Some r) (sr_tab s) 0) (sr_ptr s) (sr_ms s)) w
        | None => UB UbNoSuchAny
        end
    end.

  (** A 1512-1527 materialize: the vtable pointer is stored before the value is copied, and if the copy
      throws the destructor of `result` runs.  A 1523-1525: where copies need the allocator, the allocator itself is
      passed for the parameter of type void* (its address elsewhere, A 1206), which does not compile *)
  Definition materialize (i al : nat) (x : refsrc) : M unit :=
    if e_copy_req_alloc E then ubM UbIllFormed else
    let! r := make_ref x in
    new_any i al (pr_ms r) ;;;
    set_vt i (Some (pr_vt r)) ;;;
    on_exn
      (let! T := vt_read (pr_ms r) (pr_vt r) (MCopy true) in
       let! a := get_any i in
       let! p := copy_fn T (copy_alloc (a_alloc a)) (pr_vp r) (a_vp a) in
       set_vp i p)
      (dtor i).
End Model.

Arguments SVal : clear implicits.
