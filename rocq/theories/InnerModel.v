(** Model of allocator-aware values in anys: which memory resource a value inside an any uses, and which functions make and destroy it.
    Source: A = include/anyany/anyany.hpp, D = include/anyany/noexport/anyany_details.hpp.

    An allocator is the resource behind it, as std::pmr::polymorphic_allocator; its allocator_traits::construct does uses-allocator
    construction.  A type that uses the allocator (std::pmr::list) keeps an allocator of its own, which its move constructor takes from the
    source and its copy constructor takes from select_on_container_copy_construction of the source's.  Resources are made and destroyed
    by the program.

    Simplified: nothing throws (exceptions are in AnyModel); methods are left out (all operations are declared); objects are not nested. *)
From stdpp Require Import gmap list.

Record env : Type := Env {
  e_soos : nat;                      (* SooS *)
  e_size : nat -> nat;               (* sizeof *)
  e_small : nat -> bool;             (* fits the alignment of the buffer and is nothrow movable *)
  e_aware : nat -> bool;             (* std::uses_allocator_v<T, Alloc> *)
  e_always_eq : bool; e_pocma : bool; e_pocca : bool;
  e_socc : nat -> nat;               (* select_on_container_copy_construction *)
  e_copy_req_alloc : bool;           (* D 250-253 *)
  e_def_alloc : nat                  (* Alloc{} *)
}.

(** how an object was made: through the allocator's construct, by construct_at *)
Inductive maker : Set := ByAllocator (al : nat) | Directly.
(** an object: its type, the resource it uses, who made it *)
Record value : Set := Value { v_ty : nat; v_res : option nat; v_by : maker }.
(** an any: allocator; memory it has allocated, with its size and the resource it is from; value *)
Record any : Set := Any { a_alloc : nat; a_mem : option (nat * nat); a_val : option value }.
(** the end of an object: who made it, and whether the allocator's destroy was called (the library never does) *)
Record ended : Set := Ended { en_by : maker; en_traits : bool }.
Record world : Set := World { w_any : gmap nat any; w_dead : gset nat; w_ended : list ended }.

Inductive bad : Set :=
| BadDead        (* a value uses, or memory is returned to, a resource that is gone *)
| BadFree        (* memory is returned to a resource it is not from *)
| BadName.       (* an any is named that does not exist, or exists already: not a program *)
Inductive res (A : Type) : Type := Ok (x : A) (w : world) | UB (b : bad).
Arguments Ok {_} _ _. Arguments UB {_} _.
Definition M (A : Type) : Type := world -> res A.
Definition ret {A} (x : A) : M A := fun w => Ok x w.
Definition bind {A B} (m : M A) (f : A -> M B) : M B := fun w => match m w with Ok x w' => f x w' | UB b => UB b end.
Definition ub {A} (b : bad) : M A := fun _ => UB b.
Notation "'let!' x := m 'in' k" := (bind m (fun x => k)) (at level 200, x binder, k at level 200).
Notation "m ;;; k" := (bind m (fun _ => k)) (at level 199, right associativity).

Definition get (i : nat) : M any := fun w => match w_any w !! i with Some a => Ok a w | None => UB BadName end.
Definition put (i : nat) (a : any) : M unit := fun w => Ok tt (World (<[i := a]> (w_any w)) (w_dead w) (w_ended w)).
Definition drop (i : nat) : M unit := fun w => Ok tt (World (delete i (w_any w)) (w_dead w) (w_ended w)).
Definition fresh (i : nat) : M unit := fun w => match w_any w !! i with None => Ok tt w | Some _ => UB BadName end.
Definition end_of (v : value) : M unit := fun w => Ok tt (World (w_any w) (w_dead w) (Ended (v_by v) false :: w_ended w)).

Section Inner.
  Context (E : env).
  Definition alloc_eqb (a b : nat) : bool := e_always_eq E || (a =? b).
  (** resources of allocators that are always equal are never gone *)
  Definition alive (w : world) (al : nat) : bool := e_always_eq E || bool_decide (al ∉ w_dead w).
  Definition use (al : nat) : M unit := fun w => if alive w al then Ok tt w else UB BadDead.
  (** any use of a value: its destructor, copy and move constructors reach its memory *)
  Definition use_value (v : value) : M unit := match v_res v with Some al => use al | None => ret tt end.
  (** D 227-230 is_fits_in_soo_buffer *)
  Definition fits (T : nat) : bool := e_small E T && (e_size E T <=? e_soos E).

  Definition set_val (i : nat) (v : option value) : M unit := let! a := get i in put i (Any (a_alloc a) (a_mem a) v).
  Definition set_mem (i : nat) (m : option (nat * nat)) : M unit := let! a := get i in put i (Any (a_alloc a) m (a_val a)).
  Definition set_alloc (i al : nat) : M unit := let! a := get i in put i (Any al (a_mem a) (a_val a)).

  (** A 1456-1462 construct_value: alloc_traits::construct(alloc, ...) *)
  Definition construct_value (i T : nat) : M unit :=
    let! a := get i in
    (if e_aware E T then use (a_alloc a) else ret tt) ;;;
    set_val i (Some (Value T (if e_aware E T then Some (a_alloc a) else None) (ByAllocator (a_alloc a)))).
  (** alloc.allocate *)
  Definition allocate (i n : nat) : M unit := let! a := get i in use (a_alloc a) ;;; set_mem i (Some (n, a_alloc a)).
  (** A 1128-1148 emplace_in_empty<T, ForceAllocate> *)
  Definition emplace_in_empty (i T : nat) (force : bool) : M unit :=
    if fits T && negb force then construct_value i T
    else allocate i (e_size E T) ;;; construct_value i T.
  (** A 1381-1388 destroy_value; A 232-237: destroy_at, not alloc_traits::destroy *)
  Definition destroy_value (i : nat) : M unit :=
    let! a := get i in
    match a_val a with
    | None => ret tt
    | Some v => use_value v ;;; end_of v ;;; set_val i None
    end.
  (** alloc_traits::deallocate *)
  Definition deallocate (al : nat) (from : nat) : M unit :=
    use al ;;; if alloc_eqb al from then ret tt else ub BadFree.
  (** A 1502-1507 deallocate_memory *)
  Definition deallocate_memory (i : nat) : M unit :=
    let! a := get i in
    match a_mem a with Some (_, from) => deallocate (a_alloc a) from ;;; set_mem i None | None => ret tt end.
  (** A 1375-1380 reset *)
  Definition reset (i : nat) : M unit := destroy_value i ;;; deallocate_memory i.
  (** A 1438-1454 emplace_decayed *)
  Definition emplace (i T : nat) : M unit :=
    destroy_value i ;;;
    let! a := get i in
    match a_mem a with
    | None => emplace_in_empty i T false
    | Some (n, _) => if n <? e_size E T then deallocate_memory i ;;; emplace_in_empty i T false else construct_value i T
    end.
  (** A 1390-1400 replace_with_bytes *)
  Definition replace_with_bytes (i n : nat) : M unit :=
    destroy_value i ;;;
    let! a := get i in
    if n <=? match a_mem a with Some (k, _) => k | None => e_soos E end then ret tt
    else use (a_alloc a) ;;; deallocate_memory i ;;; set_mem i (Some (n, a_alloc a)).

  (** A 1465-1496 move_value_from<MemoryMaybeReused>; the object keeps its resource when it is relocated (D 233-239: its move constructor
      takes the allocator of the source) and when its memory is taken over *)
  Definition move_value_from (reuse : bool) (i j : nat) : M unit :=
    let! o := get j in
    match a_val o with
    | None => ret tt
    | Some v =>
        if (e_soos E =? 0) || (reuse && match a_mem o with Some _ => true | None => false end) then
          set_mem i (a_mem o) ;;; set_mem j None ;;; set_val i (Some v) ;;; set_val j None
        else
          match a_mem o with
          | None => use_value v ;;; end_of v ;;; set_val i (Some (Value (v_ty v) (v_res v) Directly)) ;;; set_val j None
          | Some (n, _) => allocate i n ;;; use_value v ;;; end_of v ;;; set_val i (Some (Value (v_ty v) (v_res v) Directly)) ;;; set_val j None
          end
    end.

  (** D 263-291 copy_fn and copy_fn_empty_alloc: construct_at, so the copy's resource is the one its own copy constructor selects *)
  Definition copy_into (i : nat) (v : value) : M unit :=
    let! a := get i in
    use_value v ;;;
    let al := if e_copy_req_alloc E then a_alloc a else e_def_alloc E in
    (if fits (v_ty v) then ret tt else use al ;;; set_mem i (Some (e_size E (v_ty v), al))) ;;;
    match v_res v with
    | Some r => use (e_socc E r) ;;; set_val i (Some (Value (v_ty v) (Some (e_socc E r)) Directly))
    | None => set_val i (Some (Value (v_ty v) None Directly))
    end.

  (** A 1190, 1314-1315 *)
  Definition default_ctor (i al : nat) : M unit := fresh i ;;; put i (Any al None None).
  (** A 1295-1322 *)
  Definition value_ctor (i al T : nat) : M unit := default_ctor i al ;;; emplace_in_empty i T false.
  (** A 1352-1372 *)
  Definition force_ctor (i T : nat) : M unit := default_ctor i (e_def_alloc E) ;;; emplace_in_empty i T true.
  (** A 1198-1209, 1326-1341 *)
  Definition copy_ctor (i j : nat) : M unit :=
    fresh i ;;; let! o := get j in
    put i (Any (e_socc E (a_alloc o)) None None) ;;;
    match a_val o with None => ret tt | Some v => copy_into i v end.
  (** A 1215-1218 *)
  Definition move_ctor (i j : nat) : M unit :=
    fresh i ;;; let! o := get j in put i (Any (a_alloc o) None None) ;;; move_value_from true i j.
  (** A 1342-1348: the allocator is default constructed *)
  Definition trans_move_ctor (i j : nat) : M unit :=
    fresh i ;;; let! o := get j in put i (Any (e_def_alloc E) None None) ;;; move_value_from true i j.
  (** A 1219-1251 *)
  Definition move_assign (i j : nat) : M unit :=
    if i =? j then ret tt
    else if e_always_eq E then reset i ;;; move_value_from true i j
    else if e_pocma E then
      reset i ;;;
      let! a := get i in let! o := get j in
      (if alloc_eqb (a_alloc a) (a_alloc o) then ret tt else set_alloc i (a_alloc o)) ;;;
      move_value_from true i j
    else
      destroy_value i ;;;
      let! a := get i in let! o := get j in
      if alloc_eqb (a_alloc a) (a_alloc o) then reset i ;;; move_value_from true i j
      else
        match a_val o, a_mem o, a_mem a with
        | Some v, Some (m, _), Some (n, _) =>
            if m <=? n then
              use_value v ;;; end_of v ;;; set_val i (Some (Value (v_ty v) (v_res v) Directly)) ;;; set_val j None
            else deallocate_memory i ;;; move_value_from false i j
        | _, _, _ => deallocate_memory i ;;; move_value_from false i j
        end.
  (** A 1192-1194 ~basic_any *)
  Definition dtor (i : nat) : M unit := reset i ;;; drop i.
  (** A 1253-1264; t is the temporary *)
  Definition copy_assign (i j t : nat) : M unit :=
    copy_ctor t j ;;;
    (if negb (e_always_eq E) && e_pocca E then
       let! a := get i in let! o := get j in
       if alloc_eqb (a_alloc a) (a_alloc o) then ret tt else reset i ;;; set_alloc i (a_alloc o)
     else ret tt) ;;;
    move_assign i t ;;;
    dtor t.
  (** std::swap *)
  Definition swap (i j t : nat) : M unit := move_ctor t i ;;; move_assign i j ;;; move_assign j t ;;; dtor t.
  (** a memory resource is destroyed *)
  Definition drop_resource (r : nat) : M unit := fun w => Ok tt (World (w_any w) ({[r]} ∪ w_dead w) (w_ended w)).
  (** the value is used: copied out, compared, its methods called *)
  Definition touch (i : nat) : M unit := let! a := get i in match a_val a with Some v => use_value v | None => ret tt end.
End Inner.

Inductive op : Set :=
| ODefault (i al : nat) | OValue (i al T : nat) | OForce (i T : nat) | OCopy (i j : nat) | OMove (i j : nat) | OTransMove (i j : nat)
| OMoveAssign (i j : nat) | OCopyAssign (i j t : nat) | OSwap (i j t : nat) | OEmplace (i T : nat) | OReset (i : nat) | ODestroy (i : nat)
| OReplace (i n : nat) | ODtor (i : nat) | OTouch (i : nat) | ODrop (r : nat).
Definition run (E : env) (o : op) : M unit :=
  match o with
  | ODefault i al => default_ctor i al
  | OValue i al T => value_ctor E i al T
  | OForce i T => force_ctor E i T
  | OCopy i j => copy_ctor E i j
  | OMove i j => move_ctor E i j
  | OTransMove i j => trans_move_ctor E i j
  | OMoveAssign i j => move_assign E i j
  | OCopyAssign i j t => copy_assign E i j t
  | OSwap i j t => swap E i j t
  | OEmplace i T => emplace E i T
  | OReset i => reset E i
  | ODestroy i => destroy_value E i
  | OReplace i n => replace_with_bytes E i n
  | ODtor i => dtor E i
  | OTouch i => touch E i
  | ODrop r => drop_resource r
  end.
Fixpoint exec (E : env) (l : list op) : M unit := match l with [] => ret tt | o :: l => run E o ;;; exec E l end.
Definition start : world := World ∅ ∅ [].
