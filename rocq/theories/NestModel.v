(** Model: anys whose values contain anys, to any depth (trees, lists of lists, JSON).  The user's types are structs with an int and a
    std::vector of anys; their constructors and destructors run the library's functions for the elements, while the library's function
    for the any outside is running.

    Simplified against AnyModel: one any type with `copy`, `move` and `destroy`, the default allocator, no other methods (so that the
    table is the type); the buffer and the size_allocated sharing its memory are fields of their own; the memory of std::vector is part
    of the object. *)
From stdpp Require Import gmap list.

(** value_ptr: the own buffer, or a block and size_allocated (A 1115-1122) *)
Inductive vptr : Set := PBuf | PHeap (b n : nat).
(** basic_any (A 1108-1122): the type its table is for, value_ptr, what is alive in the buffer; an object of type [T] *)
Inductive any : Set := Any (vt : option nat) (vp : vptr) (buf : option obj)
with obj : Set := Obj (T v : nat) (cs : list any).
(** a block of memory: its size and the object alive in it *)
Record block := Block { bk_size : nat; bk_obj : option obj }.

(** sizeof of the types; the size of the buffer; which actions that may throw do *)
Record env := Env { e_size : nat -> nat; e_soos : nat; e_throws : nat -> bool }.

(** the variables of the program, in the order of declaration; memory; the next address; how many actions could throw up to now *)
Record world := World { w_vars : list any; w_heap : gmap nat block; w_next : nat; w_tick : nat }.
Inductive ubreason : Set := UbNoAny | UbNoValue | UbDangling | UbWrongType | UbBadFree | UbLostObject.
Inductive res (A : Type) : Type := Ok (a : A) (w : world) | Exn (w : world) | UB (r : ubreason) | OutOfFuel.
Arguments Ok {A}. Arguments Exn {A}. Arguments UB {A}. Arguments OutOfFuel {A}.
Definition M (A : Type) : Type := world -> res A.
Definition retM {A} (a : A) : M A := fun w => Ok a w.
Definition throwM {A} : M A := fun w => Exn w.
Definition ubM {A} (r : ubreason) : M A := fun _ => UB r.
Definition fuelM {A} : M A := fun _ => OutOfFuel.
Definition bindM {A B} (m : M A) (f : A -> M B) : M B := fun w =>
  match m w with Ok a w' => f a w' | Exn w' => Exn w' | UB r => UB r | OutOfFuel => OutOfFuel end.
Notation "'let!' x := m 'in' k" := (bindM m (fun x => k)) (at level 200, x name, right associativity).
Notation "m ;;; k" := (bindM m (fun _ => k)) (at level 190, right associativity).
(** catch (...) { h; throw; }, the end of scope_failure (A 1139-1142), unwinding *)
Definition on_exn {A} (m : M A) (h : M unit) : M A := fun w =>
  match m w with Exn w' => match h w' with Ok _ w'' => Exn w'' | Exn w'' => Exn w'' | UB r => UB r | OutOfFuel => OutOfFuel end | r => r end.

Definition set_vars (w : world) (l : list any) : world := World l (w_heap w) (w_next w) (w_tick w).
Definition set_heap (w : world) (h : gmap nat block) : world := World (w_vars w) h (w_next w) (w_tick w).

(** an any without value and memory *)
Definition nothing : any := Any None PBuf None.

Section Env.
  Context (E : env).

  (** an action that may throw: an allocation (of the any or inside std::vector), a constructor of the user's type *)
  Definition may_throw : M unit := fun w =>
    let w' := World (w_vars w) (w_heap w) (w_next w) (S (w_tick w)) in
    if e_throws E (w_tick w) then Exn w' else Ok tt w'.
  (** alloc.allocate(n), alloc.deallocate(p, n) *)
  Definition allocate (n : nat) : M nat :=
    may_throw ;;;
    (fun w => Ok (w_next w) (World (w_vars w) (<[w_next w := Block n None]> (w_heap w)) (S (w_next w)) (w_tick w))).
  Definition deallocate (b n : nat) : M unit := fun w =>
    match w_heap w !! b with
    | Some (Block m None) => if m =? n then Ok tt (set_heap w (delete b (w_heap w))) else UB UbBadFree
    | Some (Block _ (Some _)) => UB UbLostObject
    | None => UB UbDangling
    end.
  (** an object begins or ends to live in a block *)
  Definition put_block (b : nat) (o : option obj) : M unit := fun w =>
    match w_heap w !! b with
    | Some k => Ok tt (set_heap w (<[b := Block (bk_size k) o]> (w_heap w)))
    | None => UB UbDangling
    end.
  (** the value: *value_ptr read as the type of the table *)
  Definition value (a : any) : M obj := fun w =>
    match a with
    | Any None _ _ => UB UbNoValue
    | Any (Some T) p buf =>
        match (match p with PBuf => buf | PHeap b _ => match w_heap w !! b with Some k => bk_obj k | None => None end end) with
        | Some (Obj T' v cs) => if T' =? T then Ok (Obj T' v cs) w else UB UbWrongType
        | None => UB UbDangling
        end
    end.
  (** the user's code changes the value; the any afterwards *)
  Definition set_value (a : any) (o : obj) : M any :=
    match a with
    | Any vt PBuf _ => retM (Any vt PBuf (Some o))
    | Any vt (PHeap b n) buf => put_block b (Some o) ;;; retM a
    end.

  (** D 227-230; moves of structs with a std::vector do not throw *)
  Definition fits (T : nat) : bool := e_size E T <=? e_soos E.

  (** ** destruction *)
  (** the destructor of std::vector; [d] destroys an element *)
  Fixpoint each (d : any -> M unit) (cs : list any) : M unit :=
    match cs with [] => retM tt | c :: cs => d c ;;; each d cs end.
  (** A 1383-1388 destroy_value: the any afterwards; [d] destroys an any inside the value *)
  Definition destroy_value_with (d : any -> M unit) (a : any) : M any :=
    match a with
    | Any None _ _ => retM a
    | Any (Some T) p buf =>
        let! o := value a in
        match o with Obj _ _ cs => each d cs end ;;;
        match p with PBuf => retM tt | PHeap b _ => put_block b None end ;;;
        retM (Any None p None)
    end.
  (** A 1503-1507 deallocate_memory *)
  Definition deallocate_memory (a : any) : M any :=
    match a with
    | Any vt PBuf buf => retM a
    | Any vt (PHeap b n) buf => deallocate b n ;;; retM (Any vt PBuf buf)
    end.
  (** A 1376-1380 reset, A 1192-1194 destructor *)
  Fixpoint destroy_any (n : nat) (a : any) : M unit :=
    match n with
    | 0 => fuelM
    | S n => let! a := destroy_value_with (destroy_any n) a in deallocate_memory a ;;; retM tt
    end.
  Definition destroy_value (n : nat) (a : any) : M any := destroy_value_with (destroy_any n) a.

  (** ** copies *)
  (** copy constructor of std::vector: what was constructed is destroyed if the rest throws *)
  Fixpoint copy_each (c : any -> M any) (d : any -> M unit) (l : list any) : M (list any) :=
    match l with
    | [] => retM []
    | x :: l => let! y := c x in let! ys := on_exn (copy_each c d l) (d y) in retM (y :: ys)
    end.
  (** A 1198-1209 copy constructor with copy_fn D 263-286 *)
  Fixpoint copy_any (n : nat) (a : any) : M any :=
    match n with
    | 0 => fuelM
    | S n =>
        match a with
        | Any None _ _ => retM nothing
        | Any (Some T) _ _ =>
            let! o := value a in
            match o with
            | Obj _ v cs =>
                let copy := (may_throw ;;; let! cs' := copy_each (copy_any n) (destroy_any n) cs in retM (Obj T v cs')) in
                if fits T then let! o' := copy in retM (Any (Some T) PBuf (Some o'))
                else
                  let! b := allocate (e_size E T) in
                  let! o' := on_exn copy (deallocate b (e_size E T)) in
                  put_block b (Some o') ;;;
                  retM (Any (Some T) (PHeap b (e_size E T)) None)
            end
        end
    end.

  (** ** places *)
  (** A variable, or an element of the vector in the value of an any at a place: [k1; k2; ...] is variable k1, in its value the element k2, ... *)
  Fixpoint get_in (l : list any) (p : list nat) : M any :=
    match p with
    | [] => ubM UbNoAny
    | k :: p =>
        match l !! k with
        | None => ubM UbNoAny
        | Some a => match p with [] => retM a | _ => let! o := value a in match o with Obj _ _ cs => get_in cs p end end
        end
    end.
  Fixpoint put_in (l : list any) (p : list nat) (x : any) : M (list any) :=
    match p with
    | [] => ubM UbNoAny
    | k :: p =>
        match l !! k with
        | None => ubM UbNoAny
        | Some a =>
            match p with
            | [] => retM (<[k := x]> l)
            | _ =>
                let! o := value a in
                match o with
                | Obj T v cs => let! cs' := put_in cs p x in let! a' := set_value a (Obj T v cs') in retM (<[k := a']> l)
                end
            end
        end
    end.
  Definition get (p : list nat) : M any := fun w => get_in (w_vars w) p w.
  Definition put (p : list nat) (x : any) : M unit :=
    let! l := (fun w => put_in (w_vars w) p x w) in fun w => Ok tt (set_vars w l).
  Definition declare (x : any) : M unit := fun w => Ok tt (set_vars w (w_vars w ++ [x])).

  (** ** moves *)
  (** A 1465-1496 move_value_from: the new any and the source afterwards.  A value in the buffer is relocated (D 233-239): the vector's
      memory changes hands, the object left behind is destroyed. *)
  Definition move_value (o : any) : any * any :=
    match o with
    | Any None _ _ => (nothing, o)
    | Any (Some T) (PHeap b n) _ => (Any (Some T) (PHeap b n) None, nothing)
    | Any (Some T) PBuf buf => (Any (Some T) PBuf buf, nothing)
    end.
  (** [this] at [p], an any that is not at a place: the body of A 1219-1251 after the self check, for a temporary *)
  Definition assign_temporary (n : nat) (p : list nat) (t : any) : M unit :=
    let! a := get p in
    destroy_any n a ;;;
    put p nothing ;;;
    let (x, t') := move_value t in
    put p x ;;;
    destroy_any n t'.

  (** ** operations *)
  (** the values the elements of a new vector are copied from *)
  Fixpoint copies_of (n : nat) (qs : list (list nat)) : M (list any) :=
    match qs with
    | [] => retM []
    | q :: qs =>
        let! a := get q in
        let! y := copy_any n a in
        let! ys := on_exn (copies_of n qs) (destroy_any n y) in
        retM (y :: ys)
    end.
  (** T(v, {a1, a2, ...}) *)
  Definition construct (n T v : nat) (qs : list (list nat)) : M obj :=
    may_throw ;;; let! cs := copies_of n qs in retM (Obj T v cs).
  (** A 1128-1148 emplace_in_empty with construct_value A 1457-1462: the any afterwards *)
  Definition emplace_in_empty (n T v : nat) (qs : list (list nat)) : M any :=
    if fits T then let! o := construct n T v qs in retM (Any (Some T) PBuf (Some o))
    else
      let! b := allocate (e_size E T) in
      let! o := on_exn (construct n T v qs) (deallocate b (e_size E T)) in
      put_block b (Some o) ;;;
      retM (Any (Some T) (PHeap b (e_size E T)) None).
  (** A 1439-1454 emplace_decayed *)
  Definition emplace (n : nat) (p : list nat) (T v : nat) (qs : list (list nat)) : M unit :=
    let! a := get p in
    let! a := destroy_value n a in
    put p a ;;;
    let in_empty := (let! x := emplace_in_empty n T v qs in put p x) in
    match a with
    | Any _ (PHeap b m) _ =>
        if m <? e_size E T then (let! a := deallocate_memory a in put p a) ;;; in_empty
        else
          let! o := construct n T v qs in
          put_block b (Some o) ;;;
          put p (Any (Some T) (PHeap b m) None)
    | Any _ PBuf _ => in_empty
    end.
  (** A 1219-1251 move assignment, allocators always equal *)
  Definition move_assign (n : nat) (p q : list nat) : M unit :=
    if bool_decide (p = q) then retM tt
    else
      let! a := get p in
      destroy_any n a ;;;
      put p nothing ;;;
      let! o := get q in
      let (x, o') := move_value o in
      put p x ;;;
      put q o'.
  (** A 1253-1265 copy assignment *)
  Definition copy_assign (n : nat) (p q : list nat) : M unit :=
    let! o := get q in
    let! t := copy_any n o in
    assign_temporary n p t.
  (** A 1215-1218 move constructor *)
  Definition move_ctor (q : list nat) : M unit :=
    let! o := get q in
    let (x, o') := move_value o in
    put q o' ;;; declare x.

  Inductive op : Set :=
  | OVar                                                     (** any x; *)
  | OValue (T v : nat) (qs : list (list nat))                (** any x(std::in_place_type<T>, v, {a, b}); *)
  | OCopy (q : list nat) | OMove (q : list nat)              (** any x = a;  any x = std::move(a); *)
  | OCopyAssign (p q : list nat) | OMoveAssign (p q : list nat)
  | OEmplace (p : list nat) (T v : nat) (qs : list (list nat))
  | OReset (p : list nat)
  | OPush (p q : list nat)                                   (** any_cast<T&>(a).children.push_back(b): memory, then the copy *)
  | OSet (p : list nat) (v : nat)                            (** any_cast<T&>(a).v = v *)
  | OEnd.                                                    (** the variable declared last goes out of scope *)

  Definition run (n : nat) (o : op) : M unit :=
    match o with
    | OVar => declare nothing
    | OValue T v qs => let! x := emplace_in_empty n T v qs in declare x
    | OCopy q => let! a := get q in let! x := copy_any n a in declare x
    | OMove q => move_ctor q
    | OCopyAssign p q => copy_assign n p q
    | OMoveAssign p q => move_assign n p q
    | OEmplace p T v qs => emplace n p T v qs
    | OReset p => let! a := get p in destroy_any n a ;;; put p nothing
    | OPush p q =>
        may_throw ;;;
        let! c := get q in
        let! c' := copy_any n c in
        let! a := get p in
        let! o := value a in
        match o with Obj T v cs => let! a' := set_value a (Obj T v (cs ++ [c'])) in put p a' end
    | OSet p v =>
        let! a := get p in
        let! o := value a in
        match o with Obj T _ cs => let! a' := set_value a (Obj T v cs) in put p a' end
    | OEnd => fun w =>
        match last (w_vars w) with
        | None => UB UbNoAny
        | Some a => (destroy_any n a ;;; fun w => Ok tt (set_vars w (removelast (w_vars w)))) w
        end
    end.
End Env.
Definition init : world := World [] ∅ 0 0.
