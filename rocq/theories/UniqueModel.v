(** Model of std::unique_ptr over an interface: default_delete<runtime_concept<Methods...>> and its const version,
    /repo/include/anyany/anyany.hpp (A) 1960-1977, deallocate_with_delete, noexport/anyany_details.hpp (D) 359-373.
    std::unique_ptr itself is the standard's: reset, release, move construction and assignment, swap, destructor. *)
From stdpp Require Import gmap list.
From Verif Require Import TypeListModel AnyModel.

(** a pointer poly_ptr<deallocate_with_delete, Methods...> (const_poly_ptr when [up_const]): null, or a vtable and the address
    of an object created by new *)
Definition upointer : Type := option (vptr * nat).
Record uptr : Type := Uptr { up_ms : list method; up_const : bool; up_val : upointer }.

Record ust : Type := USt {
  u_heap : gmap nat nat;          (* objects created by new: address and type *)
  u_next : nat;                   (* addresses are never reused *)
  u_log : list (nat * nat);       (* what delete was run on: (T, address), in order *)
  u_ptr : gmap nat uptr           (* the unique_ptr variables *)
}.
Definition u_init : ust := USt ∅ 0 [] ∅.
Inductive ures : Type := UOk (s : ust) | UBad (r : ubreason).
Definition ubind (r : ures) (k : ust -> ures) : ures := match r with UOk s => k s | UBad e => UBad e end.

Section Unique.
  (** the pseudomethod deallocate_with_delete *)
  Context (dealloc : method).

  (** A 672-679 / 753-759 poly_ptr from T* *)
  Definition u_from_obj (ms : list method) (T a : nat) : upointer := Some (addr_vtable_for T (dealloc :: ms), a).
  (** A 691-699 / 771-794 poly_ptr from a poly_ptr with more methods; None: ill-formed *)
  Definition u_convert (to from : list method) (p : upointer) : option upointer :=
    match p with
    | None => Some None
    | Some (v, a) => match subtable (dealloc :: to) (dealloc :: from) v with Some v' => Some (Some (v', a)) | None => None end
    end.

  (** D 361-364 delete_fn<T>: runs ~T and frees the memory; undefined unless a T created by new is there *)
  Definition u_delete (T a : nat) (s : ust) : ures :=
    match u_heap s !! a with
    | Some T' => if T =? T' then UOk (USt (delete a (u_heap s)) (u_next s) (u_log s ++ [(T, a)]) (u_ptr s)) else UBad UbWrongType
    | None => UBad UbNoObject
    end.
  (** A 1963-1966, 1973-1976 operator() *)
  Definition u_deleter (ms : list method) (p : upointer) (s : ust) : ures :=
    match p with
    | None => UBad UbAssert
    | Some (v, a) =>
        match vt_read (dealloc :: ms) v dealloc init_world with
        | Ok T _ => u_delete T a s
        | UB r => UBad r
        | _ => UBad UbNoBlock
        end
    end.
  (** the standard's: delete unless null *)
  Definition u_drop (ms : list method) (p : upointer) (s : ust) : ures := match p with None => UOk s | Some _ => u_deleter ms p s end.
  Definition u_set (u : nat) (p : uptr) (s : ust) : ust := USt (u_heap s) (u_next s) (u_log s) (<[u := p]> (u_ptr s)).
  (** reset(p): stores p, then deletes the old object *)
  Definition u_reset (u : nat) (p : upointer) (s : ust) : ures :=
    match u_ptr s !! u with
    | Some x => u_drop (up_ms x) (up_val x) (u_set u (Uptr (up_ms x) (up_const x) p) s)
    | None => UBad UbNoSuchAny
    end.
  (** release() *)
  Definition u_release (u : nat) (s : ust) : option (upointer * ust) :=
    match u_ptr s !! u with
    | Some x => Some (up_val x, u_set u (Uptr (up_ms x) (up_const x) None) s)
    | None => None
    end.
  (** new T *)
  Definition u_new (T : nat) (s : ust) : nat * ust :=
    (u_next s, USt (<[u_next s := T]> (u_heap s)) (S (u_next s)) (u_log s) (u_ptr s)).

  (** statements of a program *)
  Inductive uop : Type :=
  | UDefault (u : nat) (c : bool) (ms : list method)         (* unique_ptr<I> u; *)
  | UMake (u : nat) (c : bool) (ms : list method) (T : nat)  (* unique_ptr<I> u(new T); *)
  | UResetNew (u T : nat)                                    (* u.reset(new T); *)
  | UResetNull (u : nat)                                     (* u.reset(); u = nullptr; *)
  | UMove (u v : nat)                                        (* unique_ptr<I> u(std::move(v)); *)
  | UConv (u v : nat) (c : bool) (ms : list method)          (* unique_ptr<J> u(v.release()); *)
  | UAssign (u v : nat)                                      (* u = std::move(v); *)
  | UAssignConv (u v : nat)                                  (* u.reset(v.release()); *)
  | USwap (u v : nat)                                        (* u.swap(v); *)
  | UDtor (u : nat).

  Definition ustep (o : uop) (s : ust) : ures :=
    match o with
    | UDefault u c ms => UOk (u_set u (Uptr ms c None) s)
    | UMake u c ms T => let '(a, s') := u_new T s in UOk (u_set u (Uptr ms c (u_from_obj ms T a)) s')
    | UResetNew u T =>
        match u_ptr s !! u with
        | Some x => let '(a, s') := u_new T s in u_reset u (u_from_obj (up_ms x) T a) s'
        | None => UBad UbNoSuchAny
        end
    | UResetNull u => u_reset u None s
    | UMove u v =>
        match u_ptr s !! v, u_release v s with
        | Some x, Some (p, s') => UOk (u_set u (Uptr (up_ms x) (up_const x) p) s')
        | _, _ => UBad UbNoSuchAny
        end
    | UConv u v c ms =>
        match u_ptr s !! v, u_release v s with
        | Some x, Some (p, s') =>
            match u_convert ms (up_ms x) p with Some p' => UOk (u_set u (Uptr ms c p') s') | None => UBad UbIllFormed end
        | _, _ => UBad UbNoSuchAny
        end
    | UAssign u v =>
        match u_release v s with Some (p, s') => u_reset u p s' | None => UBad UbNoSuchAny end
    | UAssignConv u v =>
        match u_ptr s !! u, u_ptr s !! v, u_release v s with
        | Some y, Some x, Some (p, s') =>
            match u_convert (up_ms y) (up_ms x) p with Some p' => u_reset u p' s' | None => UBad UbIllFormed end
        | _, _, _ => UBad UbNoSuchAny
        end
    | USwap u v =>
        match u_ptr s !! u, u_ptr s !! v with
        | Some x, Some y =>
            UOk (u_set v (Uptr (up_ms y) (up_const y) (up_val x)) (u_set u (Uptr (up_ms x) (up_const x) (up_val y)) s))
        | _, _ => UBad UbNoSuchAny
        end
    | UDtor u =>
        match u_ptr s !! u with
        | Some x => ubind (u_drop (up_ms x) (up_val x) s) (fun s' => UOk (USt (u_heap s') (u_next s') (u_log s') (delete u (u_ptr s'))))
        | None => UBad UbNoSuchAny
        end
    end.
  Fixpoint uexec (l : list uop) (s : ust) : ures := match l with [] => UOk s | o :: tl => ubind (ustep o s) (uexec tl) end.
End Unique.
