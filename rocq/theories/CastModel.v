(** Model of any_cast on any and on references to values, by what is asked for: T, T& or T&&.
    Sources: A = include/anyany/anyany.hpp, U = include/anyany/utility.hpp, T = include/anyany/type_descriptor.hpp.
    The pointer forms are in PolyModel. *)
From stdpp Require Import gmap list.
From Verif Require Import TypeListModel AnyModel DescModel PolyModel VisitModel.

(** the T of any_cast<T>: an object type, an lvalue or an rvalue reference to it *)
Inductive tform : Set := TVal | TLRef | TRRef.

(** what is left in an object of type T with a given value after T(std::move(x)) returned or threw *)
Record movers : Type := Movers { mv_moved : nat -> nat -> nat; mv_broken : nat -> nat -> nat }.

(** result: a reference (to const?, xvalue?) or a new object of type T *)
Inductive cres : Set := RefTo (const xval : bool) (p : ptr) | NewObj (T v : nat).

Section Cast.
  Context (E : env) (O : obs) (V : movers).

  (** T(x), x an lvalue or const: the copy constructor may throw *)
  Definition copy_out (T : nat) (p : ptr) : M cres :=
    let! o := read_as T p in
    let! thr := (if ty_ntcopy (e_ty E T) then retM false else ask E) in
    if thr : bool then throwM else retM (NewObj T (o_val o)).
  (** T(std::move(x)), x not const *)
  Definition move_out (T : nat) (p : ptr) : M cres :=
    let! o := read_as T p in
    let! thr := (if ty_ntmove (e_ty E T) then retM false else ask E) in
    if thr : bool then write_place p (Some (Obj T (mv_broken V T (o_val o)) (o_id o))) ;;; throwM
    else write_place p (Some (Obj T (mv_moved V T (o_val o)) (o_id o))) ;;; retM (NewObj T (o_val o)).

  (** A 1603-1620 any_cast<T>(U&& any); [c]: the any is const, [rv]: U&& is an rvalue reference *)
  Definition cast_any_as (i T : nat) (t : tform) (c rv : bool) : M cres :=
    let! r := cast_any O (Some i) T in
    match r with
    | None => throwM
    | Some p =>
        match t, rv with
        | TLRef, _ => retM (RefTo c false p)
        | TRRef, true => retM (RefTo c true p)
        | _, true => if c then copy_out T p else move_out T p
        | _, false => copy_out T p
        end
    end.

  (** A 1642-1650 any_cast<T>(poly_ref): result type T& for T&, else the object type;
      A 1661-1670 any_cast<T>(const_poly_ref): const X& for both kinds of reference; *ptr is an lvalue *)
  Definition cast_ref_as (p : pval) (T : nat) (t : tform) : M cres :=
    let! q := cast_ref O p T in
    match pv_k p, t with
    | KRef, TLRef => retM (RefTo false false q)
    | KCRef, (TLRef | TRRef) => retM (RefTo true false q)
    | _, _ => copy_out T q
    end.
  (** A 1680-1687 stateful::ref, stateful::cref: any_cast of get_view() *)
  Definition cast_state_as (b : bool) (r T : nat) (t : tform) : M cres :=
    let! c := run_step O GetView (CState b r) in
    match c with CView q => cast_ref_as q T t | _ => ubM UbIllFormed end.
End Cast.

(** A 1546-1561 any_cast<T, Traits>(val) for other Traits: get_type_descriptor and to_address of the traits (for
    std_variant_poly_traits U 113-148, [arg_desc] and [arg_addr] of VisitModel on a variant or an ordinary object);
    the result is a pointer, to const when to_address returns const void* *)
Definition cast_gen (O : obs) (x : varg) (T : nat) : M (bool * option ptr) :=
  let! d := arg_desc O x in
  let! e := desc_eqM d (ob_desc O (Some T)) in
  if e : bool then let! p := arg_addr O x in retM (arg_const x, p) else retM (arg_const x, None).

(** The static types of any_cast<T>: the descriptor compared is that of the decayed T (A 1581, 1587, 1631, 1637),
    the pointer is reinterpreted as X*, X = std::remove_reference_t<T> (A 1577, 1584, 1590).  The object may have been put
    into the any in another translation unit [u] than the cast's [v]. *)
Definition cast_matches (cc : compiler) (u v : unit_of) (stored t : ctype) : option bool :=
  both desc_eq (descriptor_v cc u stored) (descriptor_v cc v t).
Definition cast_pointee (t : ctype) : ctype := remove_reference t.
