(** Model of erased visitors, /repo/include/anyany/utility.hpp (U) 150-262. *)
From stdpp Require Import gmap list countable.
From Verif Require Import TypeListModel AnyModel DescModel PolyModel.

(** visit1<T>, visit2<T, U> as methods: one method per static type or pair of types *)
Definition visit1 (T : nat) : method := MUser (encode_nat (T, @None nat)).
Definition visit2 (T U : nat) : method := MUser (encode_nat (T, Some U)).

(** U 210-212, 248-262: the interfaces, without visitor_interface_tag, whose value is an empty struct *)
Definition visitor_interface (Ts : list nat) : list method := map visit1 Ts.
Definition visitor2_interface (Ts Us : list nat) : list method := concat (map (fun T => map (visit2 T) Us) Ts).

(** the visitor classes: does the overload of class V for these argument types return aa::noop; its body, given the
    visitor's (const) value and the arguments *)
Record vbodies : Type := VBodies { vb_noop : nat -> list nat -> bool; vb_run : nat -> nat -> list (nat * ptr) -> M unit }.

Section Visitor.
  Context (B : vbodies).

  (** U 183-188, 219-225: visit_fn<V, Ts...> reads the visitor and calls it on the objects the pointers point to,
      noop_fn does nothing; U 193-200, 230-237: which of them is in the slot *)
  Fixpoint check_args (args : list (nat * ptr)) : M unit :=
    match args with [] => retM tt | (T, q) :: tl => let! _ := read_as T q in check_args tl end.
  Definition slot_fn (V : nat) (self : ptr) (args : list (nat * ptr)) : M unit :=
    if vb_noop B V (map fst args) then retM tt
    else let! v := read_as V self in check_args args ;;; vb_run B V (o_val v) args.

  (** U 202-207, 239-245: the functions found by argument-dependent lookup; exactly one has parameters T& (and U&), so
      exact static types select it. visitor: an any or a view. *)
  Definition adl_visit1 (x : operand) (T : nat) (q : ptr) : M unit :=
    let! V := op_slot x (visit1 T) in
    let! self := op_ptr x in
    slot_fn V self [(T, q)].
  Definition adl_visit2 (x : operand) (T U : nat) (q r : ptr) : M unit :=
    let! V := op_slot x (visit2 T U) in
    let! self := op_ptr x in
    slot_fn V self [(T, q); (U, r)].
End Visitor.
