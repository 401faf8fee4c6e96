(** Model of data_parallel_vector's iterators.
    Source: P = include/anyany/data_parallel_vector.hpp.
    index_t is an unsigned, difference_type a signed 64 bit integer. *)
From Coq Require Import ZArith.
From stdpp Require Import list.
From Verif Require Import AnyModel DpvModel.
Local Open Scope Z_scope.

Definition two64 : Z := 2 ^ 64.
(** conversion to the unsigned and to the signed type *)
Definition to_u (z : Z) : Z := z mod two64.
Definition to_s (z : Z) : Z := let u := to_u z in if u <? 2 ^ 63 then u else u - two64.

(** P 233-240 iterator_: the index; the owner is the vector the iterator is used with *)
Record iter : Type := Iter { idx : Z }.

Section Iter.
  (** built with NDEBUG: assert does nothing *)
  Context (ndebug : bool).
  Definition asserting {A} (b : bool) (k : option A) : option A := if ndebug || b then k else None.
  (** P 292-301 ++; [sz] the owner's size *)
  Definition it_inc (sz : Z) (it : iter) : option iter := asserting (negb (idx it =? sz)) (Some (Iter (to_u (idx it + 1)))).
  (** P 302-311 -- *)
  Definition it_dec (it : iter) : option iter := asserting (negb (idx it =? 0)) (Some (Iter (to_u (idx it - 1)))).
  (** P 312-324 +=, +, n + it: only owner != nullptr is asserted *)
  Definition it_add (it : iter) (n : Z) : iter := Iter (to_u (idx it + n)).
  (** P 325-334 -=, - n: assert(dif <= index) compares as unsigned *)
  Definition it_sub (it : iter) (n : Z) : option iter := asserting (to_u n <=? idx it) (Some (Iter (to_u (idx it - n)))).
  (** P 335-337: the difference of the unsigned indexes converted to difference_type *)
  Definition it_diff (a b : iter) : Z := to_s (to_u (idx a - idx b)).
  (** P 344-351 ==, <=> *)
  Definition it_eq (a b : iter) : bool := idx a =? idx b.
  Definition it_cmp (a b : iter) : comparison := idx a ?= idx b.
End Iter.
(** P 341-343 == default_sentinel *)
Definition it_at_end (it : iter) : dM bool := dlet n := d_size in dret (Z.of_nat n =? idx it).
(** P 289-291 operator*, read as a value; P 338-340 operator[] *)
Definition it_read (it : iter) : dM row := d_read (Z.to_nat (idx it)).
Definition it_at (it : iter) (n : Z) : dM row := it_read (it_add it n).
(** P 408-425 begin, end *)
Definition it_begin : dM iter := dret (Iter 0).
Definition it_end : dM iter := dlet n := d_size in dret (Iter (Z.of_nat n)).
