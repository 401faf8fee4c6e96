(** Specification of what uses-allocator construction makes (C97), on top of ConsSpec. *)
From stdpp Require Import list.
From Verif Require Import ConsModel ConsSpec.

(** nothing, or a value that is neither an any, a reference or pointer of the library, nor a tag *)
Definition ordinary (v : option wish) : Prop :=
  match v with None => True | Some (WValue t _ _) => ~ is_in_place t /\ ~ polymorphic t /\ t <> TForce /\ t <> TAllocArg | _ => False end.
(** the given allocator, as an argument *)
Definition the_allocator (a : anyty) : arg := AExpr (TAlloc (at_al a)) true true.
(** what the arguments [xs] can make *)
Inductive given (a : anyty) : list arg -> made -> Prop :=
(* nothing: an empty any with the allocator *)
| gi_empty : given a [] (Made Empty false FromArg)
(* one argument: a copy of it, whatever it is *)
| gi_one t c lv : given a [AExpr t c lv] (Made (Holds t [AExpr t c lv]) false FromArg)
(* a value in place: the allocator goes to the value *)
| gi_in_place t c lv xs : given a (AExpr (TInPlace t) c lv :: xs) (Made (Holds t (passed AsLvalue (xs ++ [the_allocator a]))) false FromDefault)
| gi_forced_in_place c0 lv0 t c lv xs :
    given a (AExpr TForce c0 lv0 :: AExpr (TInPlace t) c lv :: xs) (Made (Holds t (passed AsLvalue (xs ++ [the_allocator a]))) true FromDefault)
(* the tags alone, where they cannot be stored *)
| gi_force c lv : given a [AExpr TForce c lv] (Made (Holds (TAlloc (at_al a)) [the_allocator a]) true FromDefault)
| gi_allocator_arg c lv : given a [AExpr TAllocArg c lv] (Made Empty false FromArg)
(* an allocator given twice: the second is stored *)
| gi_allocator c lv ca lva :
    given a [AExpr TAllocArg c lv; AExpr (TAlloc (at_al a)) ca lva] (Made (Holds (TAlloc (at_al a)) [the_allocator a]) false FromArg).
