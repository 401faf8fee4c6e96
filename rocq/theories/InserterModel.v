(** std::visit(aa::inserter(swarm), variant): S = include/anyany/variant_swarm.hpp. *)
From stdpp Require Import list.
From Verif Require Import AnyModel SwarmModel OverloadModel.

Section Inserter.
  (** the classes; the containers and types of the swarm; the value of an object of one type converted to another *)
  Context (K : classes) (cont : nat -> nat) (k : ckind) (Ts : list nat) (convert : nat -> nat -> nat -> nat).
  (** S 244-249: the lambda inserts what the variant holds, an alternative A with value v; the insert selected converts it *)
  Definition inserter_run (c lv : bool) (A v : nat) (s : swarm) : sres (swarm * sret) :=
    match insert_call K Ts (Arg A c lv) with
    | Some (T, _) => s_insert cont k Ts T (convert A T v) s
    | None => SBad UbIllFormed
    end.
End Inserter.
