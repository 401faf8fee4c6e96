(** What programs on data_parallel_vectors are compared with: the same programs on std::vector<T>. *)
From Coq Require Import ZArith.
From stdpp Require Import gmap list sorting.
From Verif Require Import DpvModel DpvSpec DpvExprModel DpvExprSpec DpvProgModel.

Section Spec.
  Context (N : nat) (dfl mf : nat -> nat) (ndebug : bool) (cmp : nat -> nat -> nat -> option comparison) (eqf : nat -> nat -> nat -> bool).
  Notation vecs := (gmap nat (list row)).
  (** p run on the vectors m gives a and leaves m'.  Only runs that are defined for std::vector and use forms that data_parallel_vector has (C50, C82) *)
  (** [autos]: elements are kept in auto variables; these are copies *)
  Context (autos : bool).
  Inductive vruns {A} : prog A -> vecs -> A -> vecs -> Prop :=
  | vr_ret a m : vruns (PRet a) m a m
  | vr_op o k m a m' : vec_legal N o m -> vruns (k (snd (vec_step N dfl o m))) (fst (vec_step N dfl o m)) a m' -> vruns (POp o k) m a m'
  | vr_ex e k m t v m1 a m' : vty N e = Some t -> supported N e = true -> ndebug = true \/ forward_only e = true ->
      (forall x u, m !! x = Some u -> (Z.of_nat (length u) < 2 ^ 63)%Z) ->
      vev N mf cmp eqf e m = Some (v, m1) -> vruns (k v) m1 a m' -> vruns (PEx e k) m a m'
  | vr_auto e k m t x i m1 r a m' : autos = true -> vty N e = Some t -> supported N e = true -> ndebug = true \/ forward_only e = true ->
      (forall x u, m !! x = Some u -> (Z.of_nat (length u) < 2 ^ 63)%Z) ->
      vev N mf cmp eqf e m = Some (XRef x i, m1) -> elem x i m1 = Some r -> vruns (k (XRow r)) m1 a m' -> vruns (PAuto e k) m a m'.
End Spec.

(** the vectors of w are those of m *)
Definition same_vectors (N : nat) (w : dworld) (m : gmap nat (list row)) : Prop :=
  (forall x, is_Some (w !! x) <-> is_Some (m !! x)) /\ forall x c v, w !! x = Some c -> m !! x = Some v -> same_contents c v /\ same_columns N c v.

(** comparisons of fields that are total orders *)
Definition total_order (cmp : nat -> nat -> nat -> option comparison) : Prop :=
  (forall j x y, is_Some (cmp j x y)) /\
  (forall j x y, cmp j x y = Some Lt <-> cmp j y x = Some Gt) /\
  (forall j x y z, cmp j x y = Some Lt -> cmp j y z = Some Lt -> cmp j x z = Some Lt) /\
  (forall j x y z, cmp j x y = Some Eq -> cmp j x z = cmp j y z).
(** rows in order: no row is greater than one after it *)
Definition in_order (cmp : nat -> nat -> nat -> option comparison) (v : list row) : Prop :=
  StronglySorted (fun a b => t_cmp cmp 0 a b <> Some Gt) v.
