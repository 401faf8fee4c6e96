(** What is expected of moves into and out of the vector. *)
From stdpp Require Import list.
From Verif Require Import MoveModel.

Definition times (e : mev) (es : list mev) : nat := length (List.filter (fun x => bool_decide (x = e)) es).
(** [cols'] is [cols] with the fields of [v] as a new row at [i] *)
Definition row_inserted (i : nat) (v : list nat) (cols cols' : list (list nat)) : Prop :=
  length cols' = length cols /\ forall j col x, cols !! j = Some col -> v !! j = Some x ->
    exists a b, col = a ++ b /\ length a = i /\ cols' !! j = Some (a ++ x :: b).
(** [v] is row [i] of [cols] *)
Definition is_row (i : nat) (cols : list (list nat)) (v : list nat) : Prop :=
  length v = length cols /\ forall j col, cols !! j = Some col -> v !! j = col !! i /\ i < length col.
(** [cols'] differs from [cols] only in row [i], which holds [v] *)
Definition row_replaced (i : nat) (v : list nat) (cols cols' : list (list nat)) : Prop :=
  length cols' = length cols /\ length v = length cols /\ forall j col col', cols !! j = Some col -> cols' !! j = Some col' ->
    length col' = length col /\ col' !! i = v !! j /\ forall k, k <> i -> col' !! k = col !! k.
