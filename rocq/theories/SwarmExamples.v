(** Swarms for the examples of C47-C49. *)
From stdpp Require Import gmap list.
From Verif Require Import SwarmModel SwarmSpec.

(** Container<T> as another type *)
Definition ex_cont (T : nat) : nat := T + 100.
Definition ex_Ts : list nat := [1; 2; 3].
(** two swarms; values of types 1 and 2 mixed, some erased, then swapped *)
Definition ex_hist : list sop :=
  [ SNew 0; SNew 1; SInsert 0 1 10; SInsert 0 2 7; SEmplace 0 1 5; SInsertList 0 2 [9; 7; 8]; SInsert 0 1 10; SErase 0 2 1;
    SEraseRange 0 1 0 1; SInsert 1 3 4; SCopy 2 0; SSwap 0 1; SMove 3 2 ].
Definition ex_seq (k : ckind) : list variant :=
  match k with KBack => [(2, 7); (1, 5); (2, 7); (2, 8); (1, 10)] | KSet => [(1, 10); (2, 7); (2, 9)] end.
(** what the sequences are after the history *)
Definition ex_final (k : ckind) : gmap nat (list variant) := fold_left (fun m o => seq_step k o m) ex_hist ∅.
Definition ex_world (k : ckind) : sworld := match sexec ex_cont k ex_Ts ex_hist ∅ with SOk w => w | SBad _ => ∅ end.
Definition ex_swarm (k : ckind) : swarm := match k with KBack => [[5; 10]; [7; 7; 8]; []] | KSet => [[10]; [7; 9]; []] end.
(** a visitor that counts its calls, adds the type to the value, returns the old value unless it is of type 2 and throws on 99 *)
Definition ex_visitor : @visitor nat nat := fun T x n =>
  if decide (x = 99) then inr (n, x) else inl (S n, T + x, if decide (T = 2) then None else Some x).
(** one that does not change values *)
Definition ex_reader : @visitor nat nat := fun T x n => inl (S n, x, Some (T + x)).
