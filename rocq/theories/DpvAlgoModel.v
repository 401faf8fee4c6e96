(** Algorithms as a user of data_parallel_vector writes them; see DpvProgModel for the language. *)
From Coq Require Import ZArith.
From stdpp Require Import gmap list.
From Verif Require Import DpvModel DpvExprModel DpvProgModel.

(** if (v[j] < v[j - 1]) iter_swap(v.begin() + j, v.begin() + (j - 1)), going down *)
Fixpoint sink (x j : nat) : prog unit :=
  match j with
  | 0 => PRet tt
  | S i => PEx (ECmp (EIndex (EVec false x) (S i)) (EIndex (EVec false x) i)) (fun o =>
             match o with
             | XOrd (Some Lt) => PEx (EIterSwap (EAdd (EBegin (EVec false x)) (Z.of_nat (S i))) (EAdd (EBegin (EVec false x)) (Z.of_nat i))) (fun _ => sink x i)
             | _ => PRet tt
             end)
  end.
Fixpoint sort_first (x n : nat) : prog unit := match n with 0 => PRet tt | S k => pbind (sort_first x k) (fun _ => sink x k) end.
(** insertion sort *)
Definition sort (x : nat) : prog unit := PEx (ESize (EVec true x)) (fun n => match n with XNum n => sort_first x n | _ => PRet tt end).

(** if (p(v[i])) v.erase(v.begin() + i), from the last element to the first *)
Fixpoint erase_first (x : nat) (p : row -> bool) (n : nat) : prog unit :=
  match n with
  | 0 => PRet tt
  | S i => PEx (EValue (EIndex (EVec true x) i)) (fun r =>
             match r with
             | XRow a => if p a then POp (DErase x i) (fun _ => erase_first x p i) else erase_first x p i
             | _ => PRet tt
             end)
  end.
Definition erase_if (x : nat) (p : row -> bool) : prog unit := PEx (ESize (EVec true x)) (fun n => match n with XNum n => erase_first x p n | _ => PRet tt end).

(** auto t = v[i]; v[i] = v[j]; v[j] = t *)
Definition swap_auto (x i j : nat) : prog unit :=
  PAuto (EIndex (EVec false x) i) (fun t =>
  PEx (ESetRef (EIndex (EVec false x) i) (EIndex (EVec false x) j)) (fun _ =>
  PEx (assign_var (EIndex (EVec false x) j) t) (fun _ => PRet tt))).
