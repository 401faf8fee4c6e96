(** Model: algorithms that rearrange anys by comparing and moving them, such as those of <algorithm>.
    Source: A = include/anyany/anyany.hpp: A 1852-1869 spaceship, A 1215-1218 move construction, A 1219-1252 move assignment, A 1192-1194
    destruction, as modelled in AnyModel and PolyModel.  The algorithms are not part of the library. *)
From stdpp Require Import gmap list.
From Verif Require Import AnyModel PolyModel KeyModel.

(** i and j are names of anys *)
Inductive aprog (A : Type) : Type :=
| ARet (x : A)
| ALess (i j : nat) (k : bool -> aprog A)  (* i < j *)
| AMove (i j : nat) (k : aprog A)          (* any i = std::move(j), a new any *)
| AAssign (i j : nat) (k : aprog A)        (* i = std::move(j) *)
| AEnd (i : nat) (k : aprog A).            (* the end of the scope of i *)
Arguments ARet {A}. Arguments ALess {A}. Arguments AMove {A}. Arguments AAssign {A}. Arguments AEnd {A}.
Fixpoint abind {A B} (p : aprog A) (f : A -> aprog B) : aprog B :=
  match p with
  | ARet x => f x
  | ALess i j k => ALess i j (fun b => abind (k b) f)
  | AMove i j k => AMove i j (abind k f)
  | AAssign i j k => AAssign i j (abind k f)
  | AEnd i k => AEnd i (abind k f)
  end.

Fixpoint arun {A} (E : env) (O : obs) (p : aprog A) : M A :=
  match p with
  | ARet x => retM x
  | ALess i j k => let! b := less O i j in arun E O (k b)
  | AMove i j k => move_ctor E i j ;;; arun E O k
  | AAssign i j k => move_assign E i j ;;; arun E O k
  | AEnd i k => dtor E i ;;; arun E O k
  end.

(** std::swap *)
Definition a_swap (i j t : nat) : aprog unit := AMove t i (AAssign i j (AAssign j t (AEnd t (ARet tt)))).
(** The inner loop of an insertion sort: the value of [t] goes down from [x], whose value was moved away, past the anys [prev] before it
    (the nearest first). *)
Fixpoint a_hole (t x : nat) (prev : list nat) : aprog unit :=
  match prev with
  | [] => AAssign x t (ARet tt)
  | y :: tl => ALess t y (fun b => if b : bool then AAssign x y (a_hole t y tl) else AAssign x t (ARet tt))
  end.
Definition a_insert (t x : nat) (prev : list nat) : aprog unit := AMove t x (abind (a_hole t x prev) (fun _ => AEnd t (ARet tt))).
Fixpoint a_sort (t : nat) (prev l : list nat) : aprog unit :=
  match l with
  | [] => ARet tt
  | x :: tl => abind (a_insert t x prev) (fun _ => a_sort t (x :: prev) tl)
  end.
(** std::reverse *)
Fixpoint a_reverse_n (n t : nat) (l : list nat) : aprog unit :=
  match n, l with
  | S n, x :: y :: tl => abind (a_swap x (List.last (y :: tl) y) t) (fun _ => a_reverse_n n t (removelast (y :: tl)))
  | _, _ => ARet tt
  end.
Definition a_reverse (t : nat) (l : list nat) : aprog unit := a_reverse_n (length l) t l.
