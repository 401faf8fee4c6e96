(** Model of programs that use data_parallel_vectors: statements and expressions, each chosen from the results of those before it.
    Source: P = include/anyany/data_parallel_vector.hpp.
    A program sees the vectors only through the results of the members it calls; loops are recursion over what it has seen, so all programs
    that end are covered.  Rows, numbers and positions can be kept in variables (the continuations); an iterator kept in a variable is its position
    (P 236-237: owner and index), to be made again from begin(). *)
From Coq Require Import ZArith.
From stdpp Require Import gmap list.
From Verif Require Import DpvModel DpvIterModel DpvExprModel.

Inductive prog (A : Type) : Type :=
| PRet (a : A)
| POp (o : dop) (k : option nat -> prog A)     (* a statement of DpvModel; the position of the iterator or reference it returns *)
| PEx (e : expr) (k : xval -> prog A)          (* an expression of DpvExprModel; its value *)
| PAuto (e : expr) (k : xval -> prog A).       (* auto x = element; what x is *)
Arguments PRet {A}. Arguments POp {A}. Arguments PEx {A}. Arguments PAuto {A}.
Fixpoint pbind {A B} (p : prog A) (f : A -> prog B) : prog B :=
  match p with PRet a => f a | POp o k => POp o (fun r => pbind (k r) f) | PEx e k => PEx e (fun v => pbind (k v) f) | PAuto e k => PAuto e (fun v => pbind (k v) f) end.
(** element = x for such a variable x, a row or another reference *)
Definition assign_var (e : expr) (v : xval) : expr := match v with XRow r => ESetValue e r | XRef y j => ESetRef e (EIndex (EVec false y) j) | _ => e end.

Section Run.
  Context (N : nat) (dfl mf : nat -> nat) (ndebug : bool) (cmp : nat -> nat -> nat -> option comparison).
  (** None: an assertion fails, a column is used out of bounds or what is to be executed does not compile *)
  Fixpoint drun {A} (p : prog A) (w : dworld) : option (A * dworld) :=
    match p with
    | PRet a => Some (a, w)
    | POp o k => match dstep N dfl mf o w None with WOk w' r _ => drun (k r) w' | _ => None end
    | PEx e k => match dty N e with
                 | Some _ => match dev N mf ndebug cmp e w with Some (v, w') => drun (k v) w' | None => None end
                 | None => None
                 end
    (* P 66-78, 173-187, 289-291: the element is a proxy, made in x itself, as a prvalue is not copied *)
    | PAuto e k => match dty N e with
                   | Some (TRef _) => match dev N mf ndebug cmp e w with Some (v, w') => drun (k v) w' | None => None end
                   | _ => None
                   end
    end.
End Run.
