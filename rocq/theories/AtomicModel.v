(** Model of std::atomic<poly_ptr<Methods...>> and std::atomic<const_poly_ptr<Methods...>>, shared by threads.
    Sources: A = include/anyany/anyany.hpp; README 442: "poly_ptr and const_poly_ptr are trivially copyable, so
    std::atomic<poly_ptr<...>> works".  std::atomic: [atomics.types.operations].

    A pointer is its two words, the vtable pointer (A 538; with one method the table itself, A 552) and value_ptr (A 567, 614):
    compare_exchange compares the words, not operator==.  There is no padding (C93).  Operations are sequentially consistent
    and compare_exchange is the strong one, except in update_weak.  Tables are told apart by their type and methods, so lists of methods should
    not be empty. *)
From stdpp Require Import list.
From Verif Require Import TypeListModel AnyModel PolyModel.

Global Instance vptr_eq_dec : EqDecision vptr. Proof. solve_decision. Defined.

(** the object representation of a poly_ptr *)
Record words : Set := Words { wd_vt : option vptr; wd_p : option ptr }.
Global Instance words_eq_dec : EqDecision words. Proof. solve_decision. Defined.
(** the poly_ptr<ms> (const_poly_ptr<ms>) with these words, and its words *)
Definition as_ptr (k : kind) (ms : list method) (b : words) : pval := PV k (wd_vt b) (wd_p b) ms.
Definition words_of (p : pval) : words := Words (pv_vt p) (pv_p p).
(** A 664-666 poly_ptr(nullptr), A 746-748 const_poly_ptr(nullptr): default member initialisers, A 538, 567, 614 *)
Definition null_words : words := Words None None.

(** a thread: the operations on the atomic it still has to do, each depending on the results of those before *)
Inductive thread : Type :=
| TDone (ok : bool) (b : words)
| TLoad (k : words -> thread)
| TStore (b : words) (k : thread)
| TExchange (b : words) (k : words -> thread)
| TCas (expected desired : words) (k : bool -> words -> thread).

(** one operation: the atomic afterwards and what the thread does next *)
Definition tstep (v : words) (t : thread) : option (words * thread) :=
  match t with
  | TDone _ _ => None
  | TLoad k => Some (v, k v)
  | TStore b k => Some (b, k)
  | TExchange b k => Some (b, k v)
  | TCas e d k => if bool_decide (v = e) then Some (d, k true e) else Some (v, k false v)
  end.
(** the threads take turns; a turn of a thread that is done changes nothing *)
Fixpoint run (s : list nat) (v : words) (ts : list thread) : words * list thread :=
  match s with
  | [] => (v, ts)
  | i :: s =>
      match ts !! i with
      | Some t => match tstep v t with Some (v', t') => run s v' (<[i := t']> ts) | None => run s v ts end
      | None => run s v ts
      end
  end.

(** a pointer is installed where nullptr is expected:
    [P e = nullptr; ok = a.compare_exchange_strong(e, p); use(ok ? p : e);] *)
Definition install (p : words) : thread := TCas null_words p (fun ok q => TDone ok (if ok then p else q)).
(** [P e = a.load(); while (!a.compare_exchange_strong(e, f(e)));], given up after n attempts *)
Fixpoint attempts (n : nat) (f : words -> words) (e : words) : thread :=
  match n with
  | 0 => TDone false e
  | S n => TCas e (f e) (fun ok q => if ok then TDone true e else attempts n f q)
  end.
Definition update (n : nat) (f : words -> words) : thread := TLoad (attempts n f).
(** [P e = a.load(); while (!a.compare_exchange_weak(e, f(e)));]: the list says which attempts fail spuriously; such an
    attempt compares nothing and reads the pointer that is there *)
Fixpoint weak_attempts (spurious : list bool) (f : words -> words) (e : words) : thread :=
  match spurious with
  | [] => TDone false e
  | true :: l => TLoad (weak_attempts l f)
  | false :: l => TCas e (f e) (fun ok q => if ok then TDone true e else weak_attempts l f q)
  end.
Definition update_weak (spurious : list bool) (f : words -> words) : thread := TLoad (weak_attempts spurious f).
(** a pointer is handed over for the one that is there: [q = a.exchange(p);] *)
Definition hand_over (p : words) : thread := TExchange p (TDone true).
